(** Property theorems C30: the package C-state limit and its lock. *)
From Coq Require Import Ascii String.
From Verif Require Import Base L_Base M_CPUInfo S_CPUInfo X_CPUInfo M_Text M_MSR S_MSR X_MSR M_FMSR S_FMSR
  L_FMSR L_FMSR2 L_FMSR3 X_FMSR M_PCState S_PCState L_PCState X_PCState.

(** If the register of any CPU asked for is locked, setting the limit fails, and nothing is written: no
    hardware register changes, nothing is logged or left in the transaction buffer. *)
Theorem C30_locked : forall env sc,
  wf_ci (me_ci env) -> (forall a, scope_right env a (sc a)) -> faithful env ->
  forall fr fe lockbit, limit_reg fr fe lockbit -> fe_ios fe = Some (sc (fr_addr fr)) ->
  forall ops hw faults v cpus c r s',
  disciplined_for env sc ops (fr_addr fr) cpus ->
  let s := mrun env ops (msr_init hw faults) in
  In c (targets env cpus) -> is_locked env s (fr_addr fr) lockbit c ->
  write_limit env fr v cpus s = (r, s') ->
  (exists e, r = Exn e) /\ ms_hw s' = ms_hw s /\ ms_log s' = ms_log s /\ ms_tbuf s' = ms_tbuf s /\
  (forall a' d, view env s' a' d = view env s a' d).
Proof. exact locked_l. Qed.
Print Assumptions C30_locked.

(** On success no CPU asked for was locked, their limit fields hold the number asked for, and no other bit,
    register or CPU changes. *)
Theorem C30_set : forall env sc,
  wf_ci (me_ci env) -> (forall a, scope_right env a (sc a)) -> faithful env ->
  forall fr fe lockbit, limit_reg fr fe lockbit -> fe_ios fe = Some (sc (fr_addr fr)) ->
  forall ops hw faults v cpus s',
  disciplined_for env sc ops (fr_addr fr) cpus ->
  let s := mrun env ops (msr_init hw faults) in
  write_limit env fr v cpus s = (Ok tt, s') ->
  let a := fr_addr fr in
  (forall c, In c (targets env cpus) -> ~ is_locked env s a lockbit c /\ exists code, means fe v code /\
     is_set (fe_bits fe) code (view env s a (me_dom env a c)) (view env s' a (me_dom env a c))) /\
  (forall a' d, ~ (a' = a /\ targeted env a cpus d) -> view env s' a' d = view env s a' d) /\
  (ms_intr s = false -> forall a d, view env s' a d = ms_hw s' a d) /\
  (ms_intr s = true -> ms_hw s' = ms_hw s /\ ms_log s' = ms_log s).
Proof. exact limit_write_l. Qed.
Print Assumptions C30_set.

Theorem C30_set_failed : forall env sc,
  wf_ci (me_ci env) -> (forall a, scope_right env a (sc a)) -> faithful env ->
  forall fr fe lockbit, limit_reg fr fe lockbit -> fe_ios fe = Some (sc (fr_addr fr)) ->
  forall ops hw faults v cpus e s',
  disciplined_for env sc ops (fr_addr fr) cpus ->
  let s := mrun env ops (msr_init hw faults) in
  write_limit env fr v cpus s = (Exn e, s') ->
  forall a' d, ~ (a' = fr_addr fr /\ targeted env (fr_addr fr) cpus d) -> view env s' a' d = view env s a' d.
Proof. exact limit_write_failed_l. Qed.
Print Assumptions C30_set_failed.

(** Every CPU asked for is reported by the name of the number its register holds, or, for a number without a
    name, of the closest lower one; the lists of names and aliases are those of the table. Reading
    changes nothing. *)
Theorem C30_reported : forall env sc,
  wf_ci (me_ci env) -> (forall a, scope_right env a (sc a)) -> faithful env ->
  forall fr fe lockbit, limit_reg fr fe lockbit -> fe_ios fe = Some (sc (fr_addr fr)) ->
  forall ops hw faults cpus r s',
  disciplined env sc ops ->
  let s := mrun env ops (msr_init hw faults) in
  read_limit env fr cpus s = (Ok r, s') ->
  (forall c, In c (targets env cpus) <-> exists x, In (c, x) r) /\
  (forall c x, In (c, x) r ->
     li_limits x = map fst (vals_of fe) /\ li_aliases x = aliases_of fe /\
     exists code, is_field (fe_bits fe) (view env s (fr_addr fr) (me_dom env (fr_addr fr) c)) code /\
                  reported (vals_of fe) code (li_limit x)) /\
  ms_hw s' = ms_hw s /\ ms_log s' = ms_log s.
Proof. exact limit_read_l. Qed.
Print Assumptions C30_reported.

(** After setting the limit and any calls that do not touch the register, every CPU asked for reports the
    limit set. *)
Theorem C30_set_then_get : forall env sc,
  wf_ci (me_ci env) -> (forall a, scope_right env a (sc a)) -> faithful env ->
  forall fr fe lockbit, limit_reg fr fe lockbit -> fe_ios fe = Some (sc (fr_addr fr)) ->
  forall ops ops2 hw faults cpus v s' cpus2 r s'' c x,
  disciplined_for env sc (ops ++ ops2) (fr_addr fr) cpus ->
  write_limit env fr v cpus (mrun env ops (msr_init hw faults)) = (Ok tt, s') ->
  read_limit env fr cpus2 (mrun env ops2 s') = (Ok r, s'') ->
  In (c, x) r -> In c (targets env cpus) ->
  (forall o, In o ops2 -> ~ op_touches env o (fr_addr fr) (me_dom env (fr_addr fr) c)) ->
  exists code, means fe v code /\ In (li_limit x, code) (vals_of fe).
Proof. exact limit_write_then_read_l. Qed.
Print Assumptions C30_set_then_get.

(** Setting the limit leaves the MSR object in a state that at most one MSR call leads to: the histories above
    may contain it. *)
Theorem C30_is_msr_call : forall env sc fr fe lockbit v cpus s,
  limit_reg fr fe lockbit -> fe_ios fe = Some (sc (fr_addr fr)) -> wf_ci (me_ci env) ->
  exists ops,
    (ops = [] \/
     (exists p, incl p (targets env cpus) /\ ops = [ORead (fr_addr fr) (Some p) (sc (fr_addr fr))]) \/
     exists code, means fe v code /\
       ops = [OWriteBits (fr_addr fr) (fe_bits fe) (Some code) cpus (sc (fr_addr fr)) false]) /\
    snd (write_limit env fr v cpus s) = mrun env ops s.
Proof. exact limit_is_msr_call. Qed.
Print Assumptions C30_is_msr_call.

(** The tables of all the CPU models are of the form the theorems ask for. *)
Theorem C30_tables : forall ios t fr, In t pkg_cst_tables -> fr_feats fr = pcst_reg ios t ->
  exists fe, limit_reg fr fe 15 /\ fe_ios fe = ios /\ fe_writable fe = true.
Proof. exact limit_tables_l. Qed.
Print Assumptions C30_tables.

Example C30_ex_hyps : wf_ci (me_ci x_env) /\ (forall a, scope_right x_env a (x_sc a)) /\ faithful x_env /\
  limit_reg x_fr x_limit 15 /\ fe_ios x_limit = Some (x_sc (fr_addr x_fr)) /\
  disciplined_for x_env x_sc x_lock_ops (fr_addr x_fr) (Some [1; 4]) /\
  let s := mrun x_env x_lock_ops (msr_init x_hw []) in
  is_locked x_env s 416 15 4 /\ ~ is_locked x_env s 416 15 1.
Proof.
  split; [exact xci_wf|]. split; [exact x_scope_right|]. split; [exact x_faithful|].
  split; [exact (proj1 x_limit_reg)|]. split; [exact (proj2 x_limit_reg)|]. split; [exact x_lock_disc|].
  split; [vm_compute; reflexivity|]. intros H. vm_compute in H. discriminate.
Qed.
Example C30_ex_run :
  let s := mrun x_env x_lock_ops (msr_init x_hw []) in
  fst (write_limit x_env x_fr (VStr (s2l "pc2")) (Some [1; 4]) s) = Exn EError /\
  ms_log (snd (write_limit x_env x_fr (VStr (s2l "pc2")) (Some [1; 4]) s)) = ms_log s /\
  let (r, s') := write_limit x_env x_fr (VStr (s2l "pc2")) (Some [1]) s in
  r = Ok tt /\ ms_log s' = ms_log s ++ [(1, 416, 1)] /\
  match read_limit x_env x_fr (Some [0; 4]) s' with
  | (Ok l, _) => map (fun cx => (fst cx, li_limit (snd cx))) l = [(0, VStr (s2l "PC2")); (4, VStr (s2l "PC6R"))]
  | (Exn _, _) => False
  end.
Proof. vm_compute. repeat split. Qed.
(** Numbers without a name; on Denverton 0 is "unlimited". *)
Example C30_ex_names :
  let dnv := [(VStr (s2l "PC2"), 2); (VStr (s2l "PC6"), 3); (VStr (s2l "unlimited"), 0)] in
  map (limit_name dnv) [0; 1; 2; 3; 7] =
  [VStr (s2l "unlimited"); VStr (s2l "1"); VStr (s2l "PC2"); VStr (s2l "PC6"); VStr (s2l "PC6")].
Proof. vm_compute. reflexivity. Qed.
