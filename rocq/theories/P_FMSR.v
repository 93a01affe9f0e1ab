(** Property theorems C44: named MSR features. *)
From Coq Require Import Ascii String.
From Verif Require Import Base L_Base M_CPUInfo S_CPUInfo X_CPUInfo M_Text M_MSR S_MSR X_MSR M_FMSR S_FMSR
  L_FMSR L_FMSR2 L_FMSR3 X_FMSR.

(** ** Reading and writing *)

(** A successful write stores the number the value stands for in the field of every CPU asked for, and changes
    nothing else: no other bit, register or CPU. *)
Theorem C44_write : forall env sc,
  wf_ci (me_ci env) -> (forall a, scope_right env a (sc a)) -> faithful env ->
  forall fr fname fe,
  dget str_eqb (fr_feats fr) fname = Some fe -> feature_ok fe -> fe_ios fe = Some (sc (fr_addr fr)) ->
  forall ops hw faults cpus v s',
  disciplined_for env sc ops (fr_addr fr) cpus -> (fe_vals fe = None -> not_negative v) ->
  let s := mrun env ops (msr_init hw faults) in
  write_feature env fr fname v cpus s = (Ok tt, s') ->
  let a := fr_addr fr in
  (forall c, In c (targets env cpus) -> exists code, means fe v code /\
     is_set (fe_bits fe) code (view env s a (me_dom env a c)) (view env s' a (me_dom env a c)) /\
     is_field (fe_bits fe) (view env s' a (me_dom env a c)) code) /\
  (forall a' d, ~ (a' = a /\ targeted env a cpus d) -> view env s' a' d = view env s a' d) /\
  (ms_intr s = false -> forall a d, view env s' a d = ms_hw s' a d) /\
  (ms_intr s = true -> ms_hw s' = ms_hw s /\ ms_log s' = ms_log s).
Proof. exact write_l. Qed.
Print Assumptions C44_write.

(** A failed write changes no register other than those asked for. *)
Theorem C44_write_failed : forall env sc,
  wf_ci (me_ci env) -> (forall a, scope_right env a (sc a)) -> faithful env ->
  forall fr fname fe,
  dget str_eqb (fr_feats fr) fname = Some fe -> feature_ok fe -> fe_ios fe = Some (sc (fr_addr fr)) ->
  forall ops hw faults cpus v e s',
  disciplined_for env sc ops (fr_addr fr) cpus -> (fe_vals fe = None -> not_negative v) ->
  let s := mrun env ops (msr_init hw faults) in
  write_feature env fr fname v cpus s = (Exn e, s') ->
  forall a' d, ~ (a' = fr_addr fr /\ targeted env (fr_addr fr) cpus d) -> view env s' a' d = view env s a' d.
Proof. exact write_failed_l. Qed.
Print Assumptions C44_write_failed.

(** Another feature of the same register keeps its value, on every CPU. *)
Theorem C44_other_features : forall env sc,
  wf_ci (me_ci env) -> (forall a, scope_right env a (sc a)) -> faithful env ->
  forall fr fname fe,
  dget str_eqb (fr_feats fr) fname = Some fe -> feature_ok fe -> fe_ios fe = Some (sc (fr_addr fr)) ->
  forall ops hw faults cpus v s' fe2 c code,
  disciplined_for env sc ops (fr_addr fr) cpus -> (fe_vals fe = None -> not_negative v) ->
  field_ok (fe_bits fe2) -> disjoint (fe_bits fe) (fe_bits fe2) -> In c (ci_online (me_ci env)) ->
  let s := mrun env ops (msr_init hw faults) in
  write_feature env fr fname v cpus s = (Ok tt, s') ->
  is_field (fe_bits fe2) (view env s (fr_addr fr) (me_dom env (fr_addr fr) c)) code ->
  is_field (fe_bits fe2) (view env s' (fr_addr fr) (me_dom env (fr_addr fr) c)) code.
Proof. exact write_other_l. Qed.
Print Assumptions C44_other_features.

(** Reading gives every CPU asked for the name of what its register holds, and changes nothing. *)
Theorem C44_read : forall env sc,
  wf_ci (me_ci env) -> (forall a, scope_right env a (sc a)) -> faithful env ->
  forall fr fname fe,
  dget str_eqb (fr_feats fr) fname = Some fe -> feature_ok fe -> fe_ios fe = Some (sc (fr_addr fr)) ->
  forall ops hw faults cpus r s',
  disciplined env sc ops ->
  let s := mrun env ops (msr_init hw faults) in
  read_feature env fr fname cpus s = (Ok r, s') ->
  (forall c, In c (targets env cpus) <-> exists x, In (c, x) r) /\
  (forall c x, In (c, x) r -> exists code,
     is_field (fe_bits fe) (view env s (fr_addr fr) (me_dom env (fr_addr fr) c)) code /\ named_as fe code x) /\
  ms_hw s' = ms_hw s /\ ms_log s' = ms_log s.
Proof. exact read_l. Qed.
Print Assumptions C44_read.

(** After a write and any calls that do not touch the register, reading returns the name of what was written. *)
Theorem C44_write_then_read : forall env sc,
  wf_ci (me_ci env) -> (forall a, scope_right env a (sc a)) -> faithful env ->
  forall fr fname fe,
  dget str_eqb (fr_feats fr) fname = Some fe -> feature_ok fe -> fe_ios fe = Some (sc (fr_addr fr)) ->
  forall ops ops2 hw faults cpus v s' cpus2 r s'' c x,
  disciplined_for env sc (ops ++ ops2) (fr_addr fr) cpus -> (fe_vals fe = None -> not_negative v) ->
  write_feature env fr fname v cpus (mrun env ops (msr_init hw faults)) = (Ok tt, s') ->
  read_feature env fr fname cpus2 (mrun env ops2 s') = (Ok r, s'') ->
  In (c, x) r -> In c (targets env cpus) ->
  (forall o, In o ops2 -> ~ op_touches env o (fr_addr fr) (me_dom env (fr_addr fr) c)) ->
  exists code, means fe v code /\ named_as fe code x.
Proof. exact write_then_read_l. Qed.
Print Assumptions C44_write_then_read.

(** That name is the very name given, if it was given as the table spells it; a number comes back as it is. *)
Theorem C44_same_name : forall fe v c x, feature_ok fe -> In (v, c) (vals_of fe) ->
  (exists code, means fe v code /\ named_as fe code x) -> x = v.
Proof. exact canonical_l. Qed.
Print Assumptions C44_same_name.

Theorem C44_same_number : forall fe n x, fe_vals fe = None ->
  (exists code, means fe (VInt n) code /\ named_as fe code x) -> x = VInt n.
Proof. exact canonical_int_l. Qed.
Print Assumptions C44_same_number.

(** A value has one meaning. *)
Theorem C44_unambiguous : forall fe, feature_ok fe ->
  forall v c d, means fe v c -> means fe v d -> c = d.
Proof. exact means_unique. Qed.
Print Assumptions C44_unambiguous.

(** "Enabled" means that the field holds the number of "on". *)
Theorem C44_enabled : forall env sc,
  wf_ci (me_ci env) -> (forall a, scope_right env a (sc a)) -> faithful env ->
  forall fr fname fe,
  dget str_eqb (fr_feats fr) fname = Some fe -> feature_ok fe -> fe_ios fe = Some (sc (fr_addr fr)) ->
  forall ops hw faults cpus r s',
  disciplined env sc ops ->
  fe_vals fe = Some [(VStr (s2l "on"), 1); (VStr (s2l "off"), 0)] \/
  fe_vals fe = Some [(VStr (s2l "on"), 0); (VStr (s2l "off"), 1)] ->
  let s := mrun env ops (msr_init hw faults) in
  is_feature_enabled env fr fname cpus s = (Ok r, s') ->
  forall c b, In (c, b) r -> exists code,
    is_field (fe_bits fe) (view env s (fr_addr fr) (me_dom env (fr_addr fr) c)) code /\
    (b = true <-> means fe (VStr (s2l "on")) code).
Proof. exact enabled_l. Qed.
Print Assumptions C44_enabled.

(** Enabling and disabling is writing "on" and "off". *)
Theorem C44_enable : forall env fr fname v cpus s r s', enable_feature env fr fname v cpus s = (r, s') ->
  ((exists e, r = Exn e) /\ s' = s) \/
  exists b, switch v b /\
    write_feature env fr fname (VStr (s2l (if b then "on" else "off")%string)) cpus s = (r, s').
Proof. exact enable_l. Qed.
Print Assumptions C44_enable.

(** Every feature call leaves the MSR object in a state that at most one MSR call leads to, so that the
    histories above may contain feature calls, too. *)
Theorem C44_read_is_msr_call : forall env sc fr fname cpus s,
  (forall fe, dget str_eqb (fr_feats fr) fname = Some fe ->
     field_ok (fe_bits fe) /\ fe_ios fe = Some (sc (fr_addr fr))) ->
  exists ops, (ops = [] \/ ops = [ORead (fr_addr fr) cpus (sc (fr_addr fr))]) /\
    snd (read_feature env fr fname cpus s) = mrun env ops s.
Proof. exact read_is_msr_call. Qed.
Print Assumptions C44_read_is_msr_call.

Theorem C44_write_is_msr_call : forall env sc fr fname fe v cpus s,
  dget str_eqb (fr_feats fr) fname = Some fe -> feature_ok fe -> fe_ios fe = Some (sc (fr_addr fr)) ->
  exists ops,
    (ops = [] \/ (exists c, In c (targets env cpus) /\ ops = [ORead (fr_addr fr) (Some [c]) (sc (fr_addr fr))]) \/
     exists code, means fe v code /\
       ops = [OWriteBits (fr_addr fr) (fe_bits fe) (Some code) cpus (sc (fr_addr fr)) false]) /\
    snd (write_feature env fr fname v cpus s) = mrun env ops s.
Proof. exact write_is_msr_call. Qed.
Print Assumptions C44_write_is_msr_call.

(** ** Rejections *)

(** An unknown feature, an offline or unsupported CPU, a read-only feature or an unknown value name: refused, in any
    state, with nothing read or written. *)
Theorem C44_rejected : forall env model flags off addr feats fr,
  init_reg (me_ci env) model flags off addr feats = Ok fr -> NoDup (map fst feats) ->
  forall fname v cpus s,
  (forall fe, In (fname, fe) feats -> feature_ok fe) ->
  unacceptable env model flags off feats fname v cpus ->
  exists e, write_feature env fr fname v cpus s = (Exn e, s).
Proof. exact rejected_l. Qed.
Print Assumptions C44_rejected.

Theorem C44_read_rejected : forall env model flags off addr feats fr,
  init_reg (me_ci env) model flags off addr feats = Ok fr -> NoDup (map fst feats) ->
  forall fname cpus s,
  (forall fe, ~ In (fname, fe) feats) \/
  (exists c, In c (targets env cpus) /\ ~ In c (ci_online (me_ci env))) \/
  (exists fe c, In (fname, fe) feats /\ In c (targets env cpus) /\ ~ cpu_supports model flags off fe c) ->
  exists e, read_feature env fr fname cpus s = (Exn e, s).
Proof. exact read_rejected_l. Qed.
Print Assumptions C44_read_rejected.

(** Only these requests, and no others, are validated. *)
Theorem C44_validated : forall env model flags off addr feats fr,
  init_reg (me_ci env) model flags off addr feats = Ok fr -> NoDup (map fst feats) ->
  forall fname cpus,
  validate_feature_supported env fr fname cpus = Ok tt <->
  exists fe, In (fname, fe) feats /\ (forall c, In c (targets env cpus) -> In c (ci_online (me_ci env))) /\
             (forall c, In c (targets env cpus) -> cpu_supports model flags off fe c).
Proof. exact validate_iff. Qed.
Print Assumptions C44_validated.

Theorem C44_supported : forall env model flags off addr feats fr,
  init_reg (me_ci env) model flags off addr feats = Ok fr -> NoDup (map fst feats) ->
  forall fname cpus b, is_feature_supported env fr fname cpus = Ok b ->
  exists fe, In (fname, fe) feats /\
    (b = true <-> forall c, In c (targets env cpus) -> cpu_supports model flags off fe c).
Proof. exact is_supported_l. Qed.
Print Assumptions C44_supported.

(** ** The tables *)

(** The tables of all the registers are sound, for every CPU model. *)
Theorem C44_tables : forall ios addr feats, In (addr, feats) (all_regs ios) -> reg_ok feats.
Proof. exact all_regs_ok_l. Qed.
Print Assumptions C44_tables.

(** ** What is not true *)

(** Reading fails if the hardware holds a number without a name, and the tables do not name all the
    numbers. *)
Theorem C44_unnamed_code : forall env sc,
  wf_ci (me_ci env) -> (forall a, scope_right env a (sc a)) -> faithful env ->
  forall fr fname fe,
  dget str_eqb (fr_feats fr) fname = Some fe -> feature_ok fe -> fe_ios fe = Some (sc (fr_addr fr)) ->
  forall ops hw faults cpus c code,
  disciplined env sc ops -> In c (targets env cpus) ->
  let s := mrun env ops (msr_init hw faults) in
  is_field (fe_bits fe) (view env s (fr_addr fr) (me_dom env (fr_addr fr) c)) code ->
  (forall x, ~ named_as fe code x) ->
  exists e s', read_feature env fr fname cpus s = (Exn e, s').
Proof. exact read_unnamed_l. Qed.
Print Assumptions C44_unnamed_code.

Theorem C44_unnamed_refuted : exists t code,
  In t fsb_tables /\ fits (fst t) code /\
  forall ios x, ~ named_as (ffsb (fst (fst t)) (snd (fst t)) ios (snd t)) code x.
Proof. exact C44_unnamed_refuted_l. Qed.
Print Assumptions C44_unnamed_refuted.

(** The string for the bits of a feature is never returned. *)
Theorem C44_bits_str_refuted : forall ios addr feats fr fname,
  In (addr, feats) (all_regs ios) -> fr_feats fr = feats -> exists e, msr_bits fr fname = Exn e.
Proof. exact C44_bits_str_refuted_l. Qed.
Print Assumptions C44_bits_str_refuted.

(** The uncore ratio limits can be neither read nor written. *)
Theorem C44_uncore_ratio_refuted : forall env fr fname v cpus s,
  me_cache env = true -> fr_feats fr = uncore_ratio_feats -> targets env cpus <> [] ->
  (exists e s', read_feature env fr fname cpus s = (Exn e, s')) /\
  (exists e s', write_feature env fr fname v cpus s = (Exn e, s')).
Proof. exact C44_uncore_ratio_refuted_l. Qed.
Print Assumptions C44_uncore_ratio_refuted.

(** With a module of two cores, reading one prefetcher feature of a CPU makes another one read wrong
    on a different CPU. *)
Theorem C44_mixed_scope_refuted : exists env fr hw s1,
  wf_ci (me_ci env) /\ faithful env /\ scope_right env 420 SCore /\
  init_reg (me_ci env) 150 (fun _ => []) [] 420 (misc_feats false (Some SModule)) = Ok fr /\
  is_field (2, 2) (hw 420 (me_dom env 420 1)) 1 /\
  named_as (fbool 2 0 (Some SCore) true) 1 (VStr (s2l "off")) /\
  read_feature env fr (s2l "l2_hw_prefetcher") (Some [0]) (msr_init hw []) = (Ok [(0, VStr (s2l "on"))], s1) /\
  fst (read_feature env fr (s2l "dcu_hw_prefetcher") (Some [1]) s1) = Ok [(1, VStr (s2l "on"))].
Proof. exact C44_mixed_scope_refuted_l. Qed.
Print Assumptions C44_mixed_scope_refuted.

(** ** Examples *)

Example C44_ex_hyps :
  wf_ci (me_ci x_env) /\ (forall a, scope_right x_env a (x_sc a)) /\ faithful x_env /\
  (dget str_eqb (fr_feats x_fr) (s2l "pkg_cstate_limit") = Some x_limit /\ fr_addr x_fr = 416 /\
   feature_ok x_limit /\ fe_ios x_limit = Some (x_sc 416)) /\
  disciplined_for x_env x_sc x_ops 416 (Some [1; 4]) /\ reg_ok x_pcst /\
  init_reg (me_ci x_env) 85 (fun _ => []) [] 416 x_pcst = Ok x_fr.
Proof.
  split; [exact xci_wf|]. split; [exact x_scope_right|]. split; [exact x_faithful|].
  split; [exact x_limit_get|]. split; [exact x_disc|]. split; [exact x_pcst_ok|exact x_fr_init].
Qed.
(** "pc6" is an alias of "PC6R", 3. *)
Example C44_ex_run :
  let '(r, s') := write_feature x_env x_fr (s2l "pkg_cstate_limit") (VStr (s2l "pc6")) (Some [1])
                    (mrun x_env x_ops (msr_init x_hw [])) in
  r = Ok tt /\ ms_hw s' 416 0 = 7 - 4 /\
  fst (read_feature x_env x_fr (s2l "pkg_cstate_limit") (Some [3; 0]) s') =
    Ok [(3, VStr (s2l "PC6R")); (0, VStr (s2l "PC6R"))] /\
  fst (is_feature_enabled x_env x_fr (s2l "c1_demotion") (Some [2]) s') = Ok [(2, false)].
Proof. vm_compute. repeat split. Qed.
Example C44_ex_rejected :
  map (fun v => fst (write_feature x_env x_fr (s2l (fst v)) (VStr (s2l (snd v))) (Some [1]) (msr_init x_hw [])))
    [("pkg_cstate_limit", "PC7"); ("pkg_cstate_limit_lock", "on"); ("nothing", "on")]%string
  = [Exn EError; Exn EError; Exn EError] /\
  fst (write_feature x_env x_fr (s2l "c1_demotion") (VBool true) (Some [1; 9]) (msr_init x_hw [])) = Exn EError.
Proof. vm_compute. split; reflexivity. Qed.
Example C44_ex_unsupported :
  match init_reg xci 85 (fun c => if c =? 3 then [] else [s2l "hwp"]) [] 16
          [(s2l "epp", FE (31, 24) (Some SCPU) FInt true None None (Some [85]) (Some [s2l "hwp"]))] with
  | Ok fr => (fst (write_feature x_env fr (s2l "epp") (VInt 128) (Some [2; 3]) (msr_init x_hw [])),
              fst (write_feature x_env fr (s2l "epp") (VInt 128) (Some [2]) (msr_init x_hw [])))
             = (Exn ENotSupported, Ok tt)
  | Exn _ => False
  end.
Proof. vm_compute. reflexivity. Qed.
Example C44_ex_enable :
  let s' := snd (enable_feature x_env x_fr (s2l "c1_demotion") (VStr (s2l "enable")) (Some [5]) (msr_init x_hw [])) in
  fst (is_feature_enabled x_env x_fr (s2l "c1_demotion") None s') =
    Ok [(0, false); (1, false); (2, false); (3, false); (4, true); (5, true); (6, true); (7, true)].
Proof. vm_compute. reflexivity. Qed.
