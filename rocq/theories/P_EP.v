(** C28: EPP and EPB through sysfs and through MSRs. *)
From Coq Require Import Ascii String ZifyBool.
From Verif Require Import Base M_CPUInfo S_CPUInfo X_CPUInfo M_Text M_Human M_MSR S_MSR M_FMSR S_FMSR M_HWP S_HWP X_HWP M_EP S_EP L_EP L_EP2 L_EP3 L_EP5 L_EP6 X_EP.

(** C28. The value last set, as a number or as a name, is the one that is read, through the same mechanism and through
    the other one, whatever happened before and whatever calls that do not write the CPU's register are made in
    between. Missing: caches together with settings through sysfs (see the next theorem and the refutations), and
    CPUs that leave EPP to their package, unless it was set through the MSR. *)
Theorem C28_last_set_partial : forall env sc kind x epb kn shown knows names,
  ep_system env sc kind x epb kn shown knows ->
  forall val cpus mnames ops ops2 h faults m s1 c n cpus' mnames' l s2 v m',
  ep_history env sc (ops ++ ESet val cpus mnames :: ops2) ->
  ep_set_vals env kind kn x epb names val cpus mnames (erun env kind kn x epb names ops (ep_init h faults)) = (Ok m, s1) ->
  In c (targets env cpus) -> (forall o, In o ops2 -> ~ ep_touches env kind c o) -> stands_for knows val m c n ->
  ep_get_vals env kind kn x epb cpus' mnames' (erun env kind kn x epb names ops2 s1) = (Ok l, s2) -> In (c, v, m') l ->
  (m' = s2l "msr"%string -> m = s2l "msr"%string \/ own_value env kind x (ms_hw (es_m s1)) c -> v = ENum n) /\
  (m' = s2l "sysfs"%string -> me_cache env = false -> v = reading kind shown (s2l "sysfs"%string) n).
Proof. exact C28_last_set_l. Qed.
Print Assumptions C28_last_set_partial.

(** With caches, if sysfs is the only way to set. Missing: registers that CPUs share, names that stand for different
    numbers on different CPUs (see the refutations). *)
Theorem C28_sysfs_partial : forall env kind x epb kn shown knows names,
  kernel_ok env kind kn shown knows ->
  forall val cpus mnames ops ops2 h faults m s1 c cpus' mnames' l s2 v m',
  ep_sysfs_history env kind knows (ops ++ ESet val cpus mnames :: ops2) ->
  ep_set_vals env kind kn x epb names val cpus mnames (erun env kind kn x epb names ops (ep_init h faults)) = (Ok m, s1) ->
  In c (targets env cpus) -> (forall o, In o ops2 -> ~ ep_touches env kind c o) ->
  ep_get_vals env kind kn x epb cpus' mnames' (erun env kind kn x epb names ops2 s1) = (Ok l, s2) -> In (c, v, m') l ->
  m' = s2l "sysfs"%string -> v = reading kind shown (s2l "sysfs"%string) (knows c val).
Proof. exact ep_sysfs_last_set. Qed.
Print Assumptions C28_sysfs_partial.

(** Reading writes nothing, and gives the number that is in the register of the CPU. Missing: as above. *)
Theorem C28_reads_partial : forall env sc kind x epb kn shown knows names,
  ep_system env sc kind x epb kn shown knows ->
  forall cpus mnames ops h faults r s1,
  ep_history env sc ops ->
  let s := erun env kind kn x epb names ops (ep_init h faults) in
  ep_get_vals env kind kn x epb cpus mnames s = (r, s1) ->
  (forall a d, ms_hw (es_m s1) a d = ms_hw (es_m s) a d) /\
  forall l c v m n, r = Ok l -> In (c, v, m) l -> ep_value env kind (ms_hw (es_m s1)) c n ->
    (m = s2l "msr"%string -> own_value env kind x (ms_hw (es_m s1)) c -> v = ENum n) /\
    (m = s2l "sysfs"%string -> me_cache env = false -> v = reading kind shown (s2l "sysfs"%string) n).
Proof. exact C28_reads_l. Qed.
Print Assumptions C28_reads_partial.

(** Setting, successfully or not, writes no other registers than those of the CPUs that were asked for. *)
Theorem C28_others : forall env sc kind x epb kn shown knows names,
  ep_system env sc kind x epb kn shown knows ->
  forall val cpus mnames ops h faults r s1,
  ep_history env sc (ops ++ [ESet val cpus mnames]) ->
  let s := erun env kind kn x epb names ops (ep_init h faults) in
  ep_set_vals env kind kn x epb names val cpus mnames s = (r, s1) ->
  (forall a d, a <> ep_addr kind -> ms_hw (es_m s1) a d = ms_hw (es_m s) a d) /\
  forall c, In c (ci_online (me_ci env)) -> ~ targeted env (ep_addr kind) cpus (me_dom env (ep_addr kind) c) ->
    ms_hw (es_m s1) (ep_addr kind) (me_dom env (ep_addr kind) c) = ms_hw (es_m s) (ep_addr kind) (me_dom env (ep_addr kind) c).
Proof. exact C28_others_l. Qed.
Print Assumptions C28_others.

(** Reading through one mechanism gives every CPU that was asked for, once, and names the mechanism, in any state. *)
Theorem C28_each_once : forall env kind x epb kn, wf_ci (me_ci env) ->
  forall cpus m s l s', ep_get_vals env kind kn x epb cpus (Some [m]) s = (Ok l, s') ->
  NoDup (map (fun e => fst (fst e)) l) /\
  (forall c, In c (map (fun e => fst (fst e)) l) <-> In c (targets env cpus)) /\ forall e, In e l -> snd e = m.
Proof. exact C28_each_once_l. Qed.
Print Assumptions C28_each_once.

(** Setting an acceptable value succeeds, through sysfs, if the files are there and work, in any state. *)
Theorem C28_set_works : forall env kind x epb kn shown knows names,
  kernel_ok env kind kn shown knows ->
  forall val cpus mnames s, ep_acceptable kind names val -> sysfs_first mnames ->
  (forall c, In c (targets env cpus) -> In c (ci_online (me_ci env)) /\ ep_file_works kn c /\ ep_file_takes kn val c) ->
  exists s', ep_set_vals env kind kn x epb names val cpus mnames s = (Ok (s2l "sysfs"%string), s').
Proof. exact C28_set_works_l. Qed.
Print Assumptions C28_set_works.

(** A value that makes no sense is rejected by every mechanism and nothing changes. *)
Theorem C28_rejected : forall env kind x epb kn names val cpus mnames s, ep_impossible kind names val ->
  exists e, ep_set_vals env kind kn x epb names val cpus mnames s = (Exn e, s).
Proof. exact C28_rejected_l. Qed.
Print Assumptions C28_rejected.

Example C28_rejected_case : ep_impossible EPB [] (s2l "16"%string) /\ ep_impossible EPP [] (s2l "256"%string) /\
  ep_impossible EPP [s2l "power"%string] (s2l "powr"%string) /\ ~ ep_impossible EPB [] (s2l "15"%string).
Proof. exact C28_rejected_case_l. Qed.

(** Then reading succeeds, through sysfs. *)
Theorem C28_get_works : forall env kind x epb kn shown knows names,
  kernel_ok env kind kn shown knows ->
  forall ops h faults cpus mnames, ep_sysfs_history env kind knows ops ->
  targets env cpus <> [] -> sysfs_first mnames ->
  (forall c, In c (targets env cpus) -> In c (ci_online (me_ci env)) /\ ep_file_works kn c) ->
  exists l s', ep_get_vals env kind kn x epb cpus mnames (erun env kind kn x epb names ops (ep_init h faults)) = (Ok l, s') /\
    forall c, In c (targets env cpus) -> exists v, In (c, v, s2l "sysfs"%string) l.
Proof. exact ep_get_works. Qed.
Print Assumptions C28_get_works.

(** ** What is not true *)

(** The sysfs value is remembered when it is set through the MSR. *)
Theorem C28_sysfs_stale_refuted : exists env sc kind x epb kn shown knows names h ops val c s1 s2 v n,
  ep_system env sc kind x epb kn shown knows /\ val = dec n /\ In c (ci_online (me_ci env)) /\
  own_value env kind x h c /\
  ep_set_vals env kind kn x epb names val (Some [c]) by_msr (erun env kind kn x epb names ops (ep_init h [])) = (Ok (s2l "msr"%string), s1) /\
  ep_value env kind (ms_hw (es_m s1)) c n /\
  ep_get_vals env kind kn x epb (Some [c]) by_sysfs s1 = (Ok [(c, v, s2l "sysfs"%string)], s2) /\ v <> reading kind shown (s2l "sysfs"%string) n.
Proof. exact C28_sysfs_stale_refuted_l. Qed.
Print Assumptions C28_sysfs_stale_refuted.

(** The MSR value is remembered when it is set through sysfs. *)
Theorem C28_msr_stale_refuted : exists env sc kind x epb kn shown knows names h ops val c s1 s2 v n,
  ep_system env sc kind x epb kn shown knows /\ val = dec n /\ In c (ci_online (me_ci env)) /\
  own_value env kind x h c /\
  ep_set_vals env kind kn x epb names val (Some [c]) by_sysfs (erun env kind kn x epb names ops (ep_init h [])) = (Ok (s2l "sysfs"%string), s1) /\
  ep_value env kind (ms_hw (es_m s1)) c n /\
  ep_get_vals env kind kn x epb (Some [c]) by_msr s1 = (Ok [(c, v, s2l "msr"%string)], s2) /\ v <> ENum n.
Proof. exact C28_msr_stale_refuted_l. Qed.
Print Assumptions C28_msr_stale_refuted.

(** A name that stands for different numbers on different CPUs is read as the number of the first CPU. *)
Theorem C28_alias_refuted : exists env sc kind x epb kn shown knows names h val c s1 s2 v,
  ep_system env sc kind x epb kn shown knows /\ In c (ci_online (me_ci env)) /\
  ep_set_vals env kind kn x epb names val None by_sysfs (ep_init h []) = (Ok (s2l "sysfs"%string), s1) /\
  ep_value env kind (ms_hw (es_m s1)) c (knows c val) /\
  ep_get_vals env kind kn x epb (Some [c]) by_sysfs s1 = (Ok [(c, v, s2l "sysfs"%string)], s2) /\ v <> reading kind shown (s2l "sysfs"%string) (knows c val).
Proof. exact C28_alias_refuted_l. Qed.
Print Assumptions C28_alias_refuted.

(** EPB is shared by the CPUs of a core, but what is remembered is forgotten only for the CPU that is set. *)
Theorem C28_shared_refuted : exists env sc kind x epb kn shown knows names h ops val c c' s1 s2 v n,
  ep_system env sc kind x epb kn shown knows /\ val = dec n /\ In c (ci_online (me_ci env)) /\ In c' (ci_online (me_ci env)) /\
  me_dom env (ep_addr kind) c = me_dom env (ep_addr kind) c' /\
  ep_set_vals env kind kn x epb names val (Some [c]) by_sysfs (erun env kind kn x epb names ops (ep_init h [])) = (Ok (s2l "sysfs"%string), s1) /\
  ep_value env kind (ms_hw (es_m s1)) c' n /\
  ep_get_vals env kind kn x epb (Some [c']) by_sysfs s1 = (Ok [(c', v, s2l "sysfs"%string)], s2) /\ v <> reading kind shown (s2l "sysfs"%string) n.
Proof. exact C28_shared_refuted_l. Qed.
Print Assumptions C28_shared_refuted.

(** A CPU that leaves EPP to its package: what is set through sysfs is not what the MSR mechanism reads, even without
    a cache. *)
Theorem C28_package_refuted : exists env sc kind x epb kn shown knows names h val c s1 s2 v n,
  ep_system env sc kind x epb kn shown knows /\ me_cache env = false /\ val = dec n /\ In c (ci_online (me_ci env)) /\
  ep_set_vals env kind kn x epb names val (Some [c]) by_sysfs (ep_init h []) = (Ok (s2l "sysfs"%string), s1) /\
  ep_value env kind (ms_hw (es_m s1)) c n /\
  ep_get_vals env kind kn x epb (Some [c]) by_msr s1 = (Ok [(c, v, s2l "msr"%string)], s2) /\ v <> ENum n.
Proof. exact C28_package_refuted_l. Qed.
Print Assumptions C28_package_refuted.

(** With several mechanisms, a CPU may be read twice. *)
Theorem C28_twice_refuted : exists env sc kind x epb kn shown knows h cpus l s1,
  ep_system env sc kind x epb kn shown knows /\ NoDup cpus /\ (forall c, In c cpus -> In c (ci_online (me_ci env))) /\
  ep_get_vals env kind kn x epb (Some cpus) None (ep_init h []) = (Ok l, s1) /\ ~ NoDup (map (fun e => fst (fst e)) l).
Proof. exact C28_twice_refuted_l. Qed.
Print Assumptions C28_twice_refuted.

(** Writing another field of the register, that the MSR object remembers, brings back the old value. *)
Theorem C28_revert_refuted : exists env sc kind x epb kn shown knows names h ops val c o s1 n,
  ep_system env sc kind x epb kn shown knows /\ val = dec n /\ In c (ci_online (me_ci env)) /\
  ep_set_vals env kind kn x epb names val (Some [c]) by_sysfs (erun env kind kn x epb names ops (ep_init h [])) = (Ok (s2l "sysfs"%string), s1) /\
  ep_value env kind (ms_hw (es_m s1)) c n /\
  (exists a b v vf, o = OWriteBits a b (Some v) (Some [c]) (sc a) vf /\ field_ok b /\ disjoint b (ep_bits kind)) /\
  ~ ep_value env kind (ms_hw (es_m (erun env kind kn x epb names [EMsr o] s1))) c n.
Proof. exact C28_revert_refuted_l. Qed.
Print Assumptions C28_revert_refuted.

(** ** The hypotheses are met *)

Definition ex_kn := e_kern EPP same_default all_files.
Definition ex_x := h_hybrid (ci_online xci).
Definition ex_run b := erun (e_env b) EPP ex_kn ex_x (Ok e_epb) e_policies.
Definition ex_set b := ep_set_vals (e_env b) EPP ex_kn ex_x (Ok e_epb) e_policies.
Definition ex_get b := ep_get_vals (e_env b) EPP ex_kn ex_x (Ok e_epb).

(** Without a cache, both mechanisms in turns; CPU 1 leaves EPP to its package at first. *)
Definition ex_ops : list eop :=
  [EGet None by_sysfs; ESet (s2l "power"%string) (Some [0; 1]) by_sysfs; EGet None by_msr; EMsr (OWriteBits REQ (7, 0) (Some 9) (Some [1]) SCPU true)].
Definition ex_ops2 : list eop := [ESet (dec 7) (Some [0; 2]) by_sysfs; EGet None None; EMsr (OWrite REQ 0 (Some [5]) SCPU false)].

Example C28_last_set_case :
  ep_system (e_env false) e_sc EPP ex_x (Ok e_epb) ex_kn (e_shown EPP) (e_knows same_default) /\
  ep_history (e_env false) e_sc (ex_ops ++ ESet (dec 192) (Some [1; 3]) by_msr :: ex_ops2) /\
  (forall o, In o ex_ops2 -> ~ ep_touches (e_env false) EPP 1 o) /\ stands_for (e_knows same_default) (dec 192) (s2l "msr"%string) 1 192 /\
  let s := ex_run false ex_ops (ep_init e_hw []) in
  let s1 := snd (ex_set false (dec 192) (Some [1; 3]) by_msr s) in
  fst (ex_get false (Some [1]) by_msr s) = Ok [(1, ENum 128, s2l "msr"%string)] /\
  fst (ex_set false (dec 192) (Some [1; 3]) by_msr s) = Ok (s2l "msr"%string) /\
  fst (ex_get false (Some [1]) by_msr (ex_run false ex_ops2 s1)) = Ok [(1, ENum 192, s2l "msr"%string)] /\
  fst (ex_get false (Some [1]) by_sysfs (ex_run false ex_ops2 s1)) = Ok [(1, EText (s2l "balance_power"%string), s2l "sysfs"%string)].
Proof.
  split; [now apply e_system_ok|]. split.
  { split; [|now left]. intros o Ho. cbn in Ho. destruct Ho as [E|[E|[E|[E|[E|[E|[E|[E|[]]]]]]]]]; try discriminate; injection E as <-;
    (split; [cbn; unfold field_ok; cbn; repeat split; lia|discriminate]). }
  split. { intros o [<-|[<-|[<-|[]]]] H; cbn in H; [| |]; try tauto; [destruct H as (c & [<-|[<-|[]]] & E)|destruct H as (_ & c & [<-|[]] & E)]; vm_compute in E; discriminate. }
  split; [left; split; [lia|reflexivity]|]. cbn zeta. repeat split; vm_compute; reflexivity.
Qed.

(** With a cache, through sysfs only. *)
Definition ex_sys : list eop := [EGet None None; ESet (s2l "power"%string) None by_sysfs; EMsr (ORead REQ None SCPU); ESet (dec 77) (Some [4]) by_sysfs].
Example C28_sysfs_case :
  ep_sysfs_history (e_env true) EPP (e_knows same_default) (ex_sys ++ ESet (s2l "default"%string) (Some [4; 6]) by_sysfs :: ex_sys) /\
  (forall o, In o [EGet None None; ESet (dec 5) (Some [3]) by_sysfs] -> ~ ep_touches (e_env true) EPP 6 o) /\
  let s1 := snd (ex_set true (s2l "default"%string) (Some [4; 6]) by_sysfs (ex_run true ex_sys (ep_init e_hw []))) in
  fst (ex_set true (s2l "default"%string) (Some [4; 6]) by_sysfs (ex_run true ex_sys (ep_init e_hw []))) = Ok (s2l "sysfs"%string) /\
  fst (ex_get true (Some [6]) None (ex_run true [EGet None None; ESet (dec 5) (Some [3]) by_sysfs] s1)) = Ok [(6, EText (s2l "balance_performance"%string), s2l "sysfs"%string)].
Proof.
  split.
  { split; [|split].
    - intros c c' _ _ E. exact E.
    - reflexivity.
    - intros o Ho. cbn in Ho. destruct Ho as [<-|[<-|[<-|[<-|[<-|[<-|[<-|[<-|[<-|[]]]]]]]]]]; (split; [cbn; first [exact I|intros m' [<-|[]]; reflexivity]|]);
      try exact I; intros E; first [vm_compute in E; discriminate|exists 77; split; [lia|reflexivity]]. }
  split. { intros o [<-|[<-|[]]] H; cbn in H; [tauto|]. destruct H as (c & [<-|[]] & E). vm_compute in E. discriminate. }
  cbn zeta. split; vm_compute; reflexivity.
Qed.

(** EPB through the MSR that two CPUs share, with a cache. *)
Example C28_epb_case :
  ep_system (e_env true) e_sc EPB ex_x (Ok e_epb) (e_kern EPB same_default all_files) (e_shown EPB) (e_knows same_default) /\
  ep_history (e_env true) e_sc [EGet None by_msr; ESet (dec 9) (Some [0]) by_msr] /\
  let run := erun (e_env true) EPB (e_kern EPB same_default all_files) ex_x (Ok e_epb) e_policies in
  let get := ep_get_vals (e_env true) EPB (e_kern EPB same_default all_files) ex_x (Ok e_epb) in
  fst (get (Some [0; 2; 1]) by_msr (run [EGet None by_msr; ESet (dec 9) (Some [0]) by_msr] (ep_init e_hw []))) =
    Ok [(0, ENum 9, s2l "msr"%string); (2, ENum 9, s2l "msr"%string); (1, ENum 6, s2l "msr"%string)].
Proof.
  split; [now apply e_system_ok|]. split; [|vm_compute; reflexivity].
  split; [intros o [E|[E|[]]]; discriminate|]. right. intros o [<-|[<-|[]]]; [exact I|]. intros m' [<-|[]]. reflexivity.
Qed.

Example C28_works_case :
  ep_acceptable EPP e_policies (dec 77) /\ ep_acceptable EPP e_policies (s2l "power"%string) /\
  ep_acceptable EPB [] (s2l "normal"%string) /\ sysfs_first None /\
  forall c, In c (targets (e_env true) None) -> In c (ci_online (me_ci (e_env true))) /\ ep_file_works ex_kn c /\
    ep_file_takes ex_kn (dec 77) c /\ ep_file_takes ex_kn (s2l "power"%string) c.
Proof.
  split; [left; exists 77; split; [unfold fits; cbn; lia|reflexivity]|]. split; [right; split; [vm_compute; reflexivity|vm_compute; tauto]|].
  split; [right; split; [vm_compute; reflexivity|vm_compute; tauto]|]. split; [now left|]. intros c Hc. split; [exact Hc|].
  split; [split; [reflexivity|]; intros h; discriminate|]. split; intros h; discriminate.
Qed.
