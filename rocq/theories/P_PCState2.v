(** Property theorems C30: setting and reading the limit succeed; and C14: selecting siblings succeeds. *)
From Coq Require Import Ascii String.
From Verif Require Import Base L_Base M_CPUInfo S_CPUInfo X_CPUInfo L_CPUInfo M_Text M_MSR S_MSR X_MSR M_FMSR S_FMSR L_Text
  L_FMSR L_FMSR2 L_FMSR3 X_FMSR M_PCState S_PCState L_PCState X_PCState L_PCState2.

(** Setting the limit succeeds if the register of no CPU asked for is locked, the value names a limit of the table,
    I/O works, the registers hold 64-bit numbers and the CPUs are online and have the feature. *)
Theorem C30_set_succeeds : forall env sc,
  wf_ci (me_ci env) -> (forall a, scope_right env a (sc a)) -> faithful env ->
  forall model flags off a feats fr,
  init_reg (me_ci env) model flags off a feats = Ok fr -> NoDup (map fst feats) ->
  forall fe lockbit, limit_reg fr fe lockbit -> fe_ios fe = Some (sc a) ->
  forall ops hw faults cpus v code, disciplined_for env sc ops a cpus ->
  let s := mrun env ops (msr_init hw faults) in
  io_works s -> (forall d, 0 <= view env s a d < 2 ^ 64) -> fe_writable fe = true -> means fe v code ->
  (forall c, In c (targets env cpus) ->
     In c (ci_online (me_ci env)) /\ cpu_supports model flags off fe c /\ ~ is_locked env s a lockbit c) ->
  exists s', write_limit env fr v cpus s = (Ok tt, s').
Proof. exact limit_write_succeeds_l. Qed.
Print Assumptions C30_set_succeeds.

(** Reading the limit succeeds whatever number the registers hold. *)
Theorem C30_read_succeeds : forall env sc,
  wf_ci (me_ci env) -> (forall a, scope_right env a (sc a)) -> faithful env ->
  forall model flags off a feats fr,
  init_reg (me_ci env) model flags off a feats = Ok fr -> NoDup (map fst feats) ->
  forall fe lockbit, limit_reg fr fe lockbit -> fe_ios fe = Some (sc a) ->
  forall ops hw faults cpus, disciplined env sc ops ->
  let s := mrun env ops (msr_init hw faults) in
  io_works s ->
  (forall c, In c (targets env cpus) -> In c (ci_online (me_ci env)) /\ cpu_supports model flags off fe c) ->
  exists r s', read_limit env fr cpus s = (Ok r, s').
Proof. exact limit_read_succeeds_l. Qed.
Print Assumptions C30_read_succeeds.

(** The limit of X_FMSR: package 1 is locked, the CPUs of package 0 can still be set. *)
Definition x_lock_hw (a d : Z) : Z := if d =? 1 then 32775 else 5.
Example C30_succeeds_case :
  (exists s', write_limit x_env x_fr (VStr (s2l "pc2")) (Some [1; 0]) (mrun x_env [] (msr_init x_lock_hw [])) = (Ok tt, s')) /\
  is_locked x_env (mrun x_env [] (msr_init x_lock_hw [])) 416 15 4.
Proof.
  split; [|vm_compute; reflexivity].
  destruct x_limit_get as (Hg & Ha & Hok & Hios).
  assert (M : exists code, means x_limit (VStr (s2l "pc2")) code).
  { destruct (fe_vals x_limit) as [vals|] eqn:Ev; [|discriminate].
    pose proof (normalize_spec x_limit Hok (VStr (s2l "pc2")) vals Ev) as S.
    assert (En : exists w, normalize_feature_value x_limit (VStr (s2l "pc2")) = Ok w) by (eexists; vm_compute; reflexivity).
    destruct En as (w & En). rewrite En in S. destruct S as (code & _ & Hm). eauto. }
  destruct M as (code & Hm).
  apply (C30_set_succeeds x_env x_sc xci_wf x_scope_right x_faithful 85 (fun _ => []) [] 416 x_pcst x_fr x_fr_init (proj1 x_pcst_ok)
           x_limit 15 (proj1 x_limit_reg)) with (code := code).
  - exact Hios.
  - split; [intros o []|]. left. intros [].
  - intros b [].
  - intros d. change (0 <= x_lock_hw 416 d < 2 ^ 64). unfold x_lock_hw. destruct (d =? 1); lia.
  - reflexivity.
  - exact Hm.
  - intros c Hc. split; [destruct Hc as [<-|[<-|[]]]; vm_compute; tauto|]. split; [split; [|split]|].
    + intros l El. vm_compute in El. discriminate.
    + intros l f El. vm_compute in El. discriminate.
    + intros [].
    + destruct Hc as [<-|[<-|[]]]; intros H; vm_compute in H; discriminate.
Qed.

(** ** C14: selecting siblings fails only for CPUs that do not exist *)

Theorem C14_core_siblings_fail_iff : forall ci cpus indexes,
  (exists e, select_core_siblings ci cpus indexes = Exn e) <-> exists c, In c cpus /\ ~ In c (ci_all ci).
Proof. exact select_core_fails_l. Qed.
Print Assumptions C14_core_siblings_fail_iff.
Theorem C14_module_siblings_fail_iff : forall ci cpus indexes,
  (exists e, select_module_siblings ci cpus indexes = Exn e) <-> exists c, In c cpus /\ ~ In c (ci_all ci).
Proof. exact select_module_fails_l. Qed.
Print Assumptions C14_module_siblings_fail_iff.
Example C14_fail_case : In 3 (ci_all xci2) /\ ~ In 77 (ci_all xci2) /\
  fst (select_core_siblings xci2 [0; 3] [0], tt) = Ok [0] /\
  fst (select_module_siblings xci2 [0; 77] [0], tt) = Exn EError.
Proof. split; [vm_compute; tauto|]. split; [vm_compute; intuition discriminate|]. split; reflexivity. Qed.
