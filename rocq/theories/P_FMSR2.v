(** Property theorems C44: accesses to named MSR features succeed. *)
From Coq Require Import Ascii String ZifyBool.
From Verif Require Import Base L_Base M_CPUInfo S_CPUInfo X_CPUInfo M_Text M_MSR S_MSR X_MSR M_FMSR S_FMSR L_Text L_FMSR L_FMSR2 X_FMSR L_FMSR6.

(** Reading succeeds if I/O works, the CPUs are online and have the feature, and the hardware holds numbers with a name. *)
Theorem C44_read_succeeds : forall env sc,
  wf_ci (me_ci env) -> (forall a, scope_right env a (sc a)) -> faithful env ->
  forall model flags off a feats fr,
  init_reg (me_ci env) model flags off a feats = Ok fr -> NoDup (map fst feats) ->
  forall fname fe, In (fname, fe) feats -> feature_ok fe -> fe_ios fe = Some (sc a) ->
  forall ops hw faults cpus, disciplined env sc ops ->
  let s := mrun env ops (msr_init hw faults) in
  io_works s ->
  (forall c, In c (targets env cpus) -> In c (ci_online (me_ci env)) /\ cpu_supports model flags off fe c) ->
  (forall c, In c (targets env cpus) -> exists code x, is_field (fe_bits fe) (view env s a (me_dom env a c)) code /\ named_as fe code x) ->
  exists r s', read_feature env fr fname cpus s = (Ok r, s').
Proof. exact read_succeeds_l. Qed.
Print Assumptions C44_read_succeeds.

(** Writing succeeds if I/O works, the registers hold 64-bit numbers, the feature can be written, the value has a
    meaning that fits the field, and the CPUs are online and have the feature. *)
Theorem C44_write_succeeds : forall env sc,
  wf_ci (me_ci env) -> (forall a, scope_right env a (sc a)) -> faithful env ->
  forall model flags off a feats fr,
  init_reg (me_ci env) model flags off a feats = Ok fr -> NoDup (map fst feats) ->
  forall fname fe, In (fname, fe) feats -> feature_ok fe -> fe_ios fe = Some (sc a) ->
  forall ops hw faults cpus v code, disciplined_for env sc ops a cpus ->
  let s := mrun env ops (msr_init hw faults) in
  io_works s -> (forall d, 0 <= view env s a d < 2 ^ 64) -> fe_writable fe = true ->
  means fe v code -> fits (fe_bits fe) code ->
  (forall c, In c (targets env cpus) -> In c (ci_online (me_ci env)) /\ cpu_supports model flags off fe c) ->
  exists s', write_feature env fr fname v cpus s = (Ok tt, s').
Proof. exact write_succeeds_l. Qed.
Print Assumptions C44_write_succeeds.

(** The package C-state limit of X_FMSR, on CPUs of two packages. *)
Example C44_succeeds_case : forall v, In v ["pc6"; "PC6R"; "Pc0"]%string ->
  exists s', write_feature x_env x_fr (s2l "pkg_cstate_limit") (VStr (s2l v)) (Some [1; 4]) (mrun x_env [] (msr_init (fun _ _ => 5) [])) = (Ok tt, s').
Proof.
  destruct x_limit_get as (Hg & Ha & Hok & Hios). intros v Hv.
  assert (M : exists code, means x_limit (VStr (s2l v)) code /\ fits (fe_bits x_limit) code).
  { assert (N : exists code, normalize_feature_value x_limit (VStr (s2l v)) = Ok (VInt code) /\ fits (fe_bits x_limit) code).
    { destruct Hv as [<-|[<-|[<-|[]]]]; (eexists; split; [vm_compute; reflexivity|unfold fits, field_width; cbn; lia]). }
    destruct N as (code & En & Hf). exists code. split; [|exact Hf].
    destruct (fe_vals x_limit) as [vals|] eqn:Ev; [|discriminate].
    pose proof (normalize_spec x_limit Hok (VStr (s2l v)) vals Ev) as S. rewrite En in S. destruct S as (code' & E & Hm). now injection E as ->. }
  destruct M as (code & Hm & Hf).
  apply (C44_write_succeeds x_env x_sc xci_wf x_scope_right x_faithful 85 (fun _ => []) [] 416 x_pcst x_fr x_fr_init (proj1 x_pcst_ok)
           (s2l "pkg_cstate_limit") x_limit) with (code := code).
  - apply (dget_In str_eqb str_eqb_eq). exact Hg.
  - exact Hok.
  - exact Hios.
  - split; [intros o []|]. left. intros [].
  - intros b [].
  - intros d. vm_compute. split; [discriminate|reflexivity].
  - reflexivity.
  - exact Hm.
  - exact Hf.
  - intros c Hc. split; [destruct Hc as [<-|[<-|[]]]; vm_compute; tauto|]. split; [|split].
    + intros l El. vm_compute in El. discriminate.
    + intros l f El. vm_compute in El. discriminate.
    + intros [].
Qed.
