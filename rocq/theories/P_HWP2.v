(** C27: when frequencies and EPP can be read and set. *)
From Coq Require Import Ascii String ZifyBool.
From Verif Require Import Base L_Base M_CPUInfo S_CPUInfo X_CPUInfo M_Text M_MSR S_MSR X_MSR M_FMSR S_FMSR L_FMSR2 M_HWP S_HWP L_HWP L_HWP3 X_HWP M_FRead S_FRead S_HWP2 L_HWP8.

(** C27. Reading a frequency succeeds if I/O works, the CPUs have the setting and a known bus clock, and the package's
    register has the setting if a package decides. *)
Theorem C27_get_succeeds : forall env sc,
  wf_ci (me_ci env) -> (forall a, scope_right env a (sc a)) -> faithful env ->
  forall x, hwp_ok env sc x ->
  forall ops hw faults, hdisciplined env sc ops ->
  forall k cpus, io_works (hrun env x ops (msr_init hw faults)) -> can_request env x k cpus ->
  (forall c, In c cpus -> clock_known env x (view env (hrun env x ops (msr_init hw faults))) c) ->
  can_ask_package env x (view env (hrun env x ops (msr_init hw faults))) k cpus ->
  exists r s', get_freq_msr env x k cpus (hrun env x ops (msr_init hw faults)) = (Ok r, s').
Proof. exact C27_get_succeeds_l. Qed.
Print Assumptions C27_get_succeeds.

(** So does setting one, if the performance levels it stands for are not above 255. *)
Theorem C27_set_succeeds : forall env sc,
  wf_ci (me_ci env) -> (forall a, scope_right env a (sc a)) -> faithful env ->
  forall x, hwp_ok env sc x ->
  forall ops hw faults, hdisciplined env sc ops ->
  forall k f cpus, io_works (hrun env x ops (msr_init hw faults)) -> registers_64 env (hrun env x ops (msr_init hw faults)) REQ ->
  k <> HEpp -> 0 <= f -> can_request env x k cpus ->
  (forall c, In c cpus -> clock_known env x (view env (hrun env x ops (msr_init hw faults))) c) ->
  (forall c b p, In c cpus -> bus_clock env x (view env (hrun env x ops (msr_init hw faults))) c b -> freq_level x c b f p -> 0 <= p <= 255) ->
  exists s', set_freq_msr env x k f cpus (hrun env x ops (msr_init hw faults)) = (Ok tt, s').
Proof. exact C27_set_succeeds_l. Qed.
Print Assumptions C27_set_succeeds.

(** The same for EPP from 0 to 255. *)
Theorem C27_epp_succeeds : forall env sc,
  wf_ci (me_ci env) -> (forall a, scope_right env a (sc a)) -> faithful env ->
  forall x, hwp_ok env sc x ->
  forall ops hw faults, hdisciplined env sc ops ->
  forall c, io_works (hrun env x ops (msr_init hw faults)) -> can_request env x HEpp [c] ->
  (can_ask_package env x (view env (hrun env x ops (msr_init hw faults))) HEpp [c] ->
    exists v s', epp_read_msr env x c (hrun env x ops (msr_init hw faults)) = (Ok (Some v), s')) /\
  (registers_64 env (hrun env x ops (msr_init hw faults)) REQ -> forall v, 0 <= v <= 255 ->
    exists s', epp_write_msr env x v c (hrun env x ops (msr_init hw faults)) = (Ok tt, s')).
Proof. exact C27_epp_succeeds_l. Qed.
Print Assumptions C27_epp_succeeds.

(** ** The hypotheses are met by a system with package control and a bus clock register, where CPU 1 leaves its settings
    to its package. *)
Notation h_all := (h_plain (ci_online xci)).
Lemma h_can k : can_request h_env h_all k [1; 2].
Proof.
  exists (h_req (ci_online xci)). split; [reflexivity|]. split.
  - intros c Hc. vm_compute in Hc. repeat (destruct Hc as [<-|Hc]; [do 2 eexists; split; vm_compute; reflexivity|]). destruct Hc.
  - intros c [<-|[<-|[]]]; (split; [vm_compute; tauto|destruct k; vm_compute; reflexivity]).
Qed.
Lemma h_clock c : In c (ci_online xci) -> clock_known h_env h_all (view h_env (msr_init h_hw [])) c.
Proof.
  intros Hc. split.
  - exists 100000000. unfold bus_clock. change (hw_fsb h_all) with (@Ok freg h_fsb).
    exists (ffsb 2 0 (Some SCPU) [(83000, 7); (100000, 5); (133330, 1); (166670, 3)]), 100000, 5.
    split; [reflexivity|]. split; [|split; [cbn; auto|reflexivity]].
    change (view h_env (msr_init h_hw []) FSB (me_dom h_env FSB c)) with 5. apply (field_val_spec (2, 0) 5). unfold field_ok. cbn. lia.
  - change (hw_fsb h_all) with (@Ok freg h_fsb). vm_compute in Hc. repeat (destruct Hc as [<-|Hc]; [vm_compute; reflexivity|]). destruct Hc.
Qed.
Lemma h_64 : registers_64 h_env (msr_init h_hw []) REQ.
Proof.
  intros d. change (view h_env (msr_init h_hw []) REQ d) with (h_request 20 30 64 + (if inb d [1; 5] then 2 ^ 42 else 0)).
  destruct (inb d [1; 5]); vm_compute; split; [discriminate|reflexivity|discriminate|reflexivity].
Qed.

Example C27_succeeds_case :
  pkg_decides h_env h_all (view h_env (msr_init h_hw [])) HMax 1 = true /\
  (exists r s', get_freq_msr h_env h_all HMax [1; 2] (msr_init h_hw []) = (Ok r, s')) /\
  (exists s', set_freq_msr h_env h_all HMax 2050000000 [1; 2] (msr_init h_hw []) = (Ok tt, s')) /\
  (exists v s', epp_read_msr h_env h_all 1 (msr_init h_hw []) = (Ok (Some v), s')) /\
  exists s', epp_write_msr h_env h_all 255 1 (msr_init h_hw []) = (Ok tt, s').
Proof.
  assert (D : hdisciplined h_env h_sc []) by (apply hdisc_dec; [intros []|reflexivity]).
  assert (W : io_works (msr_init h_hw [])) by (intros b []).
  assert (P : forall k cpus, (forall c, In c cpus -> In c [1; 2]) -> can_ask_package h_env h_all (view h_env (msr_init h_hw [])) k cpus).
  { intros k cpus H. right. exists h_pkg. split; [reflexivity|]. intros c Hc. apply H in Hc. destruct Hc as [<-|[<-|[]]]; destruct k; vm_compute; reflexivity. }
  assert (K : forall c, In c [1; 2] -> clock_known h_env h_all (view h_env (msr_init h_hw [])) c).
  { intros c [<-|[<-|[]]]; apply h_clock; vm_compute; tauto. }
  split; [vm_compute; reflexivity|]. split; [|split].
  - exact (C27_get_succeeds h_env h_sc xci_wf h_scope_right h_faithful h_all (h_plain_ok _) [] h_hw [] D HMax [1; 2] W (h_can _) K (P _ _ (fun c H => H))).
  - apply (C27_set_succeeds h_env h_sc xci_wf h_scope_right h_faithful h_all (h_plain_ok _) [] h_hw [] D HMax 2050000000 [1; 2] W h_64); [discriminate|lia|apply h_can|exact K|].
    intros c b p Hc Hb Hp. destruct Hb as (fe & khz & code & Hfe & Hf & Hv & ->).
    assert (fe = ffsb 2 0 (Some SCPU) [(83000, 7); (100000, 5); (133330, 1); (166670, 3)]) as -> by (vm_compute in Hfe |- *; congruence).
    unfold freq_level in Hp. cbn [hw_pcores h_plain inb existsb] in Hp.
    cbn [vals_of ffsb fe_vals map In] in Hv.
    assert (khz = 83000 \/ khz = 100000 \/ khz = 133330 \/ khz = 166670) as [-> | [-> | [-> | ->]]] by (vm_compute in Hv; intuition congruence); lia.
  - assert (C1 : can_request h_env h_all HEpp [1]).
    { destruct (h_can HEpp) as (fr & A & B & C). exists fr. split; [exact A|]. split; [exact B|]. intros c [<-|[]]. apply C. now left. }
    destruct (C27_epp_succeeds h_env h_sc xci_wf h_scope_right h_faithful h_all (h_plain_ok _) [] h_hw [] D 1 W C1) as (R & S). split.
    + apply R. apply P. intros c [<-|[]]. now left.
    + apply (S h_64). lia.
Qed.
