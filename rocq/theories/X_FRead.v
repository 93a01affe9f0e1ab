(** An example system with CPUs with and without HWP, and a witness of what is not true. *)
From Coq Require Import Ascii String ZifyBool.
From Verif Require Import Base L_Base M_CPUInfo S_CPUInfo L_CPUInfo X_CPUInfo M_Text L_Text M_MSR S_MSR L_Bits L_MSR L_MSR3 X_MSR
  M_FMSR S_FMSR L_FMSR2 X_FMSR M_HWP S_HWP L_HWP L_HWP3 L_HWP5 L_HWP6 X_HWP M_FRead S_FRead L_FRead L_FRead2.

(** CPUs 0 to 3 have HWP, the others do not. *)
Definition r_flags (c : Z) : list str := if c <? 4 then [s2l "msr"%string; s2l "hwp"%string] else [s2l "msr"%string].
(** Supported on these CPUs, and on no others. *)
Definition on (feats : list (str * feature)) (only : list str) (cpus : list Z) : list (str * list (Z * bool)) :=
  map (fun nf => (fst nf, map (fun c => (c, existsb (str_eqb (fst nf)) only && inb c cpus)) (ci_online xci))) feats.
Definition r_cap (cpus : list Z) : freg := FR CAP hwp_cap_feats (on hwp_cap_feats (map fst hwp_cap_feats) cpus).
Definition r_plat : freg := FR PLAT (platform_feats (Some SCPU)) (on (platform_feats None) (map fst (platform_feats None)) (ci_online xci)).
(** Only the turbo ratio of the first group is there. *)
Definition r_trl : freg := FR TRL (trl_feats (Some SCPU)) (on (trl_feats None) [s2l "max_g0_turbo_ratio"%string] (ci_online xci)).
Definition r_pm : freg := FR PM (pm_enable_feats (Some SCPU)) (on (pm_enable_feats None) (map fst (pm_enable_feats None)) (ci_online xci)).
Definition r_regs (cap : list Z) : fregs := FGS (Ok (r_cap cap)) (Ok r_plat) (Ok r_trl) (Ok r_pm) r_flags.

Definition r_hw (a d : Z) : Z :=
  if a =? CAP then 40 + 24 * 256 + 10 * 2 ^ 16 + 4 * 2 ^ 24
  else if a =? PLAT then 22 * 256 + 8 * 2 ^ 40 + 5 * 2 ^ 48
  else if a =? TRL then 35
  else if a =? PM then 1 else h_hw a d.

Lemma r_ok cap : fregs_ok h_env (r_regs cap) h_sc.
Proof.
  split.
  - reflexivity.
  - intros fr [= <-]. split; reflexivity.
  - intros fr [= <-]. split; reflexivity.
  - intros fr [= <-]. split; [reflexivity|]. split; [reflexivity|]. intros n c Hn Hc.
    destruct Hn as [<-|[<-|[]]]; (eexists; eexists; split; [reflexivity|]); now apply dget_map_Z.
  - intros fr [= <-]. split; reflexivity.
Qed.

Definition r_ops : list fop :=
  [FRated KBase [0; 5]; FHwp (HSetFreq HMax 1500000000 [1; 2]); FStatus [1]; FHwp (HMsr (OWrite TRL 33 (Some [4]) SCPU false)); FClock [3]].
Lemma r_disciplined : hdisciplined h_env h_sc (hops_of r_ops).
Proof. apply hdisc_dec; [cbn; intuition discriminate|]. vm_compute. reflexivity. Qed.

Notation r_state cap := (frun h_env (h_plain []) (r_regs cap) r_ops (msr_init r_hw [])).
Lemma r_clock cap c : In c (ci_online xci) -> clock_known h_env (h_plain []) (view h_env (r_state cap)) c.
Proof.
  intros Hc. split.
  - exists 100000000. unfold bus_clock. change (hw_fsb (h_plain [])) with (@Ok freg h_fsb). cbv iota beta.
    exists (ffsb 2 0 (Some SCPU) [(83000, 7); (100000, 5); (133330, 1); (166670, 3)]), 100000, 5.
    split; [reflexivity|]. split; [|split; [cbn; auto|reflexivity]].
    assert (E : view h_env (r_state cap) FSB (me_dom h_env FSB c) = 5).
    { destruct (all_fine h_env h_sc r_ops r_disciplined) as (rep & tx & Hf & Hr).
      rewrite (frun_frame h_env h_sc xci_wf h_scope_right h_faithful (h_plain []) (h_plain_ok []) (r_regs cap) (r_ok cap) rep tx r_ops FSB (me_dom h_env FSB c)); [reflexivity|discriminate| |exact Hf|apply hinv_init, Hr].
      intros m Hm. cbn in Hm. destruct Hm as [E|[E|[E|[E|[E|[]]]]]]; try discriminate. injection E as <-. cbn. intros (E & _). discriminate. }
    rewrite E. apply (field_val_spec (2, 0) 5). unfold field_ok. cbn. lia.
  - cbn [h_plain hw_fsb]. unfold h_fsb. rewrite has_supp. cbn [me_ci h_env] in *. vm_compute in Hc. 
    repeat (destruct Hc as [<-|Hc]; [vm_compute; reflexivity|]). destruct Hc.
Qed.
Notation r_all := (r_regs (ci_online xci)).
Notation r_now := (r_state (ci_online xci)).
Lemma r_works : io_works r_now.
Proof. unfold io_works. assert (ms_faults r_now = []) as -> by (vm_compute; reflexivity). intros b []. Qed.
Lemma on_has a feats feats0 only cpus n c : has (FR a feats (on feats0 only cpus)) n c =
  match dget str_eqb feats0 n with Some _ => inb c (ci_online xci) && (existsb (str_eqb n) only && inb c cpus) | None => false end.
Proof.
  unfold has. cbn [fr_supp]. unfold on. induction feats0 as [|[n' fe] t IH]; [reflexivity|]. cbn [map dget fst].
  destruct (str_eqb n n') eqn:E; [|exact IH]. apply str_eqb_eq in E. subst n'. apply dget_tab.
Qed.
Lemma r_levels q cpus : (forall c, In c cpus -> In c (ci_online xci)) -> has_levels r_all q cpus.
Proof.
  intros H c Hc _. exists (r_cap (ci_online xci)). split; [reflexivity|]. unfold r_cap. rewrite on_has, (proj2 (inb_In c _) (H c Hc)).
  destruct q; vm_compute; reflexivity.
Qed.
Lemma r_ratios q cpus : (forall c, In c cpus -> In c (ci_online xci)) -> has_ratios r_all q cpus.
Proof.
  intros H. destruct q; cbn [has_ratios].
  1-3: intros c Hc _; exists r_plat; (split; [reflexivity|]); unfold r_plat; rewrite on_has, (proj2 (inb_In c _) (H c Hc)); vm_compute; reflexivity.
  right. exists r_trl, (s2l "max_g0_turbo_ratio"%string). split; [reflexivity|]. split; [right; now left|].
  intros c Hc _. unfold r_trl. rewrite on_has, (proj2 (inb_In c _) (H c Hc)). vm_compute. reflexivity.
Qed.

(** A CPU has HWP, but it is not enabled, so the capabilities are not to be used. The ratio is in MSR_PLATFORM_INFO
    nevertheless, but it is not read. *)
Definition r_off (a d : Z) : Z := if a =? PM then 0 else r_hw a d.
Lemma C56_hwp_off_refuted_l : exists env sc x g hw c fr ratio,
  wf_ci (me_ci env) /\ (forall a, scope_right env a (sc a)) /\ faithful env /\ hwp_ok env sc x /\ fregs_ok env g sc /\
  In c (ci_online (me_ci env)) /\ io_works (msr_init hw []) /\ clock_known env x (view env (msr_init hw [])) c /\
  fst (get_hwp env g [c] (msr_init hw [])) = Ok [(c, false)] /\
  fg_plat g = Ok fr /\ has fr (plat_name KBase) c = true /\
  is_field (ratio_bits KBase) (view env (msr_init hw []) PLAT (me_dom env PLAT c)) ratio /\ ratio = 22 /\
  fst (get_rated env x g KBase [c] (msr_init hw [])) = Exn ENotSupported.
Proof.
  exists h_env, h_sc, (h_hybrid []), (r_regs []), r_off, 2, r_plat, 22.
  split; [exact xci_wf|]. split; [exact h_scope_right|]. split; [exact h_faithful|]. split; [apply h_hybrid_ok|]. split; [apply r_ok|].
  split; [vm_compute; auto|]. split; [intros b []|].
  split; [split; [exists 100000000; split; reflexivity|reflexivity]|]. split; [vm_compute; reflexivity|]. split; [reflexivity|].
  split; [vm_compute; reflexivity|].
  split; [|split; [reflexivity|vm_compute; reflexivity]].
  assert (view h_env (msr_init r_off []) PLAT (me_dom h_env PLAT 2) = 22 * 256 + 8 * 2 ^ 40 + 5 * 2 ^ 48) as -> by (vm_compute; reflexivity).
  apply (field_val_spec (15, 8)). unfold field_ok. cbn. lia.
Qed.

Lemma run_ex {A} (m : res A * mstate) r : fst m = r -> exists s', m = (r, s').
Proof. intros <-. exists (snd m). apply surjective_pairing. Qed.
