(** Lemmas about the CPU frequencies that are read from MSRs: histories. *)
From Coq Require Import Ascii String ZifyBool.
From Verif Require Import Base L_Base L_Monad M_CPUInfo S_CPUInfo L_CPUInfo L_CPUInfo2
  M_Text M_MSR S_MSR L_Bits L_MSR L_MSR2 L_MSR3 L_MSR4 L_MSR5 M_FMSR S_FMSR L_Text L_FMSR L_FMSR2 L_FMSR3 L_FMSR4 X_FMSR
  M_HWP S_HWP L_Quiet L_OpTarget L_HWP L_HWP2 L_HWP3 L_HWP4 L_HWP5 L_HWP6 L_FMSR5 M_FRead S_FRead L_FRead.

Section Hist.
  Variable env : menv.
  Notation dom := (me_dom env).
  Notation ci := (me_ci env).
  Notation online := (ci_online (me_ci env)).
  Variable sc : Z -> scope.
  Notation view := (view env).
  Hypothesis Hwf : wf_ci ci.
  Hypothesis Hsc : forall a, scope_right env a (sc a).
  Hypothesis Hfaith : faithful env.
  Variable x : hwp.
  Hypothesis Hx : hwp_ok env sc x.
  Variable g : fregs.
  Hypothesis Hg : fregs_ok env g sc.

  Definition ffine (rep : Z -> Z -> Z) (tx : bool) (o : fop) : Prop :=
    match o with FHwp o => fine env sc rep tx o | _ => True end.

  Lemma quiet_step rep tx o s : (forall h, o <> FHwp h) -> hinv env sc rep tx s ->
    hinv env sc rep tx (fstep env x g s o) /\ forall a d, view (fstep env x g s o) a d = view s a d.
  Proof.
    intros Hn HH. pose proof (proj1 HH) as HI. destruct o as [o|q cpus|cpus|cpus]; [now elim (Hn o)|..]; cbn [fstep].
    - pose proof (get_rated_post env rep sc Hwf Hsc x Hx g Hg q cpus s HI) as P. unfold post in P.
      destruct (get_rated env x g q cpus s) as [[r|e] s']; cbn [snd];
        (assert (K : same_view env rep sc s s' /\ Inv env rep sc s') by (split; apply P)); destruct K as ((V & K) & I');
        (split; [eapply hinv_keeps; eauto|exact V]).
    - pose proof (get_hwp_post env rep sc Hwf Hsc g Hg cpus s HI) as P. unfold post in P.
      destruct (get_hwp env g cpus s) as [[r|e] s']; cbn [snd];
        (assert (K : same_view env rep sc s s' /\ Inv env rep sc s') by (split; apply P)); destruct K as ((V & K) & I');
        (split; [eapply hinv_keeps; eauto|exact V]).
    - pose proof (bus_clock_msr_post env rep sc Hwf Hsc x Hx cpus s HI) as P. unfold post in P.
      destruct (bus_clock_msr env x cpus s) as [[r|e] s']; cbn [snd];
        (assert (K : same_view env rep sc s s' /\ Inv env rep sc s') by (split; apply P)); destruct K as ((V & K) & I');
        (split; [eapply hinv_keeps; eauto|exact V]).
  Qed.

  Lemma fstep_fine rep tx o s : hinv env sc rep tx s -> ffine rep tx o -> hinv env sc rep tx (fstep env x g s o).
  Proof.
    intros HH Hf. destruct o as [o|q cpus|cpus|cpus].
    - cbn [fstep]. now apply hstep_fine.
    - now apply quiet_step.
    - now apply quiet_step.
    - now apply quiet_step.
  Qed.

  Lemma frun_fine rep tx ops : forall s, hinv env sc rep tx s -> (forall o, In o ops -> ffine rep tx o) -> hinv env sc rep tx (frun env x g ops s).
  Proof.
    induction ops as [|o t IH]; intros s HH Hf; [exact HH|]. cbn [frun fold_left]. apply IH; [|intros; apply Hf; now right].
    apply fstep_fine; [exact HH|]. apply Hf. now left.
  Qed.

  Lemma hops_In o ops : In o (hops_of ops) <-> In (FHwp o) ops.
  Proof.
    unfold hops_of. rewrite in_flat_map. split.
    - intros ([h|q c|c|c] & Hin & Hh); cbn in Hh; try contradiction. destruct Hh as [<-|[]]. exact Hin.
    - intros H. exists (FHwp o). split; [exact H|now left].
  Qed.

  Lemma all_fine ops : hdisciplined env sc (hops_of ops) -> exists rep tx,
    (forall o, In o ops -> ffine rep tx o) /\ (tx = true -> forall c, In c online -> rep REQ (dom REQ c) = c).
  Proof.
    intros H. destruct (disciplined_fine env sc _ H) as (rep & tx & Hf & Hr). exists rep, tx. split; [|exact Hr].
    intros [h|q c|c|c] Hin; cbn [ffine]; auto. apply Hf. now apply hops_In.
  Qed.

  Lemma freached ops hw faults : hdisciplined env sc (hops_of ops) -> exists rep, Inv env rep sc (frun env x g ops (msr_init hw faults)).
  Proof.
    intros H. destruct (all_fine ops H) as (rep & tx & Hf & Hr). exists rep.
    apply (frun_fine rep tx ops _ (hinv_init env sc rep tx hw faults Hr) Hf).
  Qed.

  (** Registers other than the CPUs' requests change only when they are written. *)
  Lemma fstep_frame rep tx o s a d : hinv env sc rep tx s -> ffine rep tx o -> a <> REQ ->
    (forall m, o = FHwp (HMsr m) -> ~ op_touches env m a d) -> view (fstep env x g s o) a d = view s a d.
  Proof.
    intros HH Hf Ha Ht. destruct o as [h|q cpus|cpus|cpus].
    2-4: match goal with |- S_MSR.view _ (fstep _ _ _ _ ?o) _ _ = _ => assert (Hn : forall h, o <> FHwp h) by discriminate;
           destruct (quiet_step rep tx o s Hn HH) as (_ & V); apply V end.
    cbn [fstep ffine] in *. pose proof (proj1 HH) as HI. destruct h as [m|k cs|k f cs|c|v c]; cbn [hstep fine] in *.
    - destruct (msr_fine env sc Hwf Hsc Hfaith rep tx m s HH Hf) as (_ & V). apply V. now apply Ht.
    - pose proof (get_freq_post env rep sc Hwf Hsc x Hx k cs s HI) as P. unfold post in P.
      destruct (get_freq_msr env x k cs s) as [[r|e] s']; cbn [snd]; destruct P as ((V & _) & _); apply V.
    - pose proof (set_freq_post env rep sc Hwf Hsc Hfaith x Hx k f cs s Hf HI) as P. unfold post in P.
      destruct (set_freq_msr env x k f cs s) as [[r|e] s']; cbn [snd]; destruct P as ((_ & _ & F & _) & _); now apply F.
    - pose proof (epp_read_post env rep sc Hwf Hsc x Hx c s HI) as P. unfold post in P.
      destruct (epp_read_msr env x c s) as [[r|e] s']; cbn [snd]; destruct P as ((V & _) & _); apply V.
    - pose proof (epp_write_post env rep sc Hwf Hsc Hfaith x Hx v c s Hf HI) as P. unfold post in P.
      destruct (epp_write_msr env x v c s) as [[r|e] s']; cbn [snd]; destruct P as ((_ & _ & F & _) & _); now apply F.
  Qed.

  Lemma frun_frame rep tx ops a d : a <> REQ -> (forall m, In (FHwp (HMsr m)) ops -> ~ op_touches env m a d) ->
    (forall o, In o ops -> ffine rep tx o) -> forall s, hinv env sc rep tx s -> view (frun env x g ops s) a d = view s a d.
  Proof.
    intros Ha. induction ops as [|o t IH]; intros Ht Hf s HH; [reflexivity|]. cbn [frun fold_left]. unfold frun in IH.
    rewrite IH; [|intros; apply Ht; now right|intros; apply Hf; now right|apply fstep_fine; [exact HH|apply Hf; now left]].
    apply (fstep_frame rep tx); [exact HH|apply Hf; now left|exact Ha|]. intros m ->. apply Ht. now left.
  Qed.

  (** ** The theorems *)
  Section At.
  Variables (ops : list fop) (hw : Z -> Z -> Z) (faults : list bool).
  Hypothesis Hd : hdisciplined env sc (hops_of ops).
  Notation s := (frun env x g ops (msr_init hw faults)).

  Lemma C56_read_l : forall q cpus r s', get_rated env x g q cpus s = (Ok r, s') ->
    map fst r = cpus /\ (forall c f, In (c, f) r <-> In c cpus /\ rated env x g (view s) q c f) /\
    (forall c, In c cpus -> In c online) /\ has_levels g q cpus /\ has_ratios g q cpus.
  Proof.
    destruct (freached ops hw faults Hd) as (rep & HI). intros q cpus r s' E.
    pose proof (get_rated_post env rep sc Hwf Hsc x Hx g Hg q cpus _ HI) as P. unfold post in P. rewrite E in P.
    destruct P as (_ & _ & Em & H & O & KL & KR). split; [exact Em|]. split; [|auto].
    intros c f. split.
    - intros Hin. split; [|now apply H]. rewrite <- Em. apply in_map_iff. exists (c, f). auto.
    - intros (Hc & Hr). rewrite <- Em in Hc. apply in_map_iff in Hc as ([c' f'] & Ec & Hin). cbn [fst] in Ec. subst c'.
      replace f with f'; [exact Hin|]. eapply rated_fun; eauto.
  Qed.

  Lemma C56_read_only_l : forall a d,
    (forall q cpus, view (snd (get_rated env x g q cpus s)) a d = view s a d) /\
    (forall cpus, view (snd (get_hwp env g cpus s)) a d = view s a d) /\
    (forall cpus, view (snd (bus_clock_msr env x cpus s)) a d = view s a d).
  Proof.
    intros a d. destruct (all_fine ops Hd) as (rep & tx & Hf & Hr).
    pose proof (frun_fine rep tx ops _ (hinv_init env sc rep tx hw faults Hr) Hf) as HH.
    split; [|split].
    - intros q cpus. apply (quiet_step rep tx (FRated q cpus) s); [discriminate|exact HH].
    - intros cpus. apply (quiet_step rep tx (FStatus cpus) s); [discriminate|exact HH].
    - intros cpus. apply (quiet_step rep tx (FClock cpus) s); [discriminate|exact HH].
  Qed.

  Lemma C56_succeeds_l : forall q cpus, io_works s -> NoDup cpus ->
    (forall c, In c cpus -> In c online /\ clock_known env x (view s) c) -> has_levels g q cpus -> has_ratios g q cpus ->
    exists r s', get_rated env x g q cpus s = (Ok r, s').
  Proof.
    destruct (freached ops hw faults Hd) as (rep & HI). intros q cpus W Hn H KL KR.
    pose proof (get_rated_live env rep sc Hwf Hsc x Hx g Hg q cpus s HI W Hn H KL KR) as L. unfold live, post in L.
    destruct (get_rated env x g q cpus s) as [[r|e] s']; [eauto|destruct L].
  Qed.

  Lemma C56_hwp_l : forall cpus r s', get_hwp env g cpus s = (Ok r, s') ->
    (NoDup cpus -> map fst r = cpus) /\
    forall c b, In (c, b) r <-> In c cpus /\ b = Z.testbit (view s PM (dom PM c)) 0.
  Proof.
    destruct (freached ops hw faults Hd) as (rep & HI). intros cpus r s' E.
    pose proof (get_hwp_post env rep sc Hwf Hsc g Hg cpus _ HI) as P. unfold post in P. rewrite E in P.
    destruct P as (_ & _ & Em & H & _). split; [intros Hn; rewrite Em; now apply dedup_id|]. intros c b. split.
    - intros Hin. split; [|now apply H]. apply dedup_In. rewrite <- Em. apply in_map_iff. exists (c, b). auto.
    - intros (Hc & ->). apply dedup_In in Hc. rewrite <- Em in Hc. apply in_map_iff in Hc as ([c' b'] & Ec & Hin). cbn [fst] in Ec. subst c'.
      now rewrite <- (H _ _ Hin).
  Qed.
  Lemma C56_hwp_succeeds_l : forall cpus fr, io_works s -> fg_pm g = Ok fr ->
    (forall c, In c cpus -> In c online /\ has fr (s2l "hwp"%string) c = true) -> exists r s', get_hwp env g cpus s = (Ok r, s').
  Proof.
    destruct (freached ops hw faults Hd) as (rep & HI). intros cpus fr W Hfr H.
    pose proof (get_hwp_live env rep sc Hwf Hsc g Hg cpus fr s HI W Hfr H) as L. unfold live, post in L.
    destruct (get_hwp env g cpus s) as [[r|e] s']; [eauto|destruct L].
  Qed.

  Lemma C56_clock_l : forall cpus r,
    (exists s', bus_clock_msr env x cpus s = (Ok r, s')) \/ bus_clock_doc x cpus = Ok r ->
    (NoDup cpus -> map fst r = cpus) /\ forall c b, In (c, b) r <-> In c cpus /\ bus_clock env x (view s) c b.
  Proof.
    destruct (freached ops hw faults Hd) as (rep & HI). intros cpus r [(s' & E)|E].
    - pose proof (bus_clock_msr_post env rep sc Hwf Hsc x Hx cpus _ HI) as P. unfold post in P. rewrite E in P.
      destruct P as (_ & _ & Em & H & _). split; [intros Hn; rewrite Em; now apply dedup_id|]. intros c b. split.
      + intros Hin. split; [|now apply H]. apply dedup_In. rewrite <- Em. apply in_map_iff. exists (c, b). auto.
      + intros (Hc & Hb). apply dedup_In in Hc. rewrite <- Em in Hc. apply in_map_iff in Hc as ([c' b'] & Ec & Hin). cbn [fst] in Ec. subst c'.
        replace b with b'; [exact Hin|]. eapply bus_clock_fun; eauto.
    - unfold bus_clock_doc, bus_clock in *. destruct (hw_fsb x) as [fsb|e] eqn:Ef; [discriminate|]. destruct e; try discriminate.
      destruct (hw_intel x); [|discriminate]. injection E as <-. split; [intros _; rewrite map_map; apply map_id|].
      intros c b. rewrite in_map_iff. split; [intros (c' & [= <- <-] & Hc); auto|]. intros (Hc & _ & ->). eauto.
  Qed.
  Lemma C56_clock_succeeds_l : forall cpus, io_works s -> 
    (forall c, In c cpus -> In c online /\ clock_known env x (view s) c) -> cpus <> [] ->
    exists r, (exists s', bus_clock_msr env x cpus s = (Ok r, s')) \/ bus_clock_doc x cpus = Ok r.
  Proof.
    destruct (freached ops hw faults Hd) as (rep & HI). intros cpus W H Hn.
    destruct (hw_fsb x) as [fsb|e] eqn:Ef.
    - pose proof (bus_clock_msr_live env rep sc Hwf Hsc x Hx cpus fsb s HI W Ef H) as L. unfold live, post in L.
      destruct (bus_clock_msr env x cpus s) as [[r|e] s']; [eauto|destruct L].
    - destruct cpus as [|c t]; [now elim Hn|]. destruct (H c (or_introl eq_refl)) as (_ & (b & Hb) & Hk). rewrite Ef in Hk. subst e.
      unfold bus_clock in Hb. rewrite Ef in Hb. destruct Hb as (Hi & _).
      exists (map (fun c => (c, 100000000)) (c :: t)). right. unfold bus_clock_doc. now rewrite Ef, Hi.
  Qed.
  End At.

  Lemma rated_view L L' q c f : (forall a d, In a [CAP; PLAT; TRL; FSB] -> L' a d = L a d) -> rated env x g L q c f -> rated env x g L' q c f.
  Proof.
    intros HL (b & Hb & H). exists b. split; [eapply bus_clock_view; [|exact Hb]; intros; apply HL; cbn; auto|].
    destruct H as [(Hw & p & Hp & Hl)|(Hw & p & Hp & ->)]; [left|right]; (split; [exact Hw|]); exists p.
    - rewrite HL by (cbn; auto). auto.
    - rewrite HL by (destruct q; cbn; auto). auto.
  Qed.

  Lemma C56_stable_l : forall ops ops2 hw faults q cpus r1 s1 r2 s2, hdisciplined env sc (hops_of (ops ++ ops2)) ->
    get_rated env x g q cpus (frun env x g ops (msr_init hw faults)) = (Ok r1, s1) ->
    get_rated env x g q cpus (frun env x g ops2 s1) = (Ok r2, s2) ->
    (forall m a d, In (FHwp (HMsr m)) ops2 -> In a [CAP; PLAT; TRL; FSB] -> ~ op_touches env m a d) -> r2 = r1.
  Proof.
    intros ops ops2 hw faults q cpus r1 s1 r2 s2 Hd E1 E2 Ht. destruct (all_fine _ Hd) as (rep & tx & Hf & Hr).
    set (s0 := frun env x g ops (msr_init hw faults)) in *.
    assert (HH0 : hinv env sc rep tx s0).
    { apply (frun_fine rep tx ops _ (hinv_init env sc rep tx hw faults Hr)). intros; apply Hf, in_app_iff; auto. }
    pose proof (quiet_step rep tx (FRated q cpus) s0 ltac:(discriminate) HH0) as (HH1 & V1). cbn [fstep] in *. rewrite E1 in *. cbn [snd] in *.
    assert (Hf2 : forall o, In o ops2 -> ffine rep tx o) by (intros; apply Hf, in_app_iff; auto).
    pose proof (frun_fine rep tx ops2 _ HH1 Hf2) as HH2.
    pose proof (get_rated_post env rep sc Hwf Hsc x Hx g Hg q cpus _ (proj1 HH0)) as P1. unfold post in P1. rewrite E1 in P1.
    pose proof (get_rated_post env rep sc Hwf Hsc x Hx g Hg q cpus _ (proj1 HH2)) as P2. unfold post in P2. rewrite E2 in P2.
    destruct P1 as (_ & _ & M1 & R1 & _). destruct P2 as (_ & _ & M2 & R2 & _).
    assert (G : forall c f f', In (c, f) r1 -> In (c, f') r2 -> f' = f).
    { intros c f f' H1 H2. apply R1 in H1. apply R2 in H2. eapply rated_fun; [exact Hx| |exact H1].
      eapply rated_view; [|exact H2]. intros a d Ha. symmetry. rewrite (frun_frame rep tx ops2 a d); [apply V1| | |exact Hf2|exact HH1].
      - intros ->. cbn in Ha. unfold CAP, PLAT, TRL, FSB, REQ in Ha. lia.
      - intros m Hm. now apply Ht. }
    clear - M1 M2 G. revert cpus r2 M1 M2 G. induction r1 as [|[c f] t IH]; intros cpus [|[c' f'] t'] M1 M2 G; cbn [map fst] in *; subst; try discriminate; [reflexivity|].
    injection M2 as -> M2. f_equal; [f_equal; apply (G c); now left|]. apply (IH (map fst t) t' eq_refl M2). intros c0 f0 f0' H1 H2. apply (G c0); now right.
  Qed.
End Hist.
