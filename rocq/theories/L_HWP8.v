(** When I/O works, settings in the HWP request registers can be read and made: the calls. *)
From Coq Require Import Ascii String ZifyBool.
From Verif Require Import Base L_Base L_Monad M_CPUInfo S_CPUInfo L_CPUInfo L_CPUInfo2
  M_Text M_MSR S_MSR L_Bits L_MSR L_MSR2 L_MSR3 L_MSR4 L_MSR5 M_FMSR S_FMSR L_Text L_FMSR L_FMSR2 L_FMSR3 L_FMSR4 X_FMSR
  M_HWP S_HWP L_Quiet L_OpTarget L_HWP L_HWP2 L_HWP3 L_HWP4 L_HWP5 L_HWP6 L_FMSR5 M_FRead S_FRead L_FRead S_HWP2 L_HWP7.

Section Calls.
  Variable env : menv.
  Notation dom := (me_dom env).
  Notation ci := (me_ci env).
  Notation online := (ci_online (me_ci env)).
  Variable rep : Z -> Z -> Z.
  Variable sc : Z -> scope.
  Notation view := (view env).
  Notation Inv := (Inv env rep sc).
  Notation same_view := (same_view env rep sc).
  Hypothesis Hwf : wf_ci ci.
  Hypothesis Hsc : forall a, scope_right env a (sc a).
  Hypothesis Hfaith : faithful env.
  Variable x : hwp.
  Hypothesis Hx : hwp_ok env sc x.
  Notation same_trans := (same_trans env rep sc).

  Lemma clock_view s s' c : (forall d, view s' FSB d = view s FSB d) -> clock_known env x (view s) c -> clock_known env x (view s') c.
  Proof. intros H ((b & Hb) & K). split; [|exact K]. exists b. eapply bus_clock_view; [|exact Hb]. intros d. apply H. Qed.
  Lemma clock_same s s' c : same_view s s' -> clock_known env x (view s) c -> clock_known env x (view s') c.
  Proof. intros H. apply clock_view. intros d. apply H. Qed.

  Section Read.
  Notation good := (good env rep sc False).
  Variable fr : freg.
  Hypothesis Hfr : hw_req x = Ok fr.
  Hypothesis Ht : told env fr (s2l "pkg_control"%string).
  Notation controlled_live := (controlled_live env rep sc Hwf Hsc x Hx False fr Hfr).
  Notation perf_live := (perf_live env rep sc Hwf Hsc x Hx False fr Hfr).
  Notation bclk_live := (bclk_live env rep sc Hwf Hsc x Hx False).

  Lemma has_valid k c : has fr (hname k) c = true -> has fr (hvalid k) c = true.
  Proof. destruct (ho_req _ _ _ Hx fr Hfr) as (_ & _ & H & _). apply H. Qed.

  Lemma loop1_live k cpus : forall s, good s ->
    (forall c, In c cpus -> In c online /\ has fr (hname k) c = true /\ clock_known env x (view s) c) ->
    post (get_freq_loop1 env x fr k cpus) s
      (fun r s' => same_view s s' /\ good s' /\ (snd r = true -> exists c, In c cpus /\ pkg_decides env x (view s) k c = true))
      (fun _ _ => False).
  Proof.
    induction cpus as [|c t IH]; intros s G H; cbn [get_freq_loop1].
    - apply post_ret. split; [apply same_refl, G|]. split; [exact G|discriminate].
    - destruct (H c (or_introl eq_refl)) as (Hc & Hh & Hk).
      apply post_bind. eapply post_conseq; [apply (bclk_live c s G Hc Hk)| |auto]. intros b s1 (S1 & G1 & _).
      apply post_bind. eapply post_conseq; [apply (perf_live k c s1 G1 Hc Hh)| |auto]. intros p s2 (S2 & G2).
      pose proof (same_trans _ _ _ S1 S2) as S12.
      apply post_bind. eapply post_conseq; [apply (controlled_live k c s2 G2 Ht Hc (has_valid k c Hh))| |auto]. intros d s3 (S3 & G3 & Ed).
      pose proof (same_trans _ _ _ S12 S3) as S13. destruct d.
      + apply post_ret. split; [exact S13|]. split; [exact G3|]. intros _. exists c. split; [now left|].
        rewrite (pkg_decides_view env x s s2 k c (proj1 S12)) in Ed. now symmetry.
      + apply post_bind. eapply post_conseq; [apply (IH s3 G3)| |auto].
        * intros c' Hc'. destruct (H c' (or_intror Hc')) as (A & B & C). split; [exact A|]. split; [exact B|]. now apply (clock_same s s3).
        * intros [l again] s4 (S4 & G4 & H4). cbn [snd] in H4. apply post_ret. split; [eapply same_trans; eauto|]. split; [exact G4|].
          cbn [snd]. intros E. destruct (H4 E) as (c' & Hc' & D). exists c'. split; [now right|].
          now rewrite (pkg_decides_view env x s s3 k c' (proj1 S13)) in D.
  Qed.

  Lemma pkg_live pkg k c s : hw_pkg x = Ok pkg -> good s -> In c online -> has pkg (hname k) c = true ->
    post (read_num env pkg (hname k) c) s (fun _ s' => same_view s s' /\ good s') (fun _ _ => False).
  Proof.
    intros Hpkg G Hc Hh. destruct (ho_pkg _ _ _ Hx pkg Hpkg) as (Pa & Pf).
    assert (Pg : get_feature pkg (hname k) = Ok (pkg_feature (Some (sc PKG)) k)) by (unfold get_feature; rewrite Pf, pkg_get; reflexivity).
    assert (Pi : fe_ios (pkg_feature (Some (sc PKG)) k) = Some (sc (fr_addr pkg))) by (rewrite Pa; destruct k; reflexivity).
    pose proof (read_num_post env rep sc Hwf Hsc pkg _ _ c s Pg (pkg_feature_ok _ k) Pi (proj1 G)) as P.
    assert (L : live (read_num env pkg (hname k) c) s).
    { apply (read_num_live env rep sc Hwf Hsc pkg _ _ Pg (pkg_feature_ok _ k) Pi c s (proj1 G) (proj1 (proj2 G)) Hc Hh).
      rewrite Pa. exists (field_val (hbits k) (view s PKG (dom PKG c))), (field_val (hbits k) (view s PKG (dom PKG c))).
      rewrite pkg_bits_of. split; [apply field_val_spec, hbits_ok|]. unfold named_as. destruct k; reflexivity. }
    unfold live, post in *. destruct (read_num env pkg (hname k) c s) as [[v|e] s1]; [|destruct L].
    destruct P as (S1 & I1 & _). split; [exact S1|]. eapply good_same; eauto.
  Qed.

  Lemma loop2_live pkg k cpus s : hw_pkg x = Ok pkg -> good s ->
    (forall c, In c cpus -> In c online /\ has fr (hname k) c = true /\ has pkg (hname k) c = true /\ clock_known env x (view s) c) ->
    post (get_freq_loop2 env x fr pkg k cpus) s (fun _ s' => good s') (fun _ _ => False).
  Proof.
    intros Hpkg G H. eapply post_conseq.
    { apply (post_mmap _ (fun _ _ s' => same_view s s' /\ good s') (fun _ _ => False)).
      2:{ split; [apply same_refl, G|exact G]. }
      intros pp c r El q s0 (S0 & G0).
      destruct (H c) as (Hc & Hh & Hp & Hk); [rewrite El; apply in_app_iff; right; now left|].
      apply post_bind. eapply post_conseq; [apply (bclk_live c s0 G0 Hc (clock_same s s0 c S0 Hk))| |auto]. intros b s1 (S1 & G1 & _).
      apply post_bind. eapply post_conseq; [apply (perf_live k c s1 G1 Hc Hh)| |auto]. intros p s2 (S2 & G2).
      apply post_bind. eapply post_conseq; [apply (pkg_live pkg k c s2 Hpkg G2 Hc Hp)| |auto]. intros p' s3 (S3 & G3).
      apply post_bind. eapply post_conseq; [apply (controlled_live k c s3 G3 Ht Hc (has_valid k c Hh))| |auto]. intros d s4 (S4 & G4 & Ed).
      apply post_ret. split; [|exact G4]. eauto using L_HWP2.same_trans. }
    - intros l s' (_ & G'). exact G'.
    - auto.
  Qed.
  End Read.

  Lemma get_freq_live k cpus s : Inv s -> io_works s -> can_request env x k cpus ->
    (forall c, In c cpus -> clock_known env x (view s) c) -> can_ask_package env x (view s) k cpus ->
    live (get_freq_msr env x k cpus) s.
  Proof.
    intros HI W (fr & Hfr & Ht & Hc) Hk Hp.
    assert (G : good env rep sc False s) by (split; [exact HI|split; [exact W|tauto]]).
    unfold get_freq_msr. apply post_bind, post_lift; [|intros e E; congruence]. intros fr' E. rewrite Hfr in E. injection E as <-.
    pose proof (fr_get env sc x Hx fr Hfr _ _ (hname_get k)) as Gf.
    apply post_bind, post_lift; [|intros e E; rewrite (validate_has env fr _ _ (Some cpus) Gf Hc) in E; discriminate]. intros _ _.
    apply post_bind. eapply post_conseq; [apply (loop1_live fr Hfr Ht k cpus s G)| |intros ? ? []].
    { intros c Hin. destruct (Hc c Hin). auto. }
    intros [l again] s1 (S1 & G1 & Ha). cbn [snd] in Ha. destruct again; [|apply post_ret; apply G1].
    destruct (Ha eq_refl) as (c0 & Hc0 & D0). destruct Hp as [Hp|(pkg & Hpkg & Hp)]; [rewrite (Hp c0 Hc0) in D0; discriminate|].
    set (left := filter _ cpus). assert (Hl : forall c, In c left -> In c cpus) by (intros c Hin; apply filter_In in Hin; tauto).
    destruct (ho_pkg _ _ _ Hx pkg Hpkg) as (Pa & Pf).
    assert (Pg : get_feature pkg (hname k) = Ok (pkg_feature (Some (sc PKG)) k)) by (unfold get_feature; rewrite Pf, pkg_get; reflexivity).
    apply post_bind, post_lift; [|intros e E; congruence]. intros pkg' E. rewrite Hpkg in E. injection E as <-.
    apply post_bind, post_lift; [|intros e E; rewrite (validate_has env fr _ _ (Some left) Gf) in E; [discriminate|auto]]. intros _ _.
    apply post_bind, post_lift; [|intros e E; rewrite (validate_has env pkg _ _ (Some left) Pg) in E; [discriminate|]]. 2:{ intros c Hin. split; [apply Hc, Hl, Hin|apply Hp, Hl, Hin]. }
    intros _ _. apply post_bind. eapply post_conseq; [apply (loop2_live fr Hfr Ht pkg k left s1 Hpkg G1)| |intros ? ? []].
    - intros c Hin. apply Hl in Hin. destruct (Hc c Hin) as (A & B). split; [exact A|]. split; [exact B|]. split; [now apply Hp|]. now apply (clock_same s s1), Hk.
    - intros l2 s2 G2. apply post_ret. apply G2.
  Qed.

  Lemma epp_read_live c s : Inv s -> io_works s -> can_request env x HEpp [c] -> can_ask_package env x (view s) HEpp [c] ->
    post (epp_read_msr env x c) s (fun r _ => r <> None) (fun _ _ => False).
  Proof.
    intros HI W (fr & Hfr & Ht & Hc) Hp. destruct (Hc c (or_introl eq_refl)) as (Ho & Hh).
    assert (G : good env rep sc False s) by (split; [exact HI|split; [exact W|tauto]]).
    unfold epp_read_msr. rewrite Hfr. apply post_bind.
    eapply post_conseq; [apply (controlled_live env rep sc Hwf Hsc x Hx False fr Hfr HEpp c s G Ht Ho (has_valid fr Hfr HEpp c Hh))| |auto].
    intros d s1 (S1 & G1 & Ed). apply post_bind. destruct d.
    - destruct Hp as [Hp|(pkg & Hpkg & Hp)]; [rewrite (Hp c (or_introl eq_refl)) in Ed; discriminate|].
      apply post_lift; [|intros e E; congruence]. intros pkg' E. rewrite Hpkg in E. injection E as <-.
      pose proof (pkg_live pkg HEpp c s1 Hpkg G1 Ho (Hp c (or_introl eq_refl))) as L. unfold post in *.
      destruct (read_num env pkg (hname HEpp) c s1) as [[n|e] s2]; [discriminate|destruct L].
    - apply post_ret. pose proof (perf_live env rep sc Hwf Hsc x Hx False fr Hfr HEpp c s1 G1 Ho Hh) as L. unfold post in *.
      destruct (read_num env fr (hname HEpp) c s1) as [[n|e] s2]; [discriminate|destruct L].
  Qed.

  Lemma set_freq_live k f cpus s : Inv s -> io_works s -> registers_64 env s REQ -> k <> HEpp -> 0 <= f -> can_request env x k cpus ->
    (forall c, In c cpus -> clock_known env x (view s) c) ->
    (forall c b p, In c cpus -> bus_clock env x (view s) c b -> freq_level x c b f p -> fits (hbits k) p) ->
    live (set_freq_msr env x k f cpus) s.
  Proof.
    intros HI W R Hne Hf (fr & Hfr & Ht & Hc) Hk Hfit.
    assert (G : good env rep sc True s) by (split; [exact HI|split; [exact W|intros _; exact R]]).
    unfold set_freq_msr. apply post_bind, post_lift; [|intros e E; congruence]. intros fr' E. rewrite Hfr in E. injection E as <-.
    apply post_bind. eapply post_conseq; [apply (disable_all_live env rep sc Hwf Hsc Hfaith x Hx True fr Hfr I k s Hne G Ht)| |auto].
    intros [] s1 (G1 & F1).
    assert (V1 : forall d, view s1 FSB d = view s FSB d) by (intros d; apply F1; discriminate).
    apply post_bind. eapply post_conseq.
    { apply (post_mmap _ (fun pp q s' => same_view s1 s' /\ good env rep sc True s' /\ map fst q = pp /\
        forall c p, In (c, p) q -> exists b, bus_clock env x (view s) c b /\ p = freq_to_perf x c f b) (fun _ _ => False)).
      2:{ split; [apply same_refl, G1|]. split; [exact G1|]. split; [reflexivity|intros ? ? []]. }
      intros pp c r El q s2 (S2 & G2 & E2 & H2).
      assert (Hin : In c cpus) by (rewrite El; apply in_app_iff; right; now left).
      assert (K2 : clock_known env x (view s2) c).
      { eapply clock_same; [exact S2|]. eapply clock_view; [exact V1|]. now apply Hk. }
      apply post_bind. eapply post_conseq; [apply (bclk_live env rep sc Hwf Hsc x Hx True c s2 G2 (proj1 (Hc c Hin)) K2)| |auto].
      intros b s3 (S3 & G3 & Hb). apply post_ret. split; [eapply same_trans; eauto|]. split; [exact G3|].
      split; [rewrite map_app, E2; reflexivity|]. intros c' p' Hin'. apply in_app_iff in Hin'. destruct Hin' as [Hin'|[E|[]]]; [auto|].
      injection E as <- <-. exists b. split; [|reflexivity]. eapply bus_clock_view; [|exact Hb]. intros d. rewrite (proj1 S2). symmetry. apply V1. }
    2:{ intros e s2 []. }
    intros l s2 (S2 & G2 & E2 & Hl).
    pose proof (add_perf_spec l [] (NoDup_nil _)) as (_ & Hg). cbv zeta in Hg. pose proof (add_perf_nonempty l [] (fun _ _ H => match H with end)) as Hn.
    set (groups := fold_left add_perf l []) in *. clearbody groups.
    assert (Hg' : forall p cs c, In (p, cs) groups -> In c cs -> In c cpus /\ exists b, bus_clock env x (view s) c b /\ p = freq_to_perf x c f b).
    { intros p cs c A B. assert (In (c, p) l) as Hin.
      { destruct (proj1 (Hg p c)) as [(? & [] & _)|H]; eauto. }
      split; [rewrite <- E2; apply (in_map fst _ _ Hin)|]. auto. }
    eapply post_conseq.
    { apply (post_mfor _ (fun _ s' => good env rep sc True s') (fun _ _ => False)); [|exact G2].
      intros pp [p cs] r Eg s3 G3. cbn [fst snd].
      assert (Hin : In (p, cs) groups) by (rewrite Eg; apply in_app_iff; right; now left).
      eapply post_conseq; [apply (write_num_live env rep sc Hwf Hsc Hfaith x Hx True fr Hfr I k p cs s3 G3)| |auto].
      - pose proof (Hn p cs Hin) as Hne'. destruct cs as [|c t]; [congruence|].
        destruct (Hg' p _ c Hin (or_introl eq_refl)) as (Hcp & b & Hb & ->). apply (Hfit c b _ Hcp Hb).
        apply (freq_to_perf_ok env sc x Hx). eapply bus_clock_positive; eauto.
      - intros c Hin'. apply Hc. now apply (Hg' p cs c Hin).
      - intros u s4 (G4 & _). exact G4. }
    - intros u s' G'. apply G'.
    - auto.
  Qed.

  Lemma epp_write_live v c s : Inv s -> io_works s -> registers_64 env s REQ -> fits (hbits HEpp) v -> can_request env x HEpp [c] ->
    live (epp_write_msr env x v c) s.
  Proof.
    intros HI W R Hv (fr & Hfr & Ht & Hc). destruct (Hc c (or_introl eq_refl)) as (Ho & Hh).
    assert (G : good env rep sc True s) by (split; [exact HI|split; [exact W|intros _; exact R]]).
    unfold epp_write_msr. apply post_bind, post_lift; [|intros e E; congruence]. intros fr' E. rewrite Hfr in E. injection E as <-.
    apply post_bind. eapply post_conseq; [apply (disable_live env rep sc Hwf Hsc Hfaith x Hx True fr Hfr I HEpp c s G Ht Ho (has_valid fr Hfr HEpp c Hh))| |auto].
    intros [] s1 (G1 & _).
    eapply post_conseq; [apply (write_num_live env rep sc Hwf Hsc Hfaith x Hx True fr Hfr I HEpp v [c] s1 G1 Hv Hc)| |auto].
    intros u s2 (G2 & _). apply G2.
  Qed.
End Calls.

Section Hist.
  Variable env : menv.
  Variable sc : Z -> scope.
  Hypothesis Hwf : wf_ci (me_ci env).
  Hypothesis Hsc : forall a, scope_right env a (sc a).
  Hypothesis Hfaith : faithful env.
  Variable x : hwp.
  Hypothesis Hx : hwp_ok env sc x.
  Variables (ops : list hop) (hw : Z -> Z -> Z) (faults : list bool).
  Hypothesis Hd : hdisciplined env sc ops.
  Notation s := (hrun env x ops (msr_init hw faults)).

  Lemma C27_get_succeeds_l k cpus : io_works s -> can_request env x k cpus -> (forall c, In c cpus -> clock_known env x (view env s) c) ->
    can_ask_package env x (view env s) k cpus -> exists r s', get_freq_msr env x k cpus s = (Ok r, s').
  Proof.
    destruct (hreached env sc Hwf Hsc Hfaith x Hx ops hw faults Hd) as (rep & HI). intros W A B C.
    pose proof (get_freq_live env rep sc Hwf Hsc x Hx k cpus s HI W A B C) as L. unfold live, post in L.
    destruct (get_freq_msr env x k cpus s) as [[r|e] s']; [eauto|destruct L].
  Qed.
  Lemma C27_set_succeeds_l k f cpus : io_works s -> registers_64 env s REQ -> k <> HEpp -> 0 <= f -> can_request env x k cpus ->
    (forall c, In c cpus -> clock_known env x (view env s) c) ->
    (forall c b p, In c cpus -> bus_clock env x (view env s) c b -> freq_level x c b f p -> 0 <= p <= 255) ->
    exists s', set_freq_msr env x k f cpus s = (Ok tt, s').
  Proof.
    destruct (hreached env sc Hwf Hsc Hfaith x Hx ops hw faults Hd) as (rep & HI). intros W R Hk Hf A B C.
    assert (L : live (set_freq_msr env x k f cpus) s).
    { apply (set_freq_live env rep sc Hwf Hsc Hfaith x Hx k f cpus s HI W R Hk Hf A B). intros c b p H1 H2 H3.
      pose proof (C c b p H1 H2 H3). destruct k; unfold fits, field_width; cbn; lia. }
    unfold live, post in L. destruct (set_freq_msr env x k f cpus s) as [[[]|e] s']; [eauto|destruct L].
  Qed.
  Lemma C27_epp_succeeds_l c : io_works s -> can_request env x HEpp [c] ->
    (can_ask_package env x (view env s) HEpp [c] -> exists v s', epp_read_msr env x c s = (Ok (Some v), s')) /\
    (registers_64 env s REQ -> forall v, 0 <= v <= 255 -> exists s', epp_write_msr env x v c s = (Ok tt, s')).
  Proof.
    destruct (hreached env sc Hwf Hsc Hfaith x Hx ops hw faults Hd) as (rep & HI). intros W A. split.
    - intros B. pose proof (epp_read_live env rep sc Hwf Hsc x Hx c s HI W A B) as L. unfold post in L.
      destruct (epp_read_msr env x c s) as [[[v|]|e] s']; [eauto|congruence|destruct L].
    - intros R v Hv. assert (Hf : fits (hbits HEpp) v) by (unfold fits, field_width; cbn; lia).
      pose proof (epp_write_live env rep sc Hwf Hsc Hfaith x Hx v c s HI W R Hf A) as L. unfold live, post in L.
      destruct (epp_write_msr env x v c s) as [[[]|e] s']; [eauto|destruct L].
  Qed.
End Hist.
