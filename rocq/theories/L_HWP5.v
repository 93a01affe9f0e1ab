(** Lemmas about the HWP request registers: reading and setting frequencies and EPP. *)
From Coq Require Import Ascii String ZifyBool.
From Verif Require Import Base L_Base L_Monad M_CPUInfo S_CPUInfo L_CPUInfo L_CPUInfo2
  M_Text M_MSR S_MSR L_Bits L_MSR L_MSR2 L_MSR3 L_MSR4 L_MSR5 M_FMSR S_FMSR L_Text L_FMSR L_FMSR2 L_FMSR3 L_FMSR4 X_FMSR
  M_HWP S_HWP L_Quiet L_OpTarget L_HWP L_HWP2 L_HWP3 L_HWP4.

Lemma nodup_app_sep (a b : list Z) : NoDup (a ++ b) -> forall c, In c a -> In c b -> False.
Proof.
  induction a as [|y t IH]; intros H c Ha Hb; [destruct Ha|]. destruct Ha as [E|Ha]; inversion_clear H as [|? ? Hn Ht].
  - subst y. apply Hn, in_app_iff. now right.
  - eapply IH; eauto.
Qed.

Section Post.
  Variable env : menv.
  Notation dom := (me_dom env).
  Notation ci := (me_ci env).
  Notation online := (ci_online (me_ci env)).
  Variable rep : Z -> Z -> Z.
  Variable sc : Z -> scope.
  Notation Coh := (Coh env rep sc).
  Notation view := (view env).
  Notation keeps := (keeps env rep sc).
  Hypothesis Hwf : wf_ci ci.
  Hypothesis Hsc : forall a, scope_right env a (sc a).
  Hypothesis Hfaith : faithful env.
  Variable x : hwp.
  Hypothesis Hx : hwp_ok env sc x.
  Notation Inv := (Inv env rep sc).
  Notation same_view := (same_view env rep sc).
  Notation same_trans := (same_trans env rep sc).
  Notation same_refl := (same_refl env rep sc).
  Notation tidy := (tidy env rep sc).
  Notation tidy_trans := (tidy_trans env rep sc).
  Notation reg s c := (view s REQ (dom REQ c)).
  Notation get_bclk_post := (get_bclk_post env rep sc Hwf Hsc x Hx).
  Notation bus_clock_positive := (bus_clock_positive env sc x Hx).
  Notation bus_clock_fun := (bus_clock_fun env sc x Hx).

  (** ** Levels and frequencies *)
  Lemma factor_positive c : inb c (hw_pcores x) = true -> 0 < hw_factor x.
  Proof.
    intros H. destruct (ho_hybrid _ _ _ Hx) as (_ & Hf); [intros E; rewrite E in H; discriminate|].
    cbn in Hf. lia.
  Qed.

  Lemma perf_to_freq_ok c perf bclk : 0 < bclk -> level_freq x c bclk perf (perf_to_freq x c perf bclk).
  Proof.
    intros Hb. unfold level_freq, perf_to_freq. destruct (inb c (hw_pcores x)); [|reflexivity].
    set (f := perf * hw_factor x). pose proof (Z.mod_pos_bound f bclk Hb). pose proof (Z.div_mod f bclk ltac:(lia)).
    split; [|lia]. exists (f / bclk). lia.
  Qed.

  Lemma freq_to_perf_ok c f bclk : 0 < bclk -> freq_level x c bclk f (freq_to_perf x c f bclk).
  Proof.
    intros Hb. unfold freq_level, freq_to_perf. destruct (inb c (hw_pcores x)) eqn:E.
    - pose proof (factor_positive c E) as Hf. set (g := hw_factor x) in *.
      pose proof (Z.div_mod (f + g - 1) g ltac:(lia)). pose proof (Z.mod_pos_bound (f + g - 1) g Hf). nia.
    - pose proof (Z.div_mod f bclk ltac:(lia)). pose proof (Z.mod_pos_bound f bclk Hb). nia.
  Qed.

  Lemma level_freq_fun c bclk perf f f' : 0 < bclk -> level_freq x c bclk perf f -> level_freq x c bclk perf f' -> f = f'.
  Proof.
    unfold level_freq. intros Hb. destruct (inb c (hw_pcores x)); [|congruence].
    intros ((q & ->) & H1) ((q' & ->) & H2). f_equal. nia.
  Qed.

  Lemma freq_level_fun c bclk f p p' : 0 < bclk -> freq_level x c bclk f p -> freq_level x c bclk f p' -> p = p'.
  Proof.
    unfold freq_level. intros Hb. destruct (inb c (hw_pcores x)) eqn:E; [|nia].
    pose proof (factor_positive c E). nia.
  Qed.

  Lemma freq_to_perf_nonneg c f bclk : 0 < bclk -> 0 <= f -> 0 <= freq_to_perf x c f bclk.
  Proof.
    intros Hb Hf. unfold freq_to_perf. destruct (inb c (hw_pcores x)) eqn:E; [|apply Z.div_pos; lia].
    pose proof (factor_positive c E). apply Z.div_pos; lia.
  Qed.

  (** ** Views *)
  Lemma setting_view L L' k c v : (forall a d, L' a d = L a d) -> setting env x L k c v -> setting env x L' k c v.
  Proof. intros H. unfold setting, pkg_decides. now rewrite !H. Qed.
  Lemma freq_view L L' k c f : (forall a d, L' a d = L a d) -> freq_in_effect env x L k c f -> freq_in_effect env x L' k c f.
  Proof.
    intros H (b & p & Hb & Hs & Hl). exists b, p. split; [|split; [|exact Hl]].
    - eapply bus_clock_view; [|eauto]. auto.
    - eapply setting_view; eauto.
  Qed.

  Section WithReq.
  Variable fr : freg.
  Hypothesis Hfr : hw_req x = Ok fr.
  Notation perf_post := (perf_post env rep sc Hwf Hsc x Hx fr Hfr).
  Notation controlled_post := (controlled_post env rep sc Hwf Hsc x Hx fr Hfr).

  Lemma loop1_post k cpus : forall s, Inv s ->
    post (get_freq_loop1 env x fr k cpus) s
      (fun r s' => same_view s s' /\ Inv s' /\ (exists rest, cpus = map fst (fst r) ++ rest /\ (snd r = false -> rest = [])) /\
         forall c f, In (c, f) (fst r) -> freq_in_effect env x (view s) k c f)
      (fun _ s' => same_view s s' /\ Inv s').
  Proof.
    induction cpus as [|c t IH]; intros s HI; cbn [get_freq_loop1].
    - apply post_ret. split; [now apply same_refl|]. split; [exact HI|]. split; [exists []; auto|intros c f []].
    - apply post_bind. eapply post_conseq; [apply (get_bclk_post c s HI)| |auto]. intros b s1 (S1 & I1 & Hb).
      apply post_bind. eapply post_conseq; [apply (perf_post k c s1 I1)| |].
      2:{ intros e s2 (S2 & I2). split; [eapply same_trans; eauto|exact I2]. }
      intros p s2 (S2 & I2 & _ & _ & Hp). pose proof (same_trans _ _ _ S1 S2) as S12.
      apply post_bind. eapply post_conseq; [apply (controlled_post k c s2 I2)| |].
      2:{ intros e s3 (S3 & I3 & _). split; [eapply same_trans; eauto|exact I3]. }
      intros d s3 (S3 & I3 & Hc & Hd). pose proof (same_trans _ _ _ S12 S3) as S13.
      destruct d.
      + apply post_ret. split; [exact S13|]. split; [exact I3|]. split; [exists (c :: t); split; [reflexivity|discriminate]|intros ? ? []].
      + apply post_bind. eapply post_conseq; [apply (IH s3 I3)| |].
        2:{ intros e s4 (S4 & I4). split; [eapply same_trans; eauto|exact I4]. }
        intros [l again] s4 (S4 & I4 & (rest & -> & Hr) & Hl). apply post_ret. cbn [fst snd] in *.
        split; [eapply same_trans; eauto|]. split; [exact I4|]. split; [exists rest; auto|].
        intros c' f' [E|Hin].
        * injection E as <- <-. exists b, p. split; [exact Hb|]. split.
          -- unfold setting. rewrite (pkg_decides_view env x s s2 k c (proj1 S12)) in Hd. rewrite <- Hd.
             rewrite <- (proj1 S1). exact Hp.
          -- apply perf_to_freq_ok. eapply bus_clock_positive; eauto.
        * eapply freq_view; [|apply Hl; exact Hin]. intros; now rewrite (proj1 S13).
  Qed.

  Lemma loop2_post pkg k cpus s : hw_pkg x = Ok pkg -> Inv s ->
    post (get_freq_loop2 env x fr pkg k cpus) s
      (fun l s' => same_view s s' /\ Inv s' /\ map fst l = cpus /\ forall c f, In (c, f) l -> freq_in_effect env x (view s) k c f)
      (fun _ s' => same_view s s' /\ Inv s').
  Proof.
    intros Hpkg HI. destruct (ho_pkg _ _ _ Hx pkg Hpkg) as (Pa & Pf).
    assert (Pg : get_feature pkg (hname k) = Ok (pkg_feature (Some (sc PKG)) k)).
    { unfold get_feature. rewrite Pf, pkg_get. reflexivity. }
    assert (Pi : fe_ios (pkg_feature (Some (sc PKG)) k) = Some (sc (fr_addr pkg))) by (rewrite Pa; destruct k; reflexivity).
    unfold get_freq_loop2. apply (post_mmap _ (fun p q s' => same_view s s' /\ Inv s' /\ map fst q = p /\ forall c f, In (c, f) q -> freq_in_effect env x (view s) k c f)).
    2:{ split; [now apply same_refl|]. split; [exact HI|]. split; [reflexivity|intros ? ? []]. }
    intros pp c r _ q s0 (S0 & I0 & E0 & H0).
    apply post_bind. eapply post_conseq; [apply (get_bclk_post c s0 I0)| |].
    2:{ intros e s1 (S1 & I1). split; [eapply same_trans; eauto|exact I1]. }
    intros b s1 (S1 & I1 & Hb). pose proof (same_trans _ _ _ S0 S1) as T1.
    apply post_bind. eapply post_conseq; [apply (perf_post k c s1 I1)| |].
    2:{ intros e s2 (S2 & I2). split; [eapply same_trans; eauto|exact I2]. }
    intros p s2 (S2 & I2 & _ & _ & Hp). pose proof (same_trans _ _ _ T1 S2) as T2.
    apply post_bind. eapply post_conseq; [apply (read_num_post env rep sc Hwf Hsc pkg _ _ c s2 Pg (pkg_feature_ok _ k) Pi I2)| |].
    2:{ intros e s3 (S3 & I3). split; [eapply same_trans; eauto|exact I3]. }
    intros pv s3 (S3 & I3 & _ & _ & code & Hpf & Hpn). pose proof (same_trans _ _ _ T2 S3) as T3.
    assert (code = pv) as -> by (unfold named_as in Hpn; destruct k; cbn in Hpn; congruence).
    rewrite Pa, pkg_bits_of in Hpf.
    apply post_bind. eapply post_conseq; [apply (controlled_post k c s3 I3)| |].
    2:{ intros e s4 (S4 & I4 & _). split; [eapply same_trans; eauto|exact I4]. }
    intros d s4 (S4 & I4 & _ & Hd). apply post_ret. split; [eapply same_trans; eauto|]. split; [exact I4|].
    split; [rewrite map_app, E0; reflexivity|]. intros c' f' Hin. apply in_app_iff in Hin. destruct Hin as [Hin|[E|[]]]; [auto|].
    injection E as <- <-. exists b, (if d then pv else p). split; [|split].
    - eapply bus_clock_view; [|exact Hb]. intros; now rewrite (proj1 S0).
    - unfold setting. rewrite (pkg_decides_view env x s s3 k c (proj1 T3)) in Hd. rewrite <- Hd.
      destruct d; [now rewrite <- (proj1 T2)|now rewrite <- (proj1 T1)].
    - apply perf_to_freq_ok. eapply bus_clock_positive; eauto.
  Qed.
  End WithReq.

  Lemma get_freq_post k cpus s : Inv s ->
    post (get_freq_msr env x k cpus) s
      (fun r s' => same_view s s' /\ Inv s' /\ (forall c, In c (map fst r) <-> In c cpus) /\ (NoDup cpus -> map fst r = cpus) /\
         forall c f, In (c, f) r -> freq_in_effect env x (view s) k c f)
      (fun _ s' => same_view s s' /\ Inv s').
  Proof.
    intros HI. assert (R : same_view s s /\ Inv s) by (split; [now apply same_refl|exact HI]).
    unfold get_freq_msr. apply post_bind, post_lift; [|intros; exact R]. intros fr Hfr.
    apply post_bind, post_lift; [|intros; exact R]. intros _ _.
    apply post_bind. eapply post_conseq; [apply (loop1_post fr Hfr k cpus s HI)| |auto].
    intros [l again] s1 (S1 & I1 & (rest & El & Hr) & Hl). cbn [fst snd] in *. destruct again.
    - set (left := filter _ cpus). apply post_bind, post_lift; [|intros; split; assumption]. intros pkg Hpkg.
      apply post_bind, post_lift; [|intros; split; assumption]. intros _ _.
      apply post_bind, post_lift; [|intros; split; assumption]. intros _ _.
      apply post_bind. eapply post_conseq; [apply (loop2_post fr Hfr pkg k left s1 Hpkg I1)| |].
      2:{ intros e s2 (S2 & I2). split; [eapply same_trans; eauto|exact I2]. }
      intros l2 s2 (S2 & I2 & E2 & Hl2). apply post_ret.
      split; [eapply same_trans; eauto|]. split; [exact I2|].
      assert (Hleft : forall c, In c left <-> In c cpus /\ ~ In c (map fst l)).
      { intros c. unfold left. rewrite filter_In. cbn beta. destruct (inb c (map fst l)) eqn:E.
        - apply inb_In in E. cbn. intuition discriminate.
        - rewrite <- (inb_In c (map fst l)), E. cbn. intuition discriminate. }
      split; [|split].
      + intros c. rewrite map_app, in_app_iff, E2, Hleft. rewrite El, in_app_iff.
        destruct (in_dec Z.eq_dec c (map fst l)); tauto.
      + intros Hnd. rewrite map_app, E2. rewrite El. f_equal. unfold left. rewrite El, filter_app.
        rewrite El in Hnd. clear - Hnd.
        assert (G : forall a b, NoDup (a ++ b) -> forall a', (forall c, In c a' -> In c a) -> (forall c, In c a' -> ~ In c b) ->
          filter (fun c => negb (inb c a)) a' = [] /\ filter (fun c => negb (inb c a)) b = b).
        { intros a b Hab a' Ha' _. split.
          - induction a' as [|y t IH]; [reflexivity|]. cbn [filter]. assert (inb y a = true) as -> by (apply inb_In, Ha'; now left).
            apply IH. intros c Hc. apply Ha'. now right.
          - assert (Hb : forall c, In c b -> ~ In c a) by (intros c Hb Ha; exact (nodup_app_sep _ _ Hab c Ha Hb)).
            clear - Hb. induction b as [|y t IH]; [reflexivity|]. cbn [filter].
            destruct (inb y a) eqn:E; [apply inb_In in E; elim (Hb y); [now left|exact E]|]. cbn. f_equal. apply IH. intros c Hc. apply Hb. now right. }
        destruct (G _ _ Hnd (map fst l)) as (-> & ->); auto. intros c Ha Hb. exact (nodup_app_sep _ _ Hnd c Ha Hb).
      + intros c f Hin. apply in_app_iff in Hin. destruct Hin as [Hin|Hin]; [auto|].
        eapply freq_view; [|apply Hl2; exact Hin]. intros; now rewrite (proj1 S1).
    - apply post_ret. rewrite (Hr eq_refl), app_nil_r in El. split; [exact S1|]. split; [exact I1|]. split; [rewrite El; tauto|]. auto.
  Qed.

  (** ** Setting the frequency *)
  Lemma set_freq_post k f cpus s : 0 <= f -> Inv s ->
    post (set_freq_msr env x k f cpus) s
      (fun _ s' => tidy k (fun c => In c cpus) s s' /\
         (k <> HEpp -> uniform env x -> forall c, In c online -> pkg_decides env x (view s') k c = false) /\
         forall c, In c cpus -> In c online /\ exists b p, bus_clock env x (view s') c b /\ freq_level x c b f p /\
           is_field (hbits k) (reg s' c) p)
      (fun _ s' => tidy k (fun c => In c cpus) s s' /\
         forall c, In c online -> (forall v, is_field (hbits k) (reg s c) v -> is_field (hbits k) (reg s' c) v) \/
           exists b p, In c cpus /\ bus_clock env x (view s') c b /\ freq_level x c b f p /\ is_field (hbits k) (reg s' c) p).
  Proof.
    intros Hf HI. assert (RT : tidy k (fun c => In c cpus) s s) by (now apply tidy_refl).
    unfold set_freq_msr. apply post_bind, post_lift; [|intros; split; [exact RT|left; auto]]. intros fr Hfr.
    apply post_bind. eapply post_conseq; [apply (disable_all_post env rep sc Hwf Hsc Hfaith x Hx fr Hfr k s HI)| |].
    2:{ intros e s1 (T & _). split; [eapply tidy_mono; [|exact T]; intros c []|]. intros c Hc. left. intros v Hv.
        destruct T as (_ & _ & _ & E). eapply evolves_field; [apply E; exact Hc| |exact Hv]. tauto. }
    intros [] s1 (T1 & Hdec).
    assert (T1' : tidy k (fun c => In c cpus) s s1) by (eapply tidy_mono; [|exact T1]; intros c []).
    assert (Keep1 : forall c, In c online -> forall v, is_field (hbits k) (reg s c) v -> is_field (hbits k) (reg s1 c) v).
    { intros c Hc v Hv. destruct T1 as (_ & _ & _ & E). eapply evolves_field; [apply E; exact Hc| |exact Hv]. tauto. }
    assert (I1 : Inv s1) by apply T1.
    apply post_bind. eapply post_conseq.
    { apply (post_mmap _ (fun pp q s' => same_view s1 s' /\ Inv s' /\ map fst q = pp /\
        forall c p, In (c, p) q -> exists b, bus_clock env x (view s1) c b /\ p = freq_to_perf x c f b) (fun _ s' => same_view s1 s' /\ Inv s')).
      2:{ split; [now apply same_refl|]. split; [exact I1|]. split; [reflexivity|intros ? ? []]. }
      intros pp c r _ q s2 (S2 & I2 & E2 & H2). apply post_bind. eapply post_conseq; [apply (get_bclk_post c s2 I2)| |].
      2:{ intros e s3 (S3 & I3). split; [eapply same_trans; eauto|exact I3]. }
      intros b s3 (S3 & I3 & Hb). apply post_ret. split; [eapply same_trans; eauto|]. split; [exact I3|].
      split; [rewrite map_app, E2; reflexivity|]. intros c' p' Hin. apply in_app_iff in Hin. destruct Hin as [Hin|[E|[]]]; [auto|].
      injection E as <- <-. exists b. split; [|reflexivity]. eapply bus_clock_view; [|exact Hb]. intros; now rewrite (proj1 S2). }
    2:{ intros e s2 (S2 & I2). split.
        - eapply tidy_trans; [exact T1'|]. now apply tidy_same.
        - intros c Hc. left. intros v Hv. rewrite (proj1 S2). auto. }
    intros l s2 (S2 & I2 & E2 & Hl).
    assert (T2 : tidy k (fun c => In c cpus) s s2) by (eapply tidy_trans; [exact T1'|]; now apply tidy_same).
    pose proof (add_perf_nonempty l [] (fun _ _ H => match H with end)) as Hne.
    pose proof (add_perf_spec l [] (NoDup_nil _)) as (_ & Hg). cbv zeta in Hg. set (groups := fold_left add_perf l []) in *. clearbody groups.
    assert (Hg' : forall p cs c, In (p, cs) groups -> In c cs -> In c cpus /\ exists b, bus_clock env x (view s1) c b /\ p = freq_to_perf x c f b).
    { intros p cs c A B. assert (In (c, p) l) as Hin.
      { destruct (proj1 (Hg p c)) as [(? & [] & _)|H]; eauto. }
      split; [rewrite <- E2; apply (in_map fst _ _ Hin)|]. auto. }
    assert (Hall : forall c, In c cpus -> exists p cs, In (p, cs) groups /\ In c cs).
    { intros c Hc. rewrite <- E2 in Hc. apply in_map_iff in Hc. destruct Hc as ([c0 p] & <- & Hin).
      exists p. apply Hg. now right. }
    clear Hg Hl E2.
    assert (Clk : forall s' c b, tidy k (fun c => In c cpus) s s' -> bus_clock env x (view s1) c b -> bus_clock env x (view s') c b).
    { intros s' c b T Hb. eapply bus_clock_view; [|exact Hb]. intros d.
      destruct T as (_ & _ & F & _). destruct T1 as (_ & _ & F1 & _). rewrite F, F1; [reflexivity|discriminate|discriminate]. }
    assert (Lvl : forall c b, bus_clock env x (view s1) c b -> freq_level x c b f (freq_to_perf x c f b)).
    { intros c b Hb. apply freq_to_perf_ok. eapply bus_clock_positive; eauto. }
    set (req := fun c s' => exists b p, In c cpus /\ bus_clock env x (view s') c b /\ freq_level x c b f p /\ is_field (hbits k) (reg s' c) p).
    eapply post_conseq.
    { apply (post_mfor _ (fun pp s' => tidy k (fun c => In c cpus) s s' /\ tidy k (fun c => In c cpus) s2 s' /\
          (forall c, In c online -> (forall v, is_field (hbits k) (reg s c) v -> is_field (hbits k) (reg s' c) v) \/ req c s') /\
          forall p cs c, In (p, cs) pp -> In c cs -> In c online /\ is_field (hbits k) (reg s' c) p)
        (fun _ s' => tidy k (fun c => In c cpus) s s' /\
          forall c, In c online -> (forall v, is_field (hbits k) (reg s c) v -> is_field (hbits k) (reg s' c) v) \/ req c s')).
      2:{ split; [exact T2|]. split; [now apply tidy_refl|]. split; [|intros ? ? ? []]. intros c Hc. left. intros v Hv. rewrite (proj1 S2). auto. }
      intros pp [p cs] r Eg s3 (T3 & T3' & Mix & Done). cbn [fst snd].
      assert (Hin : In (p, cs) groups) by (rewrite Eg; apply in_app_iff; right; now left).
      assert (Hcs : forall c, In c cs -> In c cpus) by (intros c Hc; apply (Hg' p cs c Hin Hc)).
      assert (Hp : 0 <= p).
      { pose proof (Hne p cs Hin) as Hn. destruct cs as [|c0 ?]; [congruence|].
        destruct (Hg' p _ c0 Hin (or_introl eq_refl)) as (_ & b & Hb & ->).
        apply freq_to_perf_nonneg; [eapply bus_clock_positive; eauto|exact Hf]. }
      eapply post_conseq; [apply (write_num_post env rep sc Hwf Hsc Hfaith x Hx fr Hfr k p cs s3 Hp); apply T3| |].
      - intros [] s4 (T4 & _ & H4). assert (T4' : tidy k (fun c => In c cpus) s3 s4) by (eapply tidy_mono; [exact Hcs|exact T4]).
        assert (T34 : tidy k (fun c => In c cpus) s s4) by (eapply tidy_trans; eauto).
        split; [exact T34|]. split; [eapply tidy_trans; eauto|].
        assert (Old : forall c v, In c online -> ~ In c cs -> is_field (hbits k) (reg s3 c) v -> is_field (hbits k) (reg s4 c) v).
        { intros c v Hc Hn Hv. destruct T4 as (_ & _ & _ & E). eapply evolves_field; [apply E; exact Hc| |exact Hv]. tauto. }
        split.
        + intros c Hc. destruct (in_dec Z.eq_dec c cs) as [Hi|Hi].
          * right. destruct (Hg' p cs c Hin Hi) as (Hcp & b & Hb & Ep). exists b, p. split; [exact Hcp|]. split; [now apply Clk|].
            split; [rewrite Ep; now apply Lvl|]. now apply H4.
          * destruct (Mix c Hc) as [M|(b & p' & M1 & M2 & M3 & M4)]; [left; auto|]. right. exists b, p'.
            split; [exact M1|]. split; [|auto]. eapply bus_clock_view; [|exact M2]. intros d. apply T4'. discriminate.
        + intros p' cs' c Hin' Hc'. apply in_app_iff in Hin'. destruct (in_dec Z.eq_dec c cs) as [Hi|Hi].
          * assert (p' = p) as ->.
            { assert (Hi' : In (p', cs') groups) by (rewrite Eg; apply in_app_iff; destruct Hin' as [A|[A|[]]]; [now left|right; left; exact A]).
              destruct (Hg' _ _ _ Hi' Hc') as (_ & b1 & B1 & ->). destruct (Hg' _ _ _ Hin Hi) as (_ & b2 & B2 & ->).
              now rewrite (bus_clock_fun _ _ _ _ B1 B2). }
            split; now apply H4.
          * destruct Hin' as [A|[A|[]]]; [|congruence]. destruct (Done p' cs' c A Hc') as (D1 & D2). split; auto.
      - intros e s4 (T4 & _ & M4 & _). assert (T4' : tidy k (fun c => In c cpus) s3 s4) by (eapply tidy_mono; [exact Hcs|exact T4]).
        assert (T34 : tidy k (fun c => In c cpus) s s4) by (eapply tidy_trans; eauto).
        split; [exact T34|]. intros c Hc. destruct (M4 c Hc) as [K|(Hi & Hfld)].
        + destruct (Mix c Hc) as [M|(b & p' & A1 & A2 & A3 & A4)]; [left; auto|]. right. exists b, p'.
          split; [exact A1|]. split; [|auto]. eapply bus_clock_view; [|exact A2]. intros d. apply T4'. discriminate.
        + right. destruct (Hg' p cs c Hin Hi) as (Hcp & b & Hb & Ep). exists b, p. split; [exact Hcp|]. split; [now apply Clk|].
          split; [rewrite Ep; now apply Lvl|exact Hfld]. }
    - intros [] s4 (T4 & T24 & Mix & Done). split; [exact T4|]. split.
      + intros Hk Hu c Hc. specialize (Hdec Hk Hu c Hc). rewrite <- (pkg_decides_view env x s1 s2 k c (proj1 S2)) in Hdec.
        destruct T24 as (_ & _ & _ & E). specialize (E c Hc). unfold pkg_decides in *.
        rewrite (evolves_pkg _ _ _ _ E). destruct (Z.testbit (reg s2 c) (valid_bit k)) eqn:Ev.
        * rewrite (evolves_valid _ _ _ _ E Ev). cbn. now rewrite andb_false_r.
        * cbn [negb] in Hdec. rewrite andb_true_r in Hdec. now rewrite Hdec.
      + intros c Hc. destruct (Hall c Hc) as (p & cs & Hin & Hi). destruct (Done p cs c Hin Hi) as (D1 & D2).
        split; [exact D1|]. destruct (Hg' p cs c Hin Hi) as (_ & b & Hb & ->). exists b, (freq_to_perf x c f b).
        split; [now apply Clk|]. split; [now apply Lvl|exact D2].
    - intros e s4 (T4 & Mix). split; [exact T4|]. exact Mix.
  Qed.

  (** ** EPP *)
  Lemma read_num_ns fr n c s : fst (read_num env fr n c s) = Exn ENotSupported -> has fr n c = false.
  Proof.
    unfold read_num, mbind. destruct (read_feature env fr n (Some [c]) s) as [[l|e] s1] eqn:E; cbn [fst].
    - destruct l as [|[? []] ?]; discriminate.
    - intros [= ->]. apply read_feature_ns in E. apply validate_ns in E. destruct E as (c' & [<-|[]] & _ & H). exact H.
  Qed.

  Definition no_epp (L : Z -> Z -> Z) (c : Z) : Prop :=
    forall fr, hw_req x = Ok fr -> pkg_decides env x L HEpp c = false -> has fr (hname HEpp) c = false.

  Lemma epp_read_post c s : Inv s ->
    post (epp_read_msr env x c) s
      (fun r s' => same_view s s' /\ Inv s' /\ (forall v, r = Some v -> In c online /\ setting env x (view s) HEpp c v) /\
         (r = None -> no_epp (view s) c))
      (fun _ s' => same_view s s' /\ Inv s').
  Proof.
    intros HI. assert (R : same_view s s /\ Inv s) by (split; [now apply same_refl|exact HI]).
    unfold epp_read_msr. destruct (hw_req x) as [fr|e] eqn:Hfr.
    2:{ destruct e; try (apply post_throw; exact R). apply post_ret. destruct R. split; [assumption|]. split; [assumption|]. split; [discriminate|]. intros _ fr E. congruence. }
    apply post_bind. eapply post_conseq; [apply (controlled_post env rep sc Hwf Hsc x Hx fr Hfr HEpp c s HI)| |].
    2:{ intros e s1 (S1 & I1 & _). auto. }
    intros d s1 (S1 & I1 & Hc & Hd). apply post_bind. destruct d.
    - apply post_lift; [|intros; auto]. intros pkg Hpkg. destruct (ho_pkg _ _ _ Hx pkg Hpkg) as (Pa & Pf).
      assert (Pg : get_feature pkg (hname HEpp) = Ok (pkg_feature (Some (sc PKG)) HEpp)).
      { unfold get_feature. rewrite Pf, pkg_get. reflexivity. }
      assert (Pi : fe_ios (pkg_feature (Some (sc PKG)) HEpp) = Some (sc (fr_addr pkg))) by (now rewrite Pa).
      pose proof (read_num_post env rep sc Hwf Hsc pkg _ _ c s1 Pg (pkg_feature_ok _ HEpp) Pi I1) as P.
      unfold post in *. destruct (read_num env pkg (hname HEpp) c s1) as [[n|e] s2] eqn:En.
      + destruct P as (S2 & I2 & _ & _ & code & Hf & Hn). split; [eapply same_trans; eauto|]. split; [exact I2|].
        split; [|discriminate]. intros v E. injection E as <-. split; [exact Hc|]. unfold setting. rewrite <- Hd.
        unfold named_as in Hn. cbn in Hn. injection Hn as <-. rewrite Pa, (proj1 S1) in Hf. exact Hf.
      + destruct P as (S2 & I2). assert (R2 : same_view s s2 /\ Inv s2) by (split; [eapply same_trans; eauto|exact I2]).
        destruct e; try exact R2. destruct R2. split; [assumption|]. split; [assumption|]. split; [discriminate|]. intros _ fr' _ E. congruence.
    - apply post_ret. pose proof (perf_post env rep sc Hwf Hsc x Hx fr Hfr HEpp c s1 I1) as P.
      unfold post in *. destruct (read_num env fr (hname HEpp) c s1) as [[n|e] s2] eqn:En.
      + destruct P as (S2 & I2 & _ & _ & Hf). split; [eapply same_trans; eauto|]. split; [exact I2|].
        split; [|discriminate]. intros v E. injection E as <-. split; [exact Hc|]. unfold setting. rewrite <- Hd. now rewrite (proj1 S1) in Hf.
      + destruct P as (S2 & I2). assert (R2 : same_view s s2 /\ Inv s2) by (split; [eapply same_trans; eauto|exact I2]).
        destruct e; try exact R2. destruct R2. split; [assumption|]. split; [assumption|]. split; [discriminate|]. intros _ fr' E _. rewrite Hfr in E. injection E as <-. apply (read_num_ns fr (hname HEpp) c s1). now rewrite En.
  Qed.

  Lemma epp_write_post v c s : 0 <= v -> Inv s ->
    post (epp_write_msr env x v c) s
      (fun _ s' => tidy HEpp (fun c' => c' = c) s s' /\ (forall c', In c' online -> c' <> c -> reg s' c' = reg s c') /\
         In c online /\ pkg_decides env x (view s') HEpp c = false /\ is_field (hbits HEpp) (reg s' c) v /\
         exists fr, hw_req x = Ok fr /\ has fr (hname HEpp) c = true)
      (fun _ s' => tidy HEpp (fun c' => c' = c) s s' /\ (forall c', In c' online -> c' <> c -> reg s' c' = reg s c') /\
         (In c online -> (forall w, is_field (hbits HEpp) (reg s c) w -> is_field (hbits HEpp) (reg s' c) w) \/ is_field (hbits HEpp) (reg s' c) v)).
  Proof.
    intros Hv HI. assert (RT : tidy HEpp (fun c' => c' = c) s s) by (now apply tidy_refl).
    unfold epp_write_msr. apply post_bind, post_lift; [|intros; split; [exact RT|]; split; [reflexivity|left; auto]]. intros fr Hfr.
    apply post_bind. eapply post_conseq; [apply (disable_post env rep sc Hwf Hsc Hfaith x Hx fr Hfr HEpp c s HI)| |].
    2:{ intros e s1 (T & F & _). split; [eapply tidy_mono; [|exact T]; intros ? []|]. split; [exact F|]. intros Hc. left. intros w Hw.
        destruct T as (_ & _ & _ & E). eapply evolves_field; [apply E; exact Hc| |exact Hw]. tauto. }
    intros [] s1 (T1 & F1 & Hc & Hd).
    assert (T1' : tidy HEpp (fun c' => c' = c) s s1) by (eapply tidy_mono; [|exact T1]; intros ? []).
    assert (Sub : forall c', In c' [c] -> c' = c) by (intros c' [<-|[]]; reflexivity).
    eapply post_conseq; [apply (write_num_post env rep sc Hwf Hsc Hfaith x Hx fr Hfr HEpp v [c] s1 Hv); apply T1| |].
    - intros [] s2 (T2 & F2 & H2). pose proof (tidy_mono _ _ _ _ _ _ _ _ Sub T2) as T2'.
      split; [eapply tidy_trans; eauto|]. split.
      { intros c' Ho Hn. rewrite <- (F1 c' Ho Hn). apply F2; [exact Ho|]. intros [E|[]]. congruence. }
      split; [exact Hc|]. split; [|split; [apply H2; now left|exists fr; split; [exact Hfr|apply H2; now left]]].
      destruct T2 as (_ & _ & _ & E). specialize (E c Hc). unfold pkg_decides in *.
      rewrite (evolves_pkg _ _ _ _ E). destruct (Z.testbit (reg s1 c) (valid_bit HEpp)) eqn:Ev.
      + rewrite (evolves_valid _ _ _ _ E Ev). cbn. now rewrite andb_false_r.
      + cbn [negb] in Hd. rewrite andb_true_r in Hd. now rewrite Hd.
    - intros e s2 (T2 & F2 & M2 & _). pose proof (tidy_mono _ _ _ _ _ _ _ _ Sub T2) as T2'.
      split; [eapply tidy_trans; eauto|]. split.
      { intros c' Ho Hn. rewrite <- (F1 c' Ho Hn). apply F2; [exact Ho|]. intros [E|[]]. congruence. }
      intros _. destruct (M2 c Hc) as [K|(_ & K)]; [|now right]. left. intros w Hw. apply K.
      destruct T1 as (_ & _ & _ & E). eapply evolves_field; [apply E; exact Hc| |exact Hw]. tauto.
  Qed.
End Post.
