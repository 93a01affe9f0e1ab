(** Lemmas about the CPU frequencies that are read from MSRs. *)
From Coq Require Import Ascii String ZifyBool.
From Verif Require Import Base L_Base L_Monad M_CPUInfo S_CPUInfo L_CPUInfo L_CPUInfo2
  M_Text M_MSR S_MSR L_Bits L_MSR L_MSR2 L_MSR3 L_MSR4 L_MSR5 M_FMSR S_FMSR L_Text L_FMSR L_FMSR2 L_FMSR3 L_FMSR4 X_FMSR
  M_HWP S_HWP L_Quiet L_OpTarget L_HWP L_HWP2 L_HWP3 L_HWP4 L_HWP5 L_HWP6 L_FMSR5 M_FRead S_FRead.

Lemma fint_ok hi lo ios w : 0 <= lo <= hi -> hi <= 63 -> feature_ok (fint hi lo ios w).
Proof.
  intros H1 H2. apply feature_okb_sound. unfold feature_okb. cbn [fint fe_bits fe_vals fe_type fe_aliases vals_of aliases_of].
  assert (field_okb (hi, lo) = true) as -> by (unfold field_okb; cbn; lia). reflexivity.
Qed.

Notation fill := (fold_left (fun d cf => dset Z.eqb d (fst cf) (snd cf))).
Lemma fill_get l : forall (d : list (Z * Z)) c f, dget Z.eqb (fill l d) c = Some f -> In (c, f) l \/ dget Z.eqb d c = Some f.
Proof.
  induction l as [|[c' f'] t IH]; cbn [fold_left fst snd]; [auto|]. intros d c f H. apply IH in H.
  destruct H as [H|H]; [left; now right|]. destruct (Z.eq_dec c c') as [->|Hn].
  - rewrite (dget_dset_same Z.eqb Z.eqb_eq) in H. injection H as ->. left. now left.
  - rewrite (dget_dset_other Z.eqb Z.eqb_eq) in H by congruence. auto.
Qed.
Lemma fill_keys l : forall (d : list (Z * Z)) c, In c (map fst (fill l d)) <-> In c (map fst l) \/ In c (map fst d).
Proof.
  induction l as [|[c' f'] t IH]; cbn [fold_left fst snd map In]; [tauto|]. intros d c. rewrite IH.
  rewrite (dset_keys_In Z.eqb Z.eqb_eq). intuition congruence.
Qed.
Lemma add_get l : forall d d', add_second d l = Ok d' ->
  (forall c f, dget Z.eqb d' c = Some f -> In (c, f) l \/ dget Z.eqb d c = Some f).
Proof.
  induction l as [|[c' f'] t IH]; cbn [add_second]; [intros d d' [= <-]; auto|]. intros d d' H c f G.
  destruct (existsb _ _); [discriminate|]. destruct (IH _ _ H c f G) as [K|K]; [left; now right|].
  destruct (Z.eq_dec c c') as [->|Hn].
  - rewrite (dget_dset_same Z.eqb Z.eqb_eq) in K. injection K as ->. left. now left.
  - rewrite (dget_dset_other Z.eqb Z.eqb_eq) in K by congruence. auto.
Qed.
Lemma add_ok l : forall d, NoDup (map fst l) -> (forall c, In c (map fst l) -> ~ In c (map fst d)) ->
  exists d', add_second d l = Ok d' /\ forall c, In c (map fst l) \/ In c (map fst d) -> In c (map fst d').
Proof.
  induction l as [|[c' f'] t IH]; cbn [add_second map fst]; intros d Hn Hd; [exists d; split; [reflexivity|cbn; tauto]|].
  inversion Hn as [|? ? Hc Ht]; subst.
  assert (existsb (Z.eqb c') (map fst d) = false) as ->.
  { destruct (existsb _ _) eqn:E; [|reflexivity]. apply existsb_exists in E as (y & Hy & E). apply Z.eqb_eq in E. subst y.
    elim (Hd c'); [now left|exact Hy]. }
  destruct (IH (dset Z.eqb d c' f') Ht) as (d' & E & K).
  { intros c Hc' Hk. apply (dset_keys_In Z.eqb Z.eqb_eq) in Hk. destruct Hk as [Hk|Hk]; [congruence|]. elim (Hd c); [now right|exact Hk]. }
  exists d'. split; [exact E|]. intros c Hc'. apply K. rewrite (dset_keys_In Z.eqb Z.eqb_eq). cbn [In] in Hc'. intuition congruence.
Qed.

Lemma from_2_get cpus l1 l2 r : from_2 cpus l1 l2 = Ok r -> map fst r = cpus /\ forall c f, In (c, f) r -> In (c, f) l1 \/ In (c, f) l2.
Proof.
  unfold from_2. destruct (add_second _ l2) as [d|e] eqn:Ea; cbn [rbind]; [|discriminate]. intros H. apply rmap_forall2 in H.
  assert (G : forall c cf, (match dget Z.eqb d c with Some f => Ok (c, f) | None => Exn EKey end) = Ok cf ->
    fst cf = c /\ (In cf l1 \/ In cf l2)).
  { intros c cf E. destruct (dget Z.eqb d c) as [f|] eqn:Ed; [|discriminate]. injection E as <-. split; [reflexivity|].
    destruct (add_get _ _ _ Ea c f Ed) as [K|K]; [auto|]. apply fill_get in K. destruct K as [K|K]; [auto|discriminate]. }
  clear Ea. induction H as [|c cf cs r Hc H IH]; [split; [reflexivity|intros ? ? []]|]. apply G in Hc. destruct Hc as (<- & Hc).
  destruct IH as (<- & IH). split; [reflexivity|]. intros c f [->|Hin]; auto.
Qed.
Lemma from_2_ok cpus l1 l2 : NoDup (map fst l2) -> (forall c, In c (map fst l2) -> ~ In c (map fst l1)) ->
  (forall c, In c cpus -> In c (map fst l1) \/ In c (map fst l2)) -> exists r, from_2 cpus l1 l2 = Ok r.
Proof.
  intros Hn Hd Hc. unfold from_2. destruct (add_ok l2 (fill l1 []) Hn) as (d & -> & K).
  { intros c H1 H2. apply fill_keys in H2. destruct H2 as [H2|[]]. eapply Hd; eauto. }
  cbn [rbind]. clear - Hc K. induction cpus as [|c t IH]; cbn [rmap]; [eauto|].
  destruct (dget Z.eqb d c) as [f|] eqn:E.
  - cbn [rbind]. destruct IH as (r & ->); [intros; apply Hc; now right|]. cbn [rbind]. eauto.
  - apply (dget_None Z.eqb Z.eqb_eq) in E. elim E. apply K. rewrite fill_keys. destruct (Hc c); [now left| |]; auto.
Qed.

Section FRead.
  Variable env : menv.
  Notation dom := (me_dom env).
  Notation ci := (me_ci env).
  Notation online := (ci_online (me_ci env)).
  Variable rep : Z -> Z -> Z.
  Variable sc : Z -> scope.
  Notation view := (view env).
  Notation Inv := (Inv env rep sc).
  Notation same_view := (same_view env rep sc).
  Hypothesis Hwf : wf_ci ci.
  Hypothesis Hsc : forall a, scope_right env a (sc a).
  Variable x : hwp.
  Hypothesis Hx : hwp_ok env sc x.
  Variable g : fregs.
  Hypothesis Hg : fregs_ok env g sc.
  Notation get_bclk_post := (get_bclk_post env rep sc Hwf Hsc x Hx).
  Notation same_refl := (same_refl env rep sc).
  Notation same_trans := (same_trans env rep sc).

  Definition readonly {A} (m : M mstate A) : Prop := forall s, Inv s ->
    post m s (fun _ s' => same_view s s' /\ Inv s') (fun _ s' => same_view s s' /\ Inv s').

  Lemma get_bclk_live c s : Inv s -> io_works s -> In c online -> clock_known env x (view s) c -> live (get_bclk env x c) s.
  Proof.
    intros HI W Hc ((b & Hb) & Hk). unfold get_bclk, bus_clock in *. destruct (hw_fsb x) as [fsb|e] eqn:Ef.
    - destruct (ho_fsb _ _ _ Hx fsb Ef) as (Ha & hi & lo & codes & Ht & Hfe).
      assert (G : get_feature fsb (s2l "fsb"%string) = Ok (ffsb hi lo (Some (sc FSB)) codes)) by (unfold get_feature; rewrite Hfe; reflexivity).
      destruct Hb as (fe & khz & code & Hd & Hf & Hv & _). rewrite Hfe in Hd.
      assert (fe = ffsb hi lo (Some (sc FSB)) codes) as -> by (cbn in Hd; congruence).
      unfold live. apply post_bind. eapply post_conseq.
      + apply (read_num_live env rep sc Hwf Hsc fsb _ _ G (fsb_feature_ok _ _ _ _ Ht)); [cbn [ffsb fe_ios]; now rewrite Ha|exact HI|exact W|exact Hc|exact Hk|].
        rewrite Ha. exists code, khz. split; [exact Hf|exact Hv].
      + intros khz' s1 W1. apply post_ret. exact W1.
      + intros e s1 [].
    - subst e. destruct Hb as (-> & _). apply post_ret. exact W.
  Qed.

  Lemma check_fsb_ok cpus L : (forall c, In c cpus -> In c online /\ clock_known env x L c) -> check_fsb env x cpus = Ok tt.
  Proof.
    intros H. unfold check_fsb, clock_known in *. destruct (hw_fsb x) as [fsb|e] eqn:Ef; [|reflexivity].
    destruct (ho_fsb _ _ _ Hx fsb Ef) as (Ha & hi & lo & codes & Ht & Hfe).
    apply (validate_has env fsb _ (ffsb hi lo (Some (sc FSB)) codes)); [unfold get_feature; rewrite Hfe; reflexivity|].
    intros c Hc. cbn [targets] in Hc. destruct (H c Hc) as (Ho & _ & Hh). auto.
  Qed.

  Section Loop.
  Variables (fr : freg) (n : str) (hi lo : Z) (wr : bool) (conv : Z -> Z -> Z -> Z).
  Hypothesis Hget : get_feature fr n = Ok (fint hi lo (Some (sc (fr_addr fr))) wr).
  Hypothesis Hb : 0 <= lo <= hi /\ hi <= 63.
  Notation a := (fr_addr fr).

  Definition told (s : mstate) (c f : Z) : Prop := exists bclk ratio, bus_clock env x (view s) c bclk /\ 
    is_field (hi, lo) (view s a (dom a c)) ratio /\ f = conv c ratio bclk.

  Lemma ratio_loop_post cpus s : Inv s ->
    post (ratio_loop env x fr n conv cpus) s
      (fun l s' => same_view s s' /\ Inv s' /\ map fst l = cpus /\ (forall c f, In (c, f) l -> told s c f) /\
         (forall c, In c cpus -> In c online /\ has fr n c = true))
      (fun _ s' => same_view s s' /\ Inv s').
  Proof.
    intros HI. unfold ratio_loop.
    apply (post_mmap _ (fun p q s' => same_view s s' /\ Inv s' /\ map fst q = p /\ (forall c f, In (c, f) q -> told s c f) /\
      (forall c, In c p -> In c online /\ has fr n c = true))).
    2:{ split; [now apply same_refl|]. split; [exact HI|]. split; [reflexivity|]. split; [intros ? ? []|intros ? []]. }
    intros pp c r _ q s0 (S0 & I0 & E0 & H0 & K0).
    assert (R : same_view s s0 /\ Inv s0) by (split; assumption).
    apply post_bind, post_lift; [|intros; exact R]. intros _ _.
    apply post_bind. eapply post_conseq; [apply (get_bclk_post c s0 I0)| |].
    2:{ intros e s1 (S1 & I1). split; [eapply same_trans; eauto|exact I1]. }
    intros b s1 (S1 & I1 & Hbc). pose proof (same_trans _ _ _ S0 S1) as T1.
    apply post_bind, post_lift; [|intros; split; assumption]. intros _ _.
    apply post_bind. eapply post_conseq; [apply (read_num_post env rep sc Hwf Hsc fr _ _ c s1 Hget (fint_ok _ _ _ _ (proj1 Hb) (proj2 Hb)) eq_refl I1)| |].
    2:{ intros e s2 (S2 & I2). split; [eapply same_trans; eauto|exact I2]. }
    intros v s2 (S2 & I2 & Hc & Hh & code & Hf & Hn). apply post_ret. split; [eapply same_trans; eauto|]. split; [exact I2|].
    split; [rewrite map_app, E0; reflexivity|]. split.
    - intros c' f' Hin. apply in_app_iff in Hin. destruct Hin as [Hin|[E|[]]]; [auto|]. injection E as <- <-.
      exists b, v. split; [|split; [|reflexivity]].
      + eapply bus_clock_view; [|exact Hbc]. intros; now rewrite (proj1 S0).
      + assert (code = v) as -> by (unfold named_as in Hn; cbn in Hn; congruence). now rewrite <- (proj1 T1).
    - intros c' Hin. apply in_app_iff in Hin. destruct Hin as [Hin|[<-|[]]]; auto.
  Qed.

  Lemma ratio_loop_live cpus s : Inv s -> io_works s ->
    (forall c, In c cpus -> In c online /\ clock_known env x (view s) c /\ has fr n c = true) ->
    live (ratio_loop env x fr n conv cpus) s.
  Proof.
    intros HI W Hc. unfold live, ratio_loop.
    eapply post_conseq; [apply (post_mmap _ (fun p q s' => same_view s s' /\ Inv s' /\ io_works s') (fun _ _ => False))| |].
    3:{ cbn beta. intros l s' (_ & _ & W'). exact W'. }
    3:{ auto. }
    2:{ split; [now apply same_refl|]. split; assumption. }
    intros pp c r Ec q s0 (S0 & I0 & W0). assert (Hin : In c cpus) by (rewrite Ec; apply in_app_iff; right; now left).
    destruct (Hc c Hin) as (Ho & Hk & Hh).
    assert (E1 : check_fsb env x cpus = Ok tt).
    { apply (check_fsb_ok cpus (view s)). intros c' Hc'. destruct (Hc c' Hc') as (? & ? & _). auto. }
    assert (E2 : validate_feature_supported env fr n (Some cpus) = Ok tt).
    { apply (validate_has env fr n _ _ Hget). cbn [targets]. intros c' Hc'. destruct (Hc c' Hc') as (? & _ & ?). auto. }
    rewrite E1, E2. apply post_bind, post_lift; [|discriminate]. intros _ _.
    assert (Hk0 : clock_known env x (view s0) c).
    { destruct Hk as ((b & Hb') & Hk). split; [|exact Hk]. exists b. eapply bus_clock_view; [|exact Hb']. intros; symmetry; now rewrite (proj1 S0). }
    apply post_bind. eapply post_conseq; [eapply post_live; [apply (get_bclk_post c s0 I0)|apply (get_bclk_live c s0 I0 W0 Ho Hk0)]| |intros e s1 []].
    intros b s1 ((S1 & I1 & _) & W1). pose proof (same_trans _ _ _ S0 S1) as T1.
    apply post_bind, post_lift; [|discriminate]. intros _ _.
    pose proof (fint_ok hi lo (Some (sc a)) wr (proj1 Hb) (proj2 Hb)) as Hok.
    apply post_bind. eapply post_conseq; [eapply post_live; [apply (read_num_post env rep sc Hwf Hsc fr _ _ c s1 Hget Hok eq_refl I1)|
      apply (read_num_live env rep sc Hwf Hsc fr n _ Hget Hok eq_refl c s1 I1 W1 Ho Hh)]| |intros e s2 []].
    - exists (field_val (hi, lo) (view s1 a (dom a c))), (field_val (hi, lo) (view s1 a (dom a c))).
      split; [apply field_val_spec; unfold field_ok; cbn; lia|]. unfold named_as. cbn. reflexivity.
    - intros v s2 ((S2 & I2 & _) & W2). apply post_ret. split; [eapply same_trans; eauto|]. split; assumption.
  Qed.
  End Loop.

  (** ** The registers *)
  Lemma plat_get fr q : q <> KTurbo -> fg_plat g = Ok fr ->
    get_feature fr (plat_name q) = Ok (fint (fst (ratio_bits q)) (snd (ratio_bits q)) (Some (sc (fr_addr fr))) false) /\ fr_addr fr = ratio_reg q.
  Proof.
    intros Hq H. destruct (fo_plat _ _ _ Hg fr H) as (Ha & Hf). unfold get_feature. rewrite Hf, Ha.
    destruct q; [split; reflexivity..|]. now elim Hq.
  Qed.
  Lemma trl_get fr n : In n (map fst (trl_feats None)) -> fg_trl g = Ok fr ->
    get_feature fr n = Ok (fint 7 0 (Some (sc (fr_addr fr))) false) /\ fr_addr fr = TRL.
  Proof.
    intros Hn H. destruct (fo_trl _ _ _ Hg fr H) as (Ha & Hf & _). unfold get_feature. rewrite Hf, Ha.
    destruct Hn as [<-|[<-|[]]]; split; reflexivity.
  Qed.
  Lemma cap_get fr q : fg_cap g = Ok fr ->
    get_feature fr (cap_name q) = Ok (fint (fst (cap_bits q)) (snd (cap_bits q)) (Some (sc (fr_addr fr))) true) /\ fr_addr fr = CAP.
  Proof.
    intros H. destruct (fo_cap _ _ _ Hg fr H) as (Ha & Hf). unfold get_feature. rewrite Hf, Ha, (fo_sc _ _ _ Hg).
    destruct q; split; vm_compute; reflexivity.
  Qed.
  Lemma ratio_bits_ok q : 0 <= snd (ratio_bits q) <= fst (ratio_bits q) /\ fst (ratio_bits q) <= 63.
  Proof. destruct q; cbn; lia. Qed.
  Lemma cap_bits_ok q : 0 <= snd (cap_bits q) <= fst (cap_bits q) /\ fst (cap_bits q) <= 63.
  Proof. destruct q; cbn; lia. Qed.

  Definition ratio_told (s : mstate) (q : fkind) (c f : Z) : Prop := exists bclk ratio, bus_clock env x (view s) c bclk /\
    is_field (ratio_bits q) (view s (ratio_reg q) (dom (ratio_reg q) c)) ratio /\ f = ratio * bclk.
  Definition level_told (s : mstate) (q : fkind) (c f : Z) : Prop := exists bclk perf, bus_clock env x (view s) c bclk /\
    is_field (cap_bits q) (view s CAP (dom CAP c)) perf /\ level_freq x c bclk perf f.
  Definition good (s : mstate) (cpus : list Z) (T : Z -> Z -> Prop) (K : Prop) (l : list (Z * Z)) (s' : mstate) : Prop :=
    same_view s s' /\ Inv s' /\ map fst l = cpus /\ (forall c f, In (c, f) l -> T c f) /\
    (forall c, In c cpus -> In c online) /\ K.

  Lemma good_nil s T (K : Prop) : Inv s -> K -> good s [] T K [] s.
  Proof. intros HI HK. split; [now apply same_refl|]. split; [exact HI|]. split; [reflexivity|]. split; [intros ? ? []|]. split; [intros ? []|exact HK]. Qed.

  Lemma platinfo_post q cpus s : q <> KTurbo -> Inv s ->
    post (platinfo_freq env x g (plat_name q) cpus) s
      (good s cpus (ratio_told s q) (forall c, In c cpus -> exists fr, fg_plat g = Ok fr /\ has fr (plat_name q) c = true))
      (fun _ s' => same_view s s' /\ Inv s').
  Proof.
    intros Hq HI. unfold platinfo_freq. destruct cpus as [|c0 t]; [apply post_ret, good_nil; [exact HI|intros ? []]|]. remember (c0 :: t) as cpus.
    apply post_bind, post_lift; [|intros; split; [now apply same_refl|exact HI]]. intros fr Hfr.
    destruct (plat_get fr q Hq Hfr) as (G & Ha).
    eapply post_conseq; [apply (ratio_loop_post fr _ _ _ _ ratio_to_freq G (ratio_bits_ok q) cpus s HI)| |auto].
    intros l s' (S & I' & E & H & K). split; [exact S|]. split; [exact I'|]. split; [exact E|]. split; [|split; [apply K|]].
    - intros c f Hin. destruct (H c f Hin) as (b & r & Hb & Hf & ->). exists b, r. rewrite <- surjective_pairing, Ha in Hf. auto.
    - intros c Hc. exists fr. split; [exact Hfr|]. now apply K.
  Qed.

  Lemma hwpcap_post q cpus s : Inv s ->
    post (hwpcap_freq env x g (cap_name q) cpus) s
      (good s cpus (level_told s q) (forall c, In c cpus -> exists fr, fg_cap g = Ok fr /\ has fr (cap_name q) c = true))
      (fun _ s' => same_view s s' /\ Inv s').
  Proof.
    intros HI. unfold hwpcap_freq. destruct cpus as [|c0 t]; [apply post_ret, good_nil; [exact HI|intros ? []]|]. remember (c0 :: t) as cpus.
    apply post_bind, post_lift; [|intros; split; [now apply same_refl|exact HI]]. intros fr Hfr.
    destruct (cap_get fr q Hfr) as (G & Ha).
    eapply post_conseq; [apply (ratio_loop_post fr _ _ _ _ (perf_to_freq x) G (cap_bits_ok q) cpus s HI)| |auto].
    intros l s' (S & I' & E & H & K). split; [exact S|]. split; [exact I'|]. split; [exact E|]. split; [|split; [apply K|]].
    - intros c f Hin. destruct (H c f Hin) as (b & r & Hb & Hf & ->). exists b, r. rewrite <- surjective_pairing, Ha in Hf.
      split; [exact Hb|]. split; [exact Hf|]. apply perf_to_freq_ok. eapply bus_clock_positive; eauto.
    - intros c Hc. exists fr. split; [exact Hfr|]. now apply K.
  Qed.

  Lemma trl_post cpus s : Inv s ->
    post (trl_freq env x g cpus) s
      (good s cpus (ratio_told s KTurbo) (cpus = [] \/ exists fr n, fg_trl g = Ok fr /\ In n (map fst (trl_feats None)) /\
         forall c, In c cpus -> has fr n c = true))
      (fun _ s' => same_view s s' /\ Inv s').
  Proof.
    intros HI. unfold trl_freq. destruct cpus as [|c0 t]; [apply post_ret, good_nil; [exact HI|now left]|]. remember (c0 :: t) as cpus.
    apply post_bind, post_lift; [|intros; split; [now apply same_refl|exact HI]]. intros fr Hfr.
    assert (LP : forall n s0, In n (map fst (trl_feats None)) -> same_view s s0 -> Inv s0 ->
      post (ratio_loop env x fr n ratio_to_freq cpus) s0 
       (good s cpus (ratio_told s KTurbo) (cpus = [] \/ exists fr n, fg_trl g = Ok fr /\ In n (map fst (trl_feats None)) /\
         forall c, In c cpus -> has fr n c = true)) (fun _ s' => same_view s s' /\ Inv s')).
    { intros n s0 Hn S0 I0. destruct (trl_get fr n Hn Hfr) as (G & Ha).
      eapply post_conseq; [apply (ratio_loop_post fr _ _ _ _ ratio_to_freq G (ratio_bits_ok KTurbo) cpus s0 I0)| |].
      2:{ intros e s' (S1 & I1). split; [eapply same_trans; eauto|exact I1]. }
      intros l s' (S & I' & E & H & K). split; [eapply same_trans; eauto|]. split; [exact I'|]. split; [exact E|]. split; [|split; [apply K|]].
      - intros c f Hin. destruct (H c f Hin) as (b & r & Hb & Hf & ->). exists b, r. rewrite Ha in Hf.
        split; [|split; [|reflexivity]].
        + eapply bus_clock_view; [|exact Hb]. intros; now rewrite (proj1 S0).
        + now rewrite <- (proj1 S0).
      - right. exists fr, n. split; [exact Hfr|]. split; [exact Hn|]. apply K. }
    pose proof (LP (s2l "max_1c_turbo_ratio"%string) s (or_introl eq_refl) (same_refl s HI) HI) as P1. unfold post in *.
    destruct (ratio_loop env x fr (s2l "max_1c_turbo_ratio"%string) ratio_to_freq cpus s) as [[r|e] s1]; [exact P1|].
    destruct e; try exact P1. apply (LP (s2l "max_g0_turbo_ratio"%string) s1 (or_intror (or_introl eq_refl)) (proj1 P1) (proj2 P1)).
  Qed.

  Lemma is_hwp_iff c : is_hwp g c = true <-> with_hwp g c.
  Proof.
    unfold is_hwp, with_hwp. rewrite existsb_exists. split.
    - intros (y & Hy & E). apply str_eqb_eq in E. now subst y.
    - intros H. exists (s2l "hwp"%string). split; [exact H|]. now apply str_eqb_eq.
  Qed.
  Lemma legs_In c cpus : In c (filter (fun c => negb (is_hwp g c)) cpus) <-> In c cpus /\ ~ with_hwp g c.
  Proof. rewrite filter_In. cbn beta. rewrite <- is_hwp_iff. destruct (is_hwp g c); cbn; intuition congruence. Qed.
  Lemma hwps_In c cpus : In c (filter (is_hwp g) cpus) <-> In c cpus /\ with_hwp g c.
  Proof. rewrite filter_In, is_hwp_iff. reflexivity. Qed.

  Lemma get_rated_post q cpus s : Inv s ->
    post (get_rated env x g q cpus) s
      (good s cpus (rated env x g (view s) q) (has_levels g q cpus /\ has_ratios g q cpus))
      (fun _ s' => same_view s s' /\ Inv s').
  Proof.
    intros HI. unfold get_rated. set (legs := filter (fun c => negb (is_hwp g c)) cpus). set (hwps := filter (is_hwp g) cpus).
    apply post_bind. eapply (post_conseq _ _ (good s legs (ratio_told s q) (has_ratios g q cpus))).
    { destruct q; (eapply post_conseq; [first [apply trl_post, HI|apply platinfo_post; [discriminate|exact HI]]| |intros e s' H; exact H]);
        intros l s' (S & I' & E & H & O & K); (split; [exact S|]); (split; [exact I'|]); (split; [exact E|]); (split; [exact H|]); (split; [exact O|]); cbn [has_ratios];
        try (intros c Hc Hw; apply K, legs_In; auto).
      destruct K as [K|(fr & n & Hfr & Hn & K)].
      - left. intros c Hc. destruct (is_hwp g c) eqn:Eh; [now apply is_hwp_iff|]. assert (G : In c legs).
        { apply legs_In. split; [exact Hc|]. rewrite <- is_hwp_iff, Eh. discriminate. } rewrite K in G. destruct G.
      - right. exists fr, n. split; [exact Hfr|]. split; [exact Hn|]. intros c Hc Hw. apply K, legs_In. auto. }
    2:{ intros e s1 H; exact H. }
    intros l1 s1 (S1 & I1 & E1 & H1 & O1 & K1).
    apply post_bind. eapply post_conseq; [apply (hwpcap_post q hwps s1 I1)| |].
    2:{ intros e s2 (S2 & I2). split; [eapply same_trans; eauto|exact I2]. }
    intros l2 s2 (S2 & I2 & E2 & H2 & O2 & K2). pose proof (same_trans _ _ _ S1 S2) as T.
    apply post_lift; [|intros; split; assumption]. intros r Hr. destruct (from_2_get _ _ _ _ Hr) as (Ef & Hin).
    split; [exact T|]. split; [exact I2|]. split; [exact Ef|]. split; [|split; [|split; [|exact K1]]].
    - intros c f Hc. destruct (Hin c f Hc) as [G|G].
      + destruct (H1 c f G) as (b & v & Hb & Hv & ->). exists b. split; [exact Hb|]. right. split; [|eauto].
        assert (G' : In c legs) by (rewrite <- E1; apply in_map_iff; exists (c, v * b); auto). now apply legs_In in G'.
      + destruct (H2 c f G) as (b & v & Hb & Hv & Hl). exists b. split; [|left; split].
        * eapply bus_clock_view; [|exact Hb]. intros; now rewrite (proj1 S1).
        * assert (G' : In c hwps) by (rewrite <- E2; apply in_map_iff; exists (c, f); auto). now apply hwps_In in G'.
        * exists v. split; [now rewrite <- (proj1 S1)|exact Hl].
    - intros c Hc. destruct (is_hwp g c) eqn:Eh; [apply O2, filter_In; auto|]. apply O1, filter_In. cbn beta. now rewrite Eh.
    - intros c Hc Hw. apply K2, hwps_In. auto.
  Qed.

  (** ** Success *)
  Lemma platinfo_live q cpus s : q <> KTurbo -> Inv s -> io_works s ->
    (forall c, In c cpus -> In c online /\ clock_known env x (view s) c /\ exists fr, fg_plat g = Ok fr /\ has fr (plat_name q) c = true) ->
    live (platinfo_freq env x g (plat_name q) cpus) s.
  Proof.
    intros Hq HI W H. unfold platinfo_freq, live. destruct cpus as [|c0 t]; [apply post_ret; exact W|]. 
    destruct (H c0 (or_introl eq_refl)) as (_ & _ & fr & Hfr & _). remember (c0 :: t) as cpus. rewrite Hfr.
    apply post_bind, post_lift; [|discriminate]. intros fr' [= <-]. destruct (plat_get fr q Hq Hfr) as (G & Ha).
    apply (ratio_loop_live fr _ _ _ _ ratio_to_freq G (ratio_bits_ok q) cpus s HI W).
    intros c Hc. destruct (H c Hc) as (Ho & Hk & fr' & E & Hh). rewrite Hfr in E. injection E as <-. auto.
  Qed.
  Lemma hwpcap_live q cpus s : Inv s -> io_works s ->
    (forall c, In c cpus -> In c online /\ clock_known env x (view s) c /\ exists fr, fg_cap g = Ok fr /\ has fr (cap_name q) c = true) ->
    live (hwpcap_freq env x g (cap_name q) cpus) s.
  Proof.
    intros HI W H. unfold hwpcap_freq, live. destruct cpus as [|c0 t]; [apply post_ret; exact W|]. 
    destruct (H c0 (or_introl eq_refl)) as (_ & _ & fr & Hfr & _). remember (c0 :: t) as cpus. rewrite Hfr.
    apply post_bind, post_lift; [|discriminate]. intros fr' [= <-]. destruct (cap_get fr q Hfr) as (G & Ha).
    apply (ratio_loop_live fr _ _ _ _ (perf_to_freq x) G (cap_bits_ok q) cpus s HI W).
    intros c Hc. destruct (H c Hc) as (Ho & Hk & fr' & E & Hh). rewrite Hfr in E. injection E as <-. auto.
  Qed.

  (** The first kind of turbo ratio is not there: the loop stops with "not supported" at the first CPU. *)
  Lemma validate_not fr n fe cpus : get_feature fr n = Ok fe -> (forall c, In c cpus -> In c online) ->
    (forall c, In c online -> exists d b, dget str_eqb (fr_supp fr) n = Some d /\ dget Z.eqb d c = Some b) ->
    validate_feature_supported env fr n (Some cpus) = Ok tt \/ validate_feature_supported env fr n (Some cpus) = Exn ENotSupported.
  Proof.
    intros Hgf Ho Hd. unfold validate_feature_supported. rewrite Hgf. cbn [rbind].
    destruct (proj2 (normalize_ok_iff env (Some cpus)) Ho) as (l & El). rewrite El. cbn [rbind].
    pose proof (normalized_online env _ _ El) as Hl.
    rewrite (rmap_all l _ (fun c => has fr n c)).
    - cbn [rbind]. destruct (forallb _ _); auto.
    - intros c Hc. destruct (Hd c (Hl c Hc)) as (d & b & E1 & E2). unfold has. rewrite E1, E2. reflexivity.
  Qed.

  Lemma trl_live cpus s : Inv s -> io_works s ->
    (forall c, In c cpus -> In c online /\ clock_known env x (view s) c) ->
    (cpus = [] \/ exists fr n, fg_trl g = Ok fr /\ In n (map fst (trl_feats None)) /\ forall c, In c cpus -> has fr n c = true) ->
    live (trl_freq env x g cpus) s.
  Proof.
    intros HI W H K. unfold trl_freq, live. destruct cpus as [|c0 t]; [apply post_ret; exact W|].
    destruct K as [K|(fr & n & Hfr & Hn & K)]; [discriminate|]. rewrite Hfr.
    apply post_bind, post_lift; [|discriminate]. intros fr' [= <-].
    destruct (fo_trl _ _ _ Hg fr Hfr) as (_ & _ & Hd).
    set (n1 := s2l "max_1c_turbo_ratio"%string) in *. set (n2 := s2l "max_g0_turbo_ratio"%string).
    assert (N1 : In n1 (map fst (trl_feats None))) by (now left).
    destruct (trl_get fr n1 N1 Hfr) as (G1 & Ha).
    assert (LL : forall n s, In n (map fst (trl_feats None)) -> Inv s -> io_works s ->
       (forall c, In c (c0 :: t) -> In c online /\ clock_known env x (view s) c) ->
       validate_feature_supported env fr n (Some (c0 :: t)) = Ok tt -> live (ratio_loop env x fr n ratio_to_freq (c0 :: t)) s).
    { intros n' s' Hn' I' W' H' V. destruct (trl_get fr n' Hn' Hfr) as (G & _).
      apply (ratio_loop_live fr _ _ _ _ ratio_to_freq G (ratio_bits_ok KTurbo) _ s' I' W').
      intros c Hc. destruct (H' c Hc). split; [assumption|]. split; [assumption|]. now apply (validate_ok env fr n' _ V c). }
    destruct (validate_not fr n1 _ (c0 :: t) G1 (fun c Hc => proj1 (H c Hc)) (fun c Hc => Hd n1 c N1 Hc)) as [V|V].
    - pose proof (LL n1 s N1 HI W H V) as L. unfold live, post in *.
      destruct (ratio_loop env x fr n1 ratio_to_freq (c0 :: t) s) as [[r|e] s1]; [exact L|destruct L].
    - (* the second one *)
      assert (Hne : n <> n1).
      { intros ->. assert (V2 : validate_feature_supported env fr n1 (Some (c0 :: t)) = Ok tt).
        { apply (validate_has env fr n1 _ _ G1). cbn [targets]. intros c Hc. split; [apply H, Hc|apply K, Hc]. } congruence. }
      assert (n = n2) as -> by (destruct Hn as [E|[E|[]]]; [elim Hne; symmetry; exact E|symmetry; exact E]).
      destruct (trl_get fr n2 Hn Hfr) as (G2 & _).
      assert (V2 : validate_feature_supported env fr n2 (Some (c0 :: t)) = Ok tt).
      { apply (validate_has env fr n2 _ _ G2). cbn [targets]. intros c Hc. split; [apply H, Hc|apply K, Hc]. }
      assert (E1 : check_fsb env x (c0 :: t) = Ok tt) by (apply (check_fsb_ok _ (view s)), H).
      destruct (H c0 (or_introl eq_refl)) as (Ho & Hk).
      assert (LB : post (get_bclk env x c0) s (fun _ s' => (same_view s s' /\ Inv s') /\ io_works s') (fun _ _ => False)).
      { eapply post_conseq; [eapply post_live; [apply (get_bclk_post c0 s HI)|apply (get_bclk_live c0 s HI W Ho Hk)]| |intros e s1 []].
        cbn beta. intros b s1 ((S1 & I1 & _) & W1). auto. }
      assert (R : exists s1, ratio_loop env x fr n1 ratio_to_freq (c0 :: t) s = (Exn ENotSupported, s1) /\ same_view s s1 /\ Inv s1 /\ io_works s1).
      { unfold ratio_loop. cbn [mmap]. unfold mbind at 1. unfold mbind at 1. unfold lift at 1. rewrite E1. unfold mbind at 1.
        unfold post in LB. destruct (get_bclk env x c0 s) as [[b|e] s1]; [|destruct LB]. exists s1. unfold mbind at 1. unfold lift at 1. rewrite V.
        destruct LB as ((? & ?) & ?). auto. }
      destruct R as (s1 & R & S1 & I1 & W1). unfold post. rewrite R.
      apply (LL n2 s1 Hn I1 W1); [|exact V2]. intros c Hc. destruct (H c Hc) as (Hoc & (b & Hb) & Hkc). split; [exact Hoc|]. split; [|exact Hkc].
      exists b. eapply bus_clock_view; [|exact Hb]. intros; symmetry; now rewrite (proj1 S1).
  Qed.

  Lemma get_rated_live q cpus s : Inv s -> io_works s -> NoDup cpus ->
    (forall c, In c cpus -> In c online /\ clock_known env x (view s) c) -> has_levels g q cpus -> has_ratios g q cpus ->
    live (get_rated env x g q cpus) s.
  Proof.
    intros HI W Hnd H KL KR. unfold get_rated, live. set (legs := filter (fun c => negb (is_hwp g c)) cpus). set (hwps := filter (is_hwp g) cpus).
    assert (HL : forall c, In c legs -> In c online /\ clock_known env x (view s) c) by (intros c Hc; apply legs_In in Hc; now apply H).
    apply post_bind. eapply (post_conseq _ _ (fun l s1 => (same_view s s1 /\ Inv s1 /\ map fst l = legs) /\ io_works s1) _ (fun _ _ => False)).
    { destruct q.
      1-3: eapply post_conseq; [eapply post_live; [apply platinfo_post; [|exact HI]; discriminate|apply platinfo_live; [discriminate|exact HI|exact W|]]| |auto];
        [intros c Hc; destruct (HL c Hc); split; [assumption|]; split; [assumption|]; apply KR; now apply legs_In in Hc|
         intros l s1 ((S1 & I1 & E1 & _) & W1); auto].
      eapply post_conseq; [eapply post_live; [apply trl_post; exact HI|apply trl_live; [exact HI|exact W|exact HL|]]| |auto].
      - destruct KR as [KR|(fr & n & Hfr & Hn & KR)].
        + left. destruct legs as [|c t] eqn:El; [reflexivity|]. assert (G : In c legs) by (rewrite El; now left). apply legs_In in G. 
          elim (proj2 G). now apply KR.
        + right. exists fr, n. split; [exact Hfr|]. split; [exact Hn|]. intros c Hc. apply legs_In in Hc. now apply KR.
      - intros l s1 ((S1 & I1 & E1 & _) & W1); auto. }
    2:{ auto. }
    intros l1 s1 ((S1 & I1 & E1) & W1).
    apply post_bind. eapply post_conseq; [eapply post_live; [apply (hwpcap_post q hwps s1 I1)|apply (hwpcap_live q hwps s1 I1 W1)]| |auto].
    { intros c Hc. apply hwps_In in Hc. destruct Hc as (Hc & Hw). destruct (H c Hc) as (Ho & (b & Hb) & Hk). split; [exact Ho|]. split; [|now apply KL].
      split; [|exact Hk]. exists b. eapply bus_clock_view; [|exact Hb]. intros; symmetry; now rewrite (proj1 S1). }
    intros l2 s2 ((S2 & I2 & E2 & _) & W2). apply post_lift; [intros; exact W2|]. intros e Ee.
    destruct (from_2_ok cpus l1 l2) as (r & Er); [| | |congruence].
    - rewrite E2. apply NoDup_filter, Hnd.
    - intros c. rewrite E1, E2. unfold legs, hwps. intros Hc1 Hc2. apply legs_In in Hc2. apply hwps_In in Hc1. tauto.
    - intros c Hc. rewrite E1, E2. unfold legs, hwps. rewrite legs_In, hwps_In, <- is_hwp_iff. destruct (is_hwp g c); intuition congruence.
  Qed.

  (** ** HWP status and bus clock *)
  Lemma pm_get fr : fg_pm g = Ok fr -> get_feature fr (s2l "hwp"%string) = Ok (fbool 0 1 (Some (sc (fr_addr fr))) true) /\ fr_addr fr = PM.
  Proof. intros H. destruct (fo_pm _ _ _ Hg fr H) as (Ha & Hf). unfold get_feature. rewrite Hf, Ha. split; reflexivity. Qed.

  Lemma bool_ok ios : feature_ok (fbool 0 1 ios true).
  Proof. apply feature_okb_sound. vm_compute. reflexivity. Qed.
  Lemma bool_named ios r v : named_as (fbool 0 1 ios true) (field_val (0, 0) r) v ->
    (fval_eqb v (VStr (s2l "on"%string)) || fval_eqb v (VStr (s2l "enabled"%string)))%bool = Z.testbit r 0.
  Proof.
    intros H. destruct (field_val_spec (0, 0) r (bit_ok 0 ltac:(lia))) as (_ & Hf).
    destruct (is_field_bit 0 r _ Hf) as (H1 & H2). cbn [named_as fbool fe_vals In] in H.
    destruct H as [E|[E|[]]]; injection E as <- E.
    - rewrite <- E in H1. rewrite (proj1 H1 eq_refl). reflexivity.
    - rewrite <- E in H1. destruct (Z.testbit r 0); [|vm_compute; reflexivity]. pose proof (proj2 H1 eq_refl). discriminate.
  Qed.
  Lemma bool_named_ex ios r : exists v, named_as (fbool 0 1 ios true) (field_val (0, 0) r) v.
  Proof.
    destruct (field_val_spec (0, 0) r (bit_ok 0 ltac:(lia))) as (_ & Hf).
    destruct (is_field_bit 0 r _ Hf) as (_ & [-> | ->]); [exists (VStr (s2l "off"%string))|exists (VStr (s2l "on"%string))]; cbn; auto.
  Qed.

  Lemma get_hwp_post cpus s : Inv s ->
    post (get_hwp env g cpus) s
      (fun r s' => same_view s s' /\ Inv s' /\ map fst r = dedup cpus /\
         (forall c b, In (c, b) r -> b = Z.testbit (view s PM (dom PM c)) 0) /\
         exists fr, fg_pm g = Ok fr /\ forall c, In c cpus -> In c online /\ has fr (s2l "hwp"%string) c = true)
      (fun _ s' => same_view s s' /\ Inv s').
  Proof.
    intros HI. unfold get_hwp. apply post_bind, post_lift; [|intros; split; [now apply same_refl|exact HI]]. intros fr Hfr.
    destruct (pm_get fr Hfr) as (G & Ha). unfold is_feature_enabled.
    apply post_bind, post_lift; [|intros; split; [now apply same_refl|exact HI]]. intros [] V.
    apply post_bind, post_lift; [|intros; split; [now apply same_refl|exact HI]]. intros fe Efe. rewrite G in Efe. injection Efe as <-.
    cbn [fbool fe_type ftype_eqb negb].
    apply post_bind. eapply post_conseq; [apply (read_feature_post env rep sc Hwf Hsc fr _ _ G (bool_ok _) eq_refl (Some cpus) s (proj1 HI))| |].
    2:{ intros e s1 (C & H1). split; [now apply cache_same|eapply Inv_cache; eauto]. }
    intros r s1 (C & H1 & l & El & F). apply post_ret. split; [now apply cache_same|]. split; [eapply Inv_cache; eauto|].
    assert (l = dedup cpus) as -> by (unfold normalize_cpus in El; apply (normalize_in_ok _ _ _ El)).
    split; [|split].
    - rewrite map_map. cbn [fst]. clear - F. induction F as [|c cx l r (E & _) _ IH]; [reflexivity|]. cbn [map]. now rewrite E, IH.
    - intros c b Hin. apply in_map_iff in Hin as ([c' v] & Ec & Hin). cbn [fst snd] in Ec. apply pair_equal_spec in Ec as (<- & <-).
      destruct (Forall2_in_r _ _ _ F _ Hin) as (c0 & Hc0 & Hf & Hn). cbn [fst snd] in *. subst. rewrite <- Ha. exact (bool_named _ _ _ Hn).
    - exists fr. split; [exact Hfr|]. apply (validate_ok env fr _ _ V).
  Qed.

  Lemma get_hwp_live cpus fr s : Inv s -> io_works s -> fg_pm g = Ok fr ->
    (forall c, In c cpus -> In c online /\ has fr (s2l "hwp"%string) c = true) -> live (get_hwp env g cpus) s.
  Proof.
    intros HI W Hfr H. unfold live, get_hwp. rewrite Hfr. apply post_bind, post_lift; [|discriminate]. intros fr' [= <-].
    destruct (pm_get fr Hfr) as (G & Ha).
    apply (enabled_live env rep sc Hwf Hsc fr _ _ G (bool_ok _) eq_refl (Some cpus) s (proj1 HI) W eq_refl H).
    intros c Hc. destruct (bool_named_ex (Some (sc (fr_addr fr))) (view s (fr_addr fr) (dom (fr_addr fr) c))) as (v & Hv).
    exists (field_val (0, 0) (view s (fr_addr fr) (dom (fr_addr fr) c))), v. split; [|exact Hv].
    apply (field_val_spec (0, 0)). apply bit_ok. lia.
  Qed.

  Lemma bus_clock_msr_post cpus s : Inv s ->
    post (bus_clock_msr env x cpus) s
      (fun r s' => same_view s s' /\ Inv s' /\ map fst r = dedup cpus /\ (forall c b, In (c, b) r -> bus_clock env x (view s) c b) /\
         exists fsb, hw_fsb x = Ok fsb /\ forall c, In c cpus -> In c online /\ has fsb (s2l "fsb"%string) c = true)
      (fun _ s' => same_view s s' /\ Inv s').
  Proof.
    intros HI. unfold bus_clock_msr. apply post_bind, post_lift; [|intros; split; [now apply same_refl|exact HI]]. intros fsb Ef.
    destruct (ho_fsb _ _ _ Hx fsb Ef) as (Ha & hi & lo & codes & Ht & Hfe).
    assert (G : get_feature fsb (s2l "fsb"%string) = Ok (ffsb hi lo (Some (sc FSB)) codes)) by (unfold get_feature; rewrite Hfe; reflexivity).
    assert (Hios : fe_ios (ffsb hi lo (Some (sc FSB)) codes) = Some (sc (fr_addr fsb))) by (cbn [ffsb fe_ios]; now rewrite Ha).
    apply post_bind.
    assert (V : post (read_feature env fsb (s2l "fsb"%string) (Some cpus)) s
      (fun _ _ => validate_feature_supported env fsb (s2l "fsb"%string) (Some cpus) = Ok tt) (fun _ _ => True)).
    { unfold read_feature. apply post_bind, post_lift; [|auto]. intros [] V. unfold post. match goal with |- match ?m with _ => _ end => destruct m as [[?|?] ?] end; auto. }
    eapply post_conseq; [apply post_and; [apply (read_feature_post env rep sc Hwf Hsc fsb _ _ G (fsb_feature_ok _ _ _ _ Ht) Hios (Some cpus) s (proj1 HI))|exact V]| |].
    2:{ intros e s1 ((C & H1) & _). split; [now apply cache_same|eapply Inv_cache; eauto]. }
    cbn beta. intros r s1 ((C & H1 & l & El & F) & V'). 
    assert (R : same_view s s1 /\ Inv s1) by (split; [now apply cache_same|eapply Inv_cache; eauto]).
    apply post_lift; [|intros; exact R]. intros r' Er. destruct R as (R1 & R2). split; [exact R1|]. split; [exact R2|].
    assert (l = dedup cpus) as -> by (unfold normalize_cpus in El; apply (normalize_in_ok _ _ _ El)).
    apply rmap_forall2 in Er.
    assert (K : map fst r' = dedup cpus /\ forall c b, In (c, b) r' -> bus_clock env x (view s) c b).
    { clear - F Er Ef Hfe Ha Ht. revert r' Er. induction F as [|c cx l r (E & Hn) _ IH]; intros r' Er; inversion Er as [|? cb ? t Hcb Et]; subst; [split; [reflexivity|intros ? ? []]|].
      destruct (IH t Et) as (<- & K). destruct cx as [c v]; cbn [fst snd] in *. destruct v as [?|?|khz]; try discriminate. injection Hcb as <-.
      split; [reflexivity|]. intros c' b [E|Hin]; [|auto]. injection E as <- <-. unfold bus_clock. rewrite Ef.
      exists (ffsb hi lo (Some (sc FSB)) codes), khz, (field_val (hi, lo) (view s (fr_addr fsb) (dom (fr_addr fsb) c))).
      split; [rewrite Hfe; reflexivity|]. split; [|split; [exact Hn|reflexivity]]. rewrite Ha.
      apply (field_val_spec (hi, lo)). apply (fo_field _ (fsb_feature_ok (Some (sc FSB)) _ _ _ Ht)). }
    destruct K as (K1 & K2). split; [exact K1|]. split; [exact K2|]. exists fsb. split; [exact Ef|]. apply (validate_ok env fsb _ _ V').
  Qed.

  Lemma bus_clock_msr_live cpus fsb s : Inv s -> io_works s -> hw_fsb x = Ok fsb ->
    (forall c, In c cpus -> In c online /\ clock_known env x (view s) c) -> live (bus_clock_msr env x cpus) s.
  Proof.
    intros HI W Ef H. unfold live, bus_clock_msr. rewrite Ef. apply post_bind, post_lift; [|discriminate]. intros fr' [= <-].
    destruct (ho_fsb _ _ _ Hx fsb Ef) as (Ha & hi & lo & codes & Ht & Hfe).
    assert (G : get_feature fsb (s2l "fsb"%string) = Ok (ffsb hi lo (Some (sc FSB)) codes)) by (unfold get_feature; rewrite Hfe; reflexivity).
    assert (Hios : fe_ios (ffsb hi lo (Some (sc FSB)) codes) = Some (sc (fr_addr fsb))) by (cbn [ffsb fe_ios]; now rewrite Ha).
    pose proof (fsb_feature_ok (Some (sc FSB)) _ _ _ Ht) as Hok.
    assert (Hall : forall c, In c cpus -> exists khz code, is_field (hi, lo) (view s (fr_addr fsb) (dom (fr_addr fsb) c)) code /\
      named_as (ffsb hi lo (Some (sc FSB)) codes) code (VInt khz)).
    { intros c Hc. destruct (H c Hc) as (_ & (b & Hb) & _). unfold bus_clock in Hb. rewrite Ef in Hb.
      destruct Hb as (fe & khz & code & Hd & Hf & Hv & _). rewrite Hfe in Hd.
      assert (fe = ffsb hi lo (Some (sc FSB)) codes) as -> by (cbn in Hd; congruence). exists khz, code. rewrite Ha. split; [exact Hf|exact Hv]. }
    apply post_bind. eapply post_conseq; [eapply post_live; [apply (read_feature_post env rep sc Hwf Hsc fsb _ _ G Hok Hios (Some cpus) s (proj1 HI))|
      apply (read_feature_live env rep sc Hwf Hsc fsb _ _ G Hok Hios (Some cpus) s (proj1 HI) W)]| |auto].
    - cbn [targets]. intros c Hc. destruct (H c Hc) as (Ho & _ & Hk). rewrite Ef in Hk. auto.
    - cbn [targets]. intros c Hc. destruct (Hall c Hc) as (khz & code & Hf & Hn). exists code, (VInt khz). auto.
    - cbn beta. intros r s1 ((C & H1 & l & El & F) & W1). apply post_lift; [intros; exact W1|]. intros e Er.
      assert (l = dedup cpus) as -> by (unfold normalize_cpus in El; apply (normalize_in_ok _ _ _ El)).
      assert (K : exists ys, rmap r (fun cv => match snd cv with VInt khz => Ok (fst cv, khz * 1000) | _ => Exn EError end) = Ok ys).
      { assert (Hall' : forall c, In c (dedup cpus) -> In c cpus) by (intros c; apply dedup_In). clear - F Hall Hall' Hok. induction F as [|c cx l r (E & Hn) _ IH]; [cbn; eauto|]. cbn [rmap].
        destruct (Hall c (Hall' c (or_introl eq_refl))) as (khz & code & Hf & Hn2).
        assert (Ec : field_val (hi, lo) (view s (fr_addr fsb) (dom (fr_addr fsb) c)) = code).
        { eapply is_field_functional; [exact (fo_field _ Hok)|apply (field_val_spec (hi, lo)); exact (fo_field _ Hok)|exact Hf]. }
        cbn [ffsb fe_bits] in Hn. rewrite Ec in Hn. apply (decode_spec _ Hok) in Hn. apply (decode_spec _ Hok) in Hn2. rewrite Hn2 in Hn. injection Hn as Hn.
        rewrite <- Hn. cbn [rbind]. destruct IH as (ys & ->); [intros c' Hc'; apply Hall'; now right|]. cbn [rbind]. eauto. }
      destruct K as (ys & K). congruence.
  Qed.

  (** ** The frequencies are determined by the registers *)
  Lemma rated_fun L q c f f' : rated env x g L q c f -> rated env x g L q c f' -> f = f'.
  Proof.
    intros (b & Hb & H) (b' & Hb' & H'). assert (b' = b) as -> by (eapply bus_clock_fun; eauto).
    destruct H as [(Hw & p & Hp & Hl)|(Hw & p & Hp & ->)], H' as [(Hw' & p' & Hp' & Hl')|(Hw' & p' & Hp' & ->)]; try contradiction.
    - assert (p' = p) as -> by (eapply is_field_functional; [|exact Hp'|exact Hp]; destruct (cap_bits_ok q); unfold field_ok; lia).
      eapply level_freq_fun; eauto. eapply bus_clock_positive; eauto.
    - assert (p' = p) as -> by (eapply is_field_functional; [|exact Hp'|exact Hp]; destruct (ratio_bits_ok q); unfold field_ok; lia). reflexivity.
  Qed.
End FRead.
