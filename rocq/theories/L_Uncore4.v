(** Uncore frequency settings can be relied on. *)
From Coq Require Import ZifyBool QArith.
From Verif Require Import Base L_Base L_Monad M_Text S_Text L_Text
  M_PStates S_PStates L_PStates L_PStates2 L_CPUFreq3 M_Uncore S_Uncore L_Uncore L_Uncore2 L_Uncore3.

#[local] Arguments uncore_path : simpl never.

Lemma dies_dict_In l p d : In (p, d) (each_die (dies_dict l)) <-> In (p, d) l.
Proof.
  unfold dies_dict.
  assert (A : forall d0 (pd : Z * Z), NoDup (map fst d0) ->
    NoDup (map fst (dset Z.eqb d0 (fst pd) (match dget Z.eqb d0 (fst pd) with Some x => x | None => [] end ++ [snd pd])))).
  { intros d0 pd H. apply dset_NoDup; [apply Zeqb_spec|exact H]. }
  assert (B : forall d0 (pd : Z * Z), NoDup (map fst d0) -> forall p d,
    In (p, d) (each_die (dset Z.eqb d0 (fst pd) (match dget Z.eqb d0 (fst pd) with Some x => x | None => [] end ++ [snd pd]))) <->
    In (p, d) (each_die d0) \/ (p, d) = pd).
  { intros d0 [p1 d1] Nd p2 d2. cbn [fst snd]. unfold dies_t in *.
    set (x := (match dget Z.eqb d0 p1 with Some x => x | None => [] end ++ [d1])).
    pose proof (A d0 (p1, d1) Nd) as Nd'. cbn [fst snd] in Nd'. fold x in Nd'.
    assert (Hh : forall d0 p2 d2, NoDup (map fst d0) ->
      In (p2, d2) (each_die d0) <-> exists l, dget Z.eqb d0 p2 = Some l /\ In d2 l).
    { intros d' p3 d3 Nd3. rewrite each_die_In. unfold has_die. split; intros (l' & H1 & H2); exists l'; split; auto.
      - now apply (In_dget _ Zeqb_spec).
      - now apply (dget_In _ Zeqb_spec) in H1. }
    rewrite (Hh _ _ _ Nd'), (Hh _ _ _ Nd). destruct (Z.eq_dec p2 p1) as [->|Hne].
    - rewrite (dget_dset_same _ Zeqb_spec). subst x. split.
      + intros (l' & [= <-] & Hin). apply in_app_or in Hin as [Hin|[->|[]]]; [|now right].
        left. destruct (dget Z.eqb d0 p1); [eauto|destruct Hin].
      + intros [(l' & -> & Hin)|[= ->]]; eexists; (split; [reflexivity|]); apply in_or_app; [now left|right; now left].
    - rewrite (dget_dset_other _ Zeqb_spec) by (intros X; now apply Hne).
      split; [intros H; now left|]. intros [H|[= -> _]]; [exact H|congruence]. }
  assert (C : forall l d0, NoDup (map fst d0) -> forall p d,
    In (p, d) (each_die (fold_left (fun d pd => dset Z.eqb d (fst pd) (match dget Z.eqb d (fst pd) with Some x => x | None => [] end ++ [snd pd])) l d0)) <->
    In (p, d) (each_die d0) \/ In (p, d) l).
  { clear l p d. induction l as [|pd l IH]; intros d0 Nd p d; [cbn; tauto|]. cbn [fold_left]. rewrite IH by now apply A.
    rewrite B by exact Nd. cbn [In]. split; [intros [[H|H]|H]; auto|intros [H|[H|H]]; auto]. }
  rewrite C by constructor. cbn. tauto.
Qed.

Lemma die_dec (a b : Z * Z) : {a = b} + {a <> b}.
Proof. decide equality; apply Z.eq_dec. Qed.

Section L.
  Context {W : Type}.
  Variable io : uio W.
  Variable view : W -> str -> res Z.
  Variable fresh : W -> str -> Prop.
  Variable related : str -> str -> Prop.
  Variable e : uenv.
  Variable dirof : Z * Z -> str.
  Hypothesis Hio : behaves io view fresh related.
  Hypothesis Hrel : forall f g, related f g -> tpmi_related e f g.
  Hypothesis Hw : well_shown e.

  Notation v := (uncore_view view dirof).
  Notation dom := (has_dir e dirof).

  (** The relation between states that differ by reads only. *)
  Variable J : W -> Prop.
  Hypothesis HJ : always_works io e J.
  Definition uquiet (s s' : ust W) : Prop := kept view fresh (nothing) s s' /\ tame e s s' /\ (J (us_w s) -> J (us_w s')).

  Lemma uquiet_same s s' : uquiet s s' -> uncore_same view s s'.
  Proof. intros (K & [T _] & _). split; [|exact T]. intros f. apply K. intros []. Qed.

  Lemma uquiet_good s s' : uquiet s s' -> start_ok fresh e s -> start_ok fresh e s'.
  Proof.
    intros (K & [T T'] & _) (G1 & G2 & G3). split; [auto|]. split.
    - intros p d key lim f Hf. apply K; [intros []|]. eapply G2, Hf.
    - rewrite T. intros Hl f Hf. apply K; [intros []|]. now apply G3.
  Qed.

  Lemma die_of pd key lim f : dom pd -> die_file e (fst pd) (snd pd) key lim f -> f = uncore_path (dirof pd) key lim.
  Proof. intros D (dir & Hs & ->). f_equal. destruct Hw as (_ & _ & _ & Hu). eapply Hu; [exact Hs|exact D]. Qed.

  Lemma dom_file pd key lim : dom pd -> die_file e (fst pd) (snd pd) key lim (uncore_path (dirof pd) key lim).
  Proof. intros D. exists (dirof pd). split; [exact D|reflexivity]. Qed.

  Lemma get_die_run b lim pd s : start_ok fresh e s -> dom pd ->
    exists s', get_die_freq io e b lim pd s = (die_freq view dirof lim s b pd, s') /\ uquiet s s'.
  Proof.
    intros (G1 & G2 & _) D. unfold get_die_freq.
    assert (Hin : forall p d, In (p, d) (each_die [(fst pd, [snd pd])]) <-> (p, d) = pd).
    { intros p d. cbn. destruct pd as [p0 d0]. cbn. split; [intros [H|[]]; auto|intros ->; now left]. }
    pose proof (get_freq_dies_post io view fresh related e Hio Hw (ukey_of b) [(fst pd, [snd pd])] lim s G1) as P.
    assert (P1 : forall p d, In (p, d) (each_die [(fst pd, [snd pd])]) -> exists dir, shows e dir p d).
    { intros p d H. apply Hin in H as <-. eexists. exact D. }
    specialize (P P1 (fun p d f _ Hf => G2 p d _ lim f Hf)). unfold post in P. unfold mbind.
    assert (PJ : J (us_w s) -> exists l s', get_freq_dies io e (ukey_of b) [(fst pd, [snd pd])] lim s = (Ok l, s') /\ J (us_w s')).
    { intros Hj. apply (get_works io e J HJ Hw); [exact Hj|exact G1|]. intros p d H. apply P1. now apply each_die_In. }
    destruct (get_freq_dies io e (ukey_of b) [(fst pd, [snd pd])] lim s) as [[l|x] s'].
    - destruct P as (K & T & M & V). cbn in M. destruct l as [|[[p d] f] l]; [discriminate|].
      destruct (V p d f (or_introl eq_refl)) as (file & n & Hf & Ev & ->).
      assert (E : (p, d) = pd) by (destruct pd; cbn in M; congruence).
      subst pd. apply (die_of (p, d)) in Hf; [|exact D]. exists s'. split; [|split; [exact K|split; [exact T|intros Hj; destruct (PJ Hj) as (? & ? & Ej & ?); congruence]]]. unfold ret, die_freq. rewrite <- Hf, Ev. reflexivity.
    - destruct P as (K & T & p & d & f & H & Hf & Ev). apply Hin in H. subst pd.
      apply (die_of (p, d)) in Hf; [|exact D]. exists s'. split; [|split; [exact K|split; [exact T|intros Hj; destruct (PJ Hj) as (? & ? & Ej & ?); congruence]]]. unfold die_freq. now rewrite <- Hf, Ev.
  Qed.

  Lemma uquiet_freq lim s s' b pd : uquiet s s' -> die_freq view dirof lim s' b pd = die_freq view dirof lim s b pd.
  Proof. intros Q. destruct (uquiet_same s s' Q) as [V _]. unfold die_freq. now rewrite V. Qed.

  Lemma ukey_inj b b' : ukey_of b = ukey_of b' -> b = b'.
  Proof. destruct b, b'; cbn; congruence. Qed.

  Lemma key_cases key b : ukey_of b = key \/ ukey_of b <> key.
  Proof. destruct key, b; cbn; (left; congruence) || (right; discriminate). Qed.

  (** Setting. *)
  Lemma uset_post b f keys s : start_ok fresh e s -> Forall dom keys ->
    post (f_set (uncore_io io e) b f keys) s
      (fun _ s' => start_ok fresh e s' /\
        (forall key, In key keys -> v_cur v s' b key = Ok (die_khz key f)) /\
        (forall b' key, dom key -> ~ (b' = b /\ In key keys) -> v_cur v s' b' key = v_cur v s b' key) /\
        (forall b' key, dom key -> v_limit v s' b' key = v_limit v s b' key) /\
        us_unlocked s' = (us_unlocked s || use_new_api e)%bool)
      (fun x s' => True).
  Proof.
    intros (G1 & G2 & G3) D. rewrite Forall_forall in D. cbn [uncore_io f_set].
    eapply post_conseq; [apply (set_freq_dies_post io view fresh related e Hio Hrel Hw f (ukey_of b) (dies_dict keys) s G1)| |].
    - intros p d H. rewrite dies_dict_In in H. eexists. exact (D _ H).
    - auto.
    - intros u s' (K & N & L & V).
      assert (Out : forall pd key lim, dom pd -> ~ (key = ukey_of b /\ lim = false /\ In pd keys) ->
        ~ (die_files e (each_die (dies_dict keys)) (ukey_of b) (uncore_path (dirof pd) key lim) \/
           pkg_files e (uncore_path (dirof pd) key lim))).
      { intros pd key lim Dp Hn [(p & d & Hin & Hf)|(p & k' & Hu & (dir & d & Hs) & Ef)].
        - destruct (die_file_one e Hw _ _ _ _ _ _ _ _ _ (dom_file pd key lim Dp) Hf) as (E1 & E2 & E3 & E4).
          apply Hn. split; [exact E3|]. split; [exact E4|]. rewrite dies_dict_In in Hin.
          rewrite (surjective_pairing pd), E1, E2. exact Hin.
        - destruct (shows_pos e Hw _ _ _ Hs).
          eapply (new_die_not_legacy e Hw); [exact Hu| | |exact (dom_file pd key lim Dp)|exact Ef]; lia. }
      assert (Wr : forall pd, In pd keys -> view (us_w s') (uncore_path (dirof pd) (ukey_of b) false) = Ok (f / 1000)).
      { intros pd Hin. apply (V (fst pd) (snd pd)).
        - apply dies_dict_In. now rewrite <- surjective_pairing.
        - now apply dom_file, D. }
      assert (Fd : forall p d key lim fl, die_file e p d key lim fl -> fresh (us_w s') fl).
      { intros p d key lim fl Hf.
        destruct (in_dec die_dec (p, d) (each_die (dies_dict keys))) as [Hi|Hi].
        - destruct lim.
          + assert (Ho : ~ (die_files e (each_die (dies_dict keys)) (ukey_of b) fl \/ pkg_files e fl)).
            { intros [(p' & d' & Hin & Hf')|(p' & k' & Hu & (dir' & d' & Hs') & Ef)].
              - destruct (die_file_one e Hw _ _ _ _ _ _ _ _ _ Hf Hf') as (_ & _ & _ & X). discriminate.
              - destruct (shows_pos e Hw _ _ _ Hs').
                eapply (new_die_not_legacy e Hw); [exact Hu| | |exact Hf|exact Ef]; lia. }
            apply (K fl Ho). eapply G2, Hf.
          + destruct (key_cases key b) as [<-|Hk]; [now apply (V p d)|].
            assert (Ho : ~ (die_files e (each_die (dies_dict keys)) (ukey_of b) fl \/ pkg_files e fl)).
            { intros [(p' & d' & Hin & Hf')|(p' & k' & Hu & (dir' & d' & Hs') & Ef)].
              - destruct (die_file_one e Hw _ _ _ _ _ _ _ _ _ Hf Hf') as (_ & _ & X & _). congruence.
              - destruct (shows_pos e Hw _ _ _ Hs').
                eapply (new_die_not_legacy e Hw); [exact Hu| | |exact Hf|exact Ef]; lia. }
            apply (K fl Ho). eapply G2, Hf.
        - assert (Ho : ~ (die_files e (each_die (dies_dict keys)) (ukey_of b) fl \/ pkg_files e fl)).
          { intros [(p' & d' & Hin & Hf')|(p' & k' & Hu & (dir' & d' & Hs') & Ef)].
            - destruct (die_file_one e Hw _ _ _ _ _ _ _ _ _ Hf Hf') as (-> & -> & _ & _). now apply Hi.
            - destruct (shows_pos e Hw _ _ _ Hs').
              eapply (new_die_not_legacy e Hw); [exact Hu| | |exact Hf|exact Ef]; lia. }
          apply (K fl Ho). eapply G2, Hf. }
      split; [|split; [|split; [|split]]].
      + split; [exact N|]. split; [exact Fd|]. rewrite L. intros Hl f0 Hf0.
        apply Bool.orb_false_elim in Hl as [Hl Hu].
        destruct Hf0 as [(p & d & key & lim & Hf0)|(dir & p & d & key & lim & Hu' & _)]; [eapply Fd, Hf0|congruence].
      + intros pd Hin. cbn. unfold die_freq, die_khz. now rewrite (Wr pd Hin).
      + intros b' pd Dp Hn. cbn. unfold die_freq.
        rewrite (proj1 (K _ (Out pd (ukey_of b') false Dp ltac:(intros (X & _ & Y); apply ukey_inj in X; auto)))). reflexivity.
      + intros b' pd Dp. cbn. unfold die_freq.
        rewrite (proj1 (K _ (Out pd (ukey_of b') true Dp ltac:(intros (_ & X & _); discriminate)))). reflexivity.
      + exact L.
    - auto.
  Qed.

  Lemma uset_works b f keys s : start_ok fresh e s -> Forall dom keys -> J (us_w s) ->
    exists s', f_set (uncore_io io e) b f keys s = (Ok tt, s') /\ J (us_w s').
  Proof.
    intros (G1 & _) D Hj. rewrite Forall_forall in D. cbn [uncore_io f_set].
    apply (set_works io e J HJ Hw); [exact Hj|exact G1|]. intros p d H. apply each_die_In in H. rewrite dies_dict_In in H.
    eexists. exact (D _ H).
  Qed.

  Lemma unlock_later (s s' : ust W) : us_unlocked s' = (us_unlocked s || use_new_api e)%bool -> unlockable e J s'.
  Proof.
    intros L Hu Hl. rewrite L, Hu in Hl. rewrite Bool.orb_true_r in Hl. discriminate.
  Qed.

  Lemma uncore_relied : relied v (uncore_io io e) (fun s s' => uncore_same view s s' /\ uquiet s s') (start_ok fresh e) dom die_khz (die_taken J).
  Proof.
    assert (Qt : forall a b c, uquiet a b -> uquiet b c -> uquiet a c).
    { intros a b c (K1 & T1 & J1) (K2 & T2 & J2). split; [eapply kept_trans; eassumption|]. split; [eapply tame_trans; eassumption|].
      auto. }
    assert (Q0 : forall s, uquiet s s) by (intros s; split; [apply kept_refl|split; [apply tame_refl|auto]]).
    assert (Ok1 : forall s s', uquiet s s' -> uncore_same view s s' /\ uquiet s s') by (intros s s' Q; split; [now apply uquiet_same|exact Q]).
    assert (Rd : forall lim w b key, start_ok fresh e w -> dom key ->
      exists w', get_die_freq io e b lim key w = (die_freq view dirof lim w b key, w') /\ (uncore_same view w w' /\ uquiet w w') /\ start_ok fresh e w').
    { intros lim w b key G D. destruct (get_die_run b lim key w G D) as (w' & E & Q). exists w'. split; [exact E|].
      split; [now apply Ok1|]. now apply (uquiet_good w). }
    constructor.
    - intros w. apply Ok1, Q0.
    - intros a b c [_ Q1] [_ Q2]. apply Ok1. now apply (Qt a b).
    - intros w w' [_ Q] b key sp. cbn. rewrite !(uquiet_freq _ _ _ _ _ Q). auto.
    - intros w w' [_ (_ & _ & Q)] b f key Hj. now apply Q.
    - intros w b key G D. apply (Rd true w b key G D).
    - intros w b key G D. apply (Rd false w b key G D).
    - intros w sp key G D. assert (X : exists w', (Exn EError : res Z, w) = (Exn EError, w') /\ (uncore_same view w w' /\ uquiet w w') /\ start_ok fresh e w').
      { exists w. split; [reflexivity|]. split; [|exact G]. apply Ok1, Q0. }
      destruct sp; try exact X. clear X. cbn [uncore_io f_special v_special uncore_view].
      destruct (get_die_run true true key w G D) as (w1 & E1 & Q1). unfold mbind. rewrite E1.
      pose proof (uquiet_good w w1 Q1 G) as Gw1.
      destruct (die_freq view dirof true w true key) as [lo|x]; [|exists w1; split; [reflexivity|]; split; auto].
      destruct (get_die_run false true key w1 Gw1 D) as (w2 & E2 & Q2). rewrite E2.
      rewrite (uquiet_freq _ _ _ _ _ Q1).
      assert (Q : uquiet w w2) by now apply (Qt w w1).
      destruct (die_freq view dirof true w false key) as [hi|x]; exists w2; (split; [reflexivity|]; split; [auto|now apply (uquiet_good w)]).
    - intros w w' b f keys G D E. destruct (post_run _ _ _ _ _ _ (uset_post b f keys w G D) E) as (A1 & A2 & A3 & A4 & A5).
      split; [exact A1|]. split; [exact A2|]. split; [exact A3|]. split; [exact A4|]. split.
      + intros sp key Dk. cbn in *. destruct sp; try reflexivity. now rewrite !A4 by exact Dk.
      + intros b' f' key Dk Hj. destruct (uset_works b f keys w G D Hj) as (w2 & E2 & Hj2). unfold die_taken. congruence.
    - intros w b f keys G D Hne L. destruct keys as [|k0 keys]; [congruence|].
      destruct (uset_works b f (k0 :: keys) w G D (L k0 (or_introl eq_refl))) as (w' & E & _). now exists w'.
  Qed.

  (** ** Histories *)
  Hypothesis Hf : unchanged_on_failure io view fresh.

  Lemma uset_clean b f keys s s' x : start_ok fresh e s -> unlockable e J s -> Forall dom keys ->
    f_set (uncore_io io e) b f keys s = (Exn x, s') ->
    (start_ok fresh e s' /\ unlockable e J s') /\
    (forall b' key, dom key -> v_cur v s' b' key = v_cur v s b' key \/
       (b' = b /\ In key keys /\ v_cur v s' b' key = Ok (die_khz key f))) /\
    (forall b' key, dom key -> v_limit v s' b' key = v_limit v s b' key).
  Proof.
    intros (G1 & G2 & G3) U D E. rewrite Forall_forall in D. cbn [uncore_io f_set] in E. unfold set_freq_dies in E.
    assert (Un : exists s1, (if use_new_api e then unlock_new_api io e else ret tt) s = (Ok tt, s1) /\
      known e s1 /\ us_unlocked s1 = (us_unlocked s || use_new_api e)%bool /\
      kept view fresh (pkg_files e) s s1).
    { destruct (use_new_api e) eqn:Hu.
      - destruct (us_unlocked s) eqn:Hl.
        + exists s. split; [now apply unlock_once|]. split; [exact G1|]. split; [exact Hl|apply kept_refl].
        + pose proof (unlock_post io view fresh related e Hio Hrel Hw s Hu G1 Hl (G3 eq_refl)) as P. unfold post in P.
          destruct (unlock_works io e J HJ Hw s Hu (U Hu Hl) G1) as (s1 & Es & _). rewrite Es in P.
          destruct P as (K & L & N & _). exists s1. auto.
      - exists s. split; [reflexivity|]. rewrite Bool.orb_false_r. split; [exact G1|]. split; [reflexivity|apply kept_refl]. }
    destruct Un as (s1 & E1 & N1 & L1 & K1). unfold mbind at 1 in E. rewrite E1 in E.
    assert (Nl : forall p d key lim fl, die_file e p d key lim fl -> ~ pkg_files e fl).
    { intros p d key lim fl Hfl (p' & k' & Hu & (dir & d' & Hs) & Ef). destruct (shows_pos e Hw _ _ _ Hs).
      eapply (new_die_not_legacy e Hw); [exact Hu| | |exact Hfl|exact Ef]; lia. }
    set (I := fun s2 : ust W => known e s2 /\ us_unlocked s2 = us_unlocked s1 /\
      (forall p d key lim fl, die_file e p d key lim fl -> fresh (us_w s2) fl /\
        (view (us_w s2) fl = view (us_w s) fl \/
         (key = ukey_of b /\ lim = false /\ In (p, d) keys /\ view (us_w s2) fl = Ok (f / 1000))))).
    assert (P : post (mfor (each_die (dies_dict keys)) (fun pd =>
        let! path := die_path e (ukey_of b) (fst pd) (snd pd) false in on_w (u_wr io path (f / 1000)))) s1
        (fun _ _ => True) (fun _ => I)).
    { eapply post_conseq; [apply (post_mfor _ (fun _ => I) (fun _ => I))|auto|auto].
      2:{ split; [exact N1|]. split; [reflexivity|]. intros p d key lim fl Hfl. destruct (K1 fl (Nl _ _ _ _ _ Hfl)) as [A B].
          split; [apply B; eapply G2, Hfl|now left]. }
      intros pre [p d] suf El s2 (N2 & L2 & V2). cbn [fst snd].
      assert (Hin : In (p, d) keys).
      { apply dies_dict_In. rewrite El. apply in_or_app. right. now left. }
      destruct (die_path_run e Hw (ukey_of b) p d false (dirof (p, d)) s2 N2 (D _ Hin)) as (s3 & E3 & W3 & T3).
      unfold post, mbind, on_w. rewrite E3.
      set (file := uncore_path (dirof (p, d)) (ukey_of b) false).
      assert (Hfile : die_file e p d (ukey_of b) false file) by (apply (dom_file (p, d)); now apply D).
      destruct (u_wr io file (f / 1000) (us_w s3)) as [[[]|y] w4] eqn:E4.
      - destruct Hio as (_ & H2 & _). destruct (H2 _ _ _ _ E4) as (A1 & A2 & A3).
        split; [now apply T3|]. split; [cbn; destruct T3; congruence|].
        intros p1 d1 key lim fl Hfl. cbn [us_w]. destruct (list_eq_dec ascii_dec fl file) as [->|Hne].
        + split; [exact A2|]. right. destruct (die_file_one e Hw _ _ _ _ _ _ _ _ _ Hfl Hfile) as (-> & -> & -> & ->). auto.
        + destruct (A3 fl Hne) as [B1 B2].
          { intros Rl. apply Hrel in Rl as (Hu & p2 & d2 & k2 & [(X1 & X2)|(X1 & X2)]).
            - apply (Nl _ _ _ _ _ Hfile). exists p2, k2. split; [exact Hu|]. split; [|exact X1].
              destruct X2 as (dir & Hs & _). now exists dir, d2.
            - apply (Nl _ _ _ _ _ Hfl). exists p2, k2. split; [exact Hu|]. split; [|exact X1].
              destruct X2 as (dir & Hs & _). now exists dir, d2. }
          rewrite W3 in B1, B2. rewrite B1. destruct (V2 _ _ _ _ _ Hfl) as [C1 C2]. auto.
      - destruct (Hf _ _ _ _ _ E4) with (q := file) as [_ _].
        split; [now apply T3|]. split; [cbn; destruct T3; congruence|].
        intros p1 d1 key lim fl Hfl. cbn [us_w]. destruct (Hf _ _ _ _ _ E4 fl) as [B1 B2]. rewrite W3 in B1, B2.
        rewrite B1. destruct (V2 _ _ _ _ _ Hfl) as [C1 C2]. auto. }
    unfold post in P. rewrite E in P. destruct P as (N' & L' & V').
    split; [split|split].
    - split; [exact N'|]. split; [intros p d key lim fl Hfl; eapply V', Hfl|].
      rewrite L', L1. intros Hl f0 Hf0. apply Bool.orb_false_elim in Hl as [Hl Hu].
      destruct Hf0 as [(p & d & key & lim & Hf0)|(dir & p & d & key & lim & Hu' & _)]; [eapply V', Hf0|congruence].
    - apply (unlock_later s). congruence.
    - intros b' pd Dp. cbn. unfold die_freq.
      destruct (V' _ _ _ _ _ (dom_file pd (ukey_of b') false Dp)) as [_ [->|(Ek & _ & Hin & ->)]]; [now left|right].
      apply ukey_inj in Ek. rewrite <- surjective_pairing in Hin. auto.
    - intros b' pd Dp. cbn. unfold die_freq.
      destruct (V' _ _ _ _ _ (dom_file pd (ukey_of b') true Dp)) as [_ [->|(_ & X & _)]]; [reflexivity|discriminate].
  Qed.

  Lemma unlockable_quiet s s' : uquiet s s' -> unlockable e J s -> unlockable e J s'.
  Proof. intros (_ & [L _] & Q) U Hu Hl. rewrite L in Hl. auto. Qed.

  Lemma uncore_history (all : list (Z * Z)) ops s : start_ok fresh e s -> unlockable e J s -> Forall dom all ->
    (forall pd, In pd all -> limited v s pd) ->
    Forall (fun op => incl (snd op) all) ops ->
    forall pd, In pd all -> limited v (freq_history (uncore_io io e) ops s) pd /\
      forall b, v_limit v (freq_history (uncore_io io e) ops s) b pd = v_limit v s b pd.
  Proof.
    intros G U D L O. rewrite Forall_forall in D.
    set (good := fun s => start_ok fresh e s /\ unlockable e J s).
    assert (R : relied v (uncore_io io e) (fun s s' => uncore_same view s s' /\ uquiet s s') good (fun pd => In pd all) die_khz (die_taken J)).
    { apply (relied_less _ _ _ _ dom); [exact D|]. destruct uncore_relied as [R1 R2 R3 R4 R5 R6 R7 R8 R9].
      assert (X : forall (m : M (ust W) Z) w r, (exists w', m w = (r, w') /\ (uncore_same view w w' /\ uquiet w w') /\ start_ok fresh e w') ->
        unlockable e J w -> exists w', m w = (r, w') /\ (uncore_same view w w' /\ uquiet w w') /\ good w').
      { intros m w r (w' & E & Q & G') Uw. exists w'. split; [exact E|]. split; [exact Q|]. split; [exact G'|].
        now apply (unlockable_quiet w); [apply Q|]. }
      constructor; auto.
      - intros w b key [Gw Uw] Dk. apply X; auto.
      - intros w b key [Gw Uw] Dk. apply X; auto.
      - intros w sp key [Gw Uw] Dk. apply X; auto.
      - intros w w' b f keys [Gw Uw] Dk E. destruct (R8 w w' b f keys Gw Dk E) as (A1 & A2). split; [|exact A2].
        split; [exact A1|]. apply (unlock_later w).
        destruct (post_run _ _ _ _ _ _ (uset_post b f keys w Gw Dk) E) as (_ & _ & _ & _ & A5). exact A5.
      - intros w b f keys [Gw Uw]. now apply R9. }
    assert (Fc : fails_cleanly v (uncore_io io e) good (fun pd => In pd all) die_khz).
    { intros w1 w2 b f keys x [G1 U1] K1 O1 E1.
      assert (S1 : Forall dom keys) by (rewrite Forall_forall in *; auto).
      destruct (uset_clean b f keys w1 w2 x G1 U1 S1 E1) as (A1 & A2 & A3).
      split; [exact A1|]. split; intros b' c Hc; [apply A2|apply A3]; auto. }
    assert (M : forall lim w b pd x, die_freq view dirof lim w b pd = Ok x -> die_khz pd x = x).
    { intros lim w b pd x H. unfold die_freq in H. destruct (view _ _); [|discriminate]. injection H as <-.
      unfold die_khz. rewrite Z.div_mul; lia. }
    assert (O' : Forall (fun op => Forall (fun c => In c all) (snd op)) ops).
    { rewrite Forall_forall in *. intros op Hop. apply Forall_forall. exact (O op Hop). }
    destruct (history_sane _ _ _ _ _ _ _ die_dec R ops s Fc) as (S & Lm & X).
    - split.
      + intros key x y _ H. unfold die_khz. apply Z.mul_le_mono_nonneg_r; [lia|]. apply Z.div_le_mono; lia.
      + intros w b key x _ _ H. exact (M _ _ _ _ _ H).
    - split; [split; assumption|]. intros c Hc. destruct (L c Hc) as (lo & hi & mn & mx & _ & _ & E1 & E2 & _ & Hle & _).
      exists mn, mx. auto.
    - exact O'.
    - intros c Hc. split; [|intros b; now apply Lm]. apply X; [|exact Hc|now apply L].
      intros w b key x _ _ H. exact (M _ _ _ _ _ H).
  Qed.

  (** ** One setting *)
  Lemma die_refused b val dies s : start_ok fresh e s -> Forall dom dies -> ~ acceptable v s b val dies ->
    exists x s', set_freq (uncore_io io e) b val dies s = (Exn x, s') /\ uncore_same view s s' /\
      (readable v s b val dies -> x = EFreqRange \/ x = EFreqOrder).
  Proof.
    intros G D N. destruct (set_freq_run _ _ _ _ _ _ _ uncore_relied b val dies s G D)
      as (r & w' & E & [(A & _)|(_ & Q & G1 & x & -> & X & _)]); [tauto|].
    exists x, w'. split; [exact E|]. split; [apply Q|exact X].
  Qed.

  Lemma die_exact b val dies s s' : start_ok fresh e s -> Forall dom dies ->
    set_freq (uncore_io io e) b val dies s = (Ok tt, s') ->
    acceptable v s b val dies /\ exactly_set v dom die_khz b val dies s s' /\ start_ok fresh e s'.
  Proof.
    intros G D E. destruct (set_freq_run _ _ _ _ _ _ _ uncore_relied b val dies s G D)
      as (r & w1 & E1 & [(A & X & _)|(_ & Q & G1 & x & -> & _)]); rewrite E in E1; [|discriminate].
    apply pair_equal_spec in E1 as [<- <-]. destruct (X eq_refl) as (G1 & Ex & _). auto.
  Qed.

  Lemma die_succeeds b val dies s : start_ok fresh e s -> Forall dom dies -> acceptable v s b val dies ->
    J (us_w s) ->
    exists s', set_freq (uncore_io io e) b val dies s = (Ok tt, s').
  Proof.
    intros G D A Hj. destruct (set_freq_run _ _ _ _ _ _ _ uncore_relied b val dies s G D)
      as (r & w' & E & [(_ & _ & X)|(N & _)]); [|tauto].
    exists w'. rewrite E. f_equal. apply X. intros c f Hc Hm. exact Hj.
  Qed.

  (** ** Both, without a transaction *)
  Section Pair.
    Variables (m : Z) (rest : list (Z * freq_io (ust W) (Z * Z))) (dies : list (Z * Z)) (u : bool).
    Variable setp : pname -> fval -> M (ust W) Z.
    Hypothesis Hs : set_with ((m, uncore_io io e) :: rest) dies u setp.
    Variables start commit : M (ust W) unit.
    Hypothesis Hst : forall s, start s = (Ok tt, s).
    Hypothesis Hco : forall s, commit s = (Ok tt, s).
    Variables mn mx : Z.
    Hypothesis Hle : mn <= mx.
    Hypothesis Hx : mn / 1000 * 1000 = mn /\ mx / 1000 * 1000 = mx.
    Hypothesis D : Forall dom dies.
    Variable s : ust W.
    Hypothesis G : start_ok fresh e s.
    Hypothesis Hlim : forall c, In c dies -> limited v s c /\ in_limits v s c mn /\ in_limits v s c mx.
    Hypothesis Hj : J (us_w s).

    Let Hx' : exact die_khz dies mn /\ exact die_khz dies mx.
    Proof. split; intros c _; apply Hx. Qed.

    Let Lv : forall c, In c dies -> die_taken J s true mn c /\ die_taken J s false mx c.
    Proof. intros c _. split; exact Hj. Qed.

    Lemma die_min_first :
      (forall c, In c dies -> in_order v s true c mn) \/ (forall c, In c dies -> in_order v s false c mx) ->
      exists l s', set_props setp start commit [(PFreq u true, VNum mn); (PFreq u false, VNum mx)] s = (Ok l, s') /\
        start_ok fresh e s' /\ both_set v dom dies mn mx s s'.
    Proof.
      intros Ho. destruct (min_first_l _ _ _ _ _ _ _ uncore_relied m rest dies u setp Hs mn mx Hle s G D Hx' Hlim Lv) as (r & s' & E & X).
      destruct X as [(Er & G' & B)|(_ & _ & N1 & N2)]; [|tauto].
      assert (El : exists l, r = Ok l) by (destruct Er as [-> | ->]; eauto). destruct El as (l & ->).
      exists l, s'. split; [|auto]. unfold set_props, mbind. cbn [map fst]. rewrite Hst, E, Hco. reflexivity.
    Qed.

    Lemma die_max_first :
      exists r s', set_props setp start commit [(PFreq u false, VNum mx); (PFreq u true, VNum mn)] s = (r, s') /\
        ((exists l, r = Ok l) /\ start_ok fresh e s' /\ both_set v dom dies mn mx s s' \/
         r = Exn EFreqOrder /\ uncore_same view s s' /\ ~ (forall c, In c dies -> in_order v s false c mx)).
    Proof.
      destruct (max_first_l _ _ _ _ _ _ _ uncore_relied m rest dies u setp Hs mn mx Hle s G D Hx' Hlim Lv) as (r & s' & E & X).
      exists r, s'. destruct X as [(-> & G' & B)|(-> & [Q _] & N1)].
      - split; [unfold set_props, mbind; cbn [map fst]; rewrite Hst, E, Hco; reflexivity|]. left. split; [eauto|auto].
      - split; [unfold set_props, mbind; cbn [map fst]; rewrite Hst, E; reflexivity|]. right. auto.
    Qed.
  End Pair.

  (** ** Restoring *)
  Lemma die_restore m rest u setn start commit s0 s dies sav b1 pre g1 mid g2 suf :
    restored_with ((m, uncore_io io e) :: rest) u setn ->
    (forall s : ust W, start s = (Ok tt, s)) -> (forall s : ust W, commit s = (Ok tt, s)) ->
    Forall dom dies ->
    (forall c, In c dies -> limited v s0 c /\ forall b, v_cur v s0 b c = Ok (sav b c)) ->
    start_ok fresh e s -> J (us_w s) ->
    (forall c, In c dies -> limited v s c /\ (forall b, v_limit v s b c = v_limit v s0 b c)) ->
    (forall pv, In pv (pre ++ mid ++ suf) -> (forall b, fst pv <> PFreq u b) /\
       unrelated v (start_ok fresh e) dom (die_taken J) setn (fst pv)) ->
    groups_of sav b1 dies g1 -> groups_of sav (negb b1) dies g2 ->
    exists s', restore_props start commit setn VMin VMax
        (pre ++ (PFreq u b1, g1) :: mid ++ (PFreq u (negb b1), g2) :: suf) s = (Ok tt, s') /\ start_ok fresh e s' /\
      (forall b c, In c dies -> v_cur v s' b c = v_cur v s0 b c) /\
      (forall b c, dom c -> ~ In c dies -> v_cur v s' b c = v_cur v s b c) /\
      (forall b c, dom c -> v_limit v s' b c = v_limit v s b c).
  Proof.
    intros Hr Hst Hco D S0 G Hj S1 Hn Hg1 Hg2.
    assert (RM : forall key x y, dom key -> x <= y -> die_khz key x <= die_khz key y).
    { intros key x y _ H. unfold die_khz. apply Z.mul_le_mono_nonneg_r; [lia|]. apply Z.div_le_mono; lia. }
    assert (Hnn : forall l, incl l (pre ++ mid ++ suf) ->
      Forall (neutral v (start_ok fresh e) dom (die_taken J) u setn) l).
    { intros l Hl. apply Forall_forall. intros pv Hin. exact (Hn pv (Hl pv Hin)). }
    destruct (restore_l _ _ _ _ _ _ _ die_dec uncore_relied m rest dies u setn Hr sav D
      RM b1 pre g1 mid g2 suf s G) as (w' & E & G' & X1 & X2 & X3).
    - intros c Hin. destruct (S0 c Hin) as ((lo & hi & mn & mx & A1 & A2 & A3 & A4 & A5 & A6 & A7) & A8).
      destruct (S1 c Hin) as (B1 & B2).
      rewrite A8 in A3, A4. injection A3 as <-. injection A4 as <-.
      split; [|split; [exact A6|]].
      + intros b. split; [|split; [|exact Hj]].
        * exists lo, hi. rewrite !B2. split; [exact A1|]. split; [exact A2|]. destruct b; lia.
        * pose proof (A8 b) as X. cbn in X. unfold die_freq in X. destruct (view _ _); [|discriminate].
          injection X as <-. unfold die_khz. rewrite Z.div_mul; lia.
      + intros b f _. exact Hj.
    - intros c Hin. now apply S1.
    - apply Hnn. intros x Hx. apply in_or_app. now left.
    - apply Hnn. intros x Hx. apply in_or_app. right. apply in_or_app. now left.
    - apply Hnn. intros x Hx. apply in_or_app. right. apply in_or_app. now right.
    - exact Hg1.
    - exact Hg2.
    - exists w'. split; [unfold restore_props, mbind; rewrite Hst, E; apply Hco|]. split; [exact G'|]. split; [|auto].
      intros b c Hin. rewrite X1 by exact Hin. symmetry. now apply S0.
  Qed.
End L.
