(** Lemmas about reading and setting uncore frequencies, and about unlocking. *)
From Verif Require Import Base L_Base L_Monad M_Text S_Text L_Text M_Kver M_Sysfs M_Uncore S_Uncore L_Uncore.
From Coq Require Import ZifyBool.

(** Writes of 'v' to the file are not refused. *)
Definition accepts {W} (io : uio W) (f : str) (v : Z) : Prop :=
  forall w, exists w', u_wr io f v w = (Ok tt, w').

Section IO.
  Context {W : Type}.
  Variable io : uio W.
  Variable view : W -> str -> res Z.
  Variable fresh : W -> str -> Prop.
  Variable related : str -> str -> Prop.
  Variable e : uenv.
  Hypothesis Hio : behaves io view fresh related.
  Hypothesis Hrel : forall f g, related f g -> tpmi_related e f g.
  Hypothesis Hw : well_shown e.

  (** All the files but some are as before. *)
  Definition kept (but : str -> Prop) (s s' : ust W) : Prop :=
    forall q, ~ but q -> view (us_w s') q = view (us_w s) q /\ (fresh (us_w s) q -> fresh (us_w s') q).

  Lemma kept_refl but s : kept but s s.
  Proof. intros q _. now split. Qed.

  Lemma kept_trans but a b c : kept but a b -> kept but b c -> kept but a c.
  Proof.
    intros H G q Hq. destruct (H q Hq), (G q Hq). split; [congruence|auto].
  Qed.

  Lemma kept_weak (but but' : str -> Prop) a b : (forall q, but q -> but' q) -> kept but a b -> kept but' a b.
  Proof. intros Hb H q Hq. apply H. intros X. apply Hq. auto. Qed.

  (** What else stays. *)
  Definition tame (s s' : ust W) : Prop := us_unlocked s' = us_unlocked s /\ (known e s -> known e s').

  Lemma tame_refl s : tame s s.
  Proof. now split. Qed.

  Lemma tame_trans a b c : tame a b -> tame b c -> tame a c.
  Proof. intros [H1 H2] [G1 G2]. split; [congruence|auto]. Qed.

  Definition nothing (_ : str) : Prop := False.

  (** Why an exception was raised: a file that cannot be read, or a refused write. *)
  Definition refused : Prop := exists f v, driver_file e f /\ ~ accepts io f v.

  Definition blame (s : ust W) (x : exc) : Prop :=
    (exists f, driver_file e f /\ view (us_w s) f = Exn x) \/ refused.

  Lemma blame_kept s s' x : kept nothing s s' -> blame s' x -> blame s x.
  Proof.
    intros H [(f & H1 & H2)|X]; [left|now right]. exists f. split; [exact H1|].
    destruct (H f ltac:(intros [])). congruence.
  Qed.

  Lemma die_driver p d key lim f : die_file e p d key lim f -> driver_file e f.
  Proof. intros H. left. now exists p, d, key, lim. Qed.

  Lemma rd_post p s :
    post (on_w (u_rd io p)) s
      (fun v s' => (fresh (us_w s) p -> view (us_w s) p = Ok v) /\ kept nothing s s' /\ tame s s')
      (fun x s' => (fresh (us_w s) p -> view (us_w s) p = Exn x) /\ kept nothing s s' /\ tame s s').
  Proof.
    destruct Hio as (Hr & _). destruct (Hr p (us_w s)) as (r & w' & E & F & K).
    unfold post, on_w. rewrite E. destruct r; (split; [intros X; symmetry; auto|]); (split; [|now split]);
      intros q _; apply K.
  Qed.

  Lemma wr_post p v s :
    post (on_w (u_wr io p v)) s
      (fun _ s' => view (us_w s') p = Ok v /\ fresh (us_w s') p /\
                   kept (fun q => q = p \/ related p q) s s' /\ tame s s')
      (fun x s' => kept (fun q => q = p) s s' /\ tame s s' /\ ~ accepts io p v).
  Proof.
    destruct Hio as (_ & Ho & He). unfold post, on_w. destruct (u_wr io p v (us_w s)) as [[[]|x] w'] eqn:E.
    - destruct (Ho _ _ _ _ E) as (H1 & H2 & H3). cbn. repeat split; auto.
      + apply H3; intros X; apply H; auto.
      + apply H3; intros X; apply H; auto.
    - pose proof (He _ _ _ _ _ E) as H. split; [intros q Hq; apply H; auto|]. split; [now split|].
      intros Ha. destruct (Ha (us_w s)) as (w2 & E2). congruence.
  Qed.

  Lemma path_post key p d lim dir s : known e s -> shows e dir p d ->
    post (die_path e key p d lim) s
      (fun f s' => f = uncore_path dir key lim /\ us_w s' = us_w s /\ tame s s') (fun _ _ => False).
  Proof.
    intros Hk Hs. destruct (die_path_run e Hw key p d lim dir s Hk Hs) as (s' & E & H1 & H2 & H3).
    unfold post. rewrite E. repeat split; auto.
  Qed.

  Lemma npath_post key p d lim dir s : known e s -> shows e dir p d ->
    post (new_path e key p d lim) s
      (fun f s' => f = uncore_path dir key lim /\ us_w s' = us_w s /\ tame s s') (fun _ _ => False).
  Proof.
    intros Hk Hs. unfold post. rewrite (new_path_run e Hw key p d lim dir s Hk Hs). repeat split.
    intros _. apply knowing_known.
  Qed.

  Lemma same_w_kept s s' but : us_w s' = us_w s -> kept but s s'.
  Proof. intros E q _. rewrite E. now split. Qed.

  Lemma shows_fun dir dir' p d : shows e dir p d -> shows e dir' p d -> dir = dir'.
  Proof. destruct Hw as (_ & _ & _ & H). apply H. Qed.

  Lemma shows_pos dir p d : shows e dir p d -> 0 <= p /\ 0 <= d.
  Proof. destruct Hw as (_ & _ & H & _). apply H. Qed.

  Lemma die_related p d key f g : die_file e p d key false f -> related f g ->
    g = legacy_path key p 0 false /\ use_new_api e = true.
  Proof.
    intros Hf Hr. apply Hrel in Hr as (Hu & p' & d' & key' & [[-> Hg]|[-> Hf']]).
    - pose proof Hg as (dir & Hd & _). destruct (shows_pos _ _ _ Hd).
      exfalso. eapply (new_die_not_legacy e Hw); [exact Hu|..|exact Hf|reflexivity]; lia.
    - destruct (die_file_one e Hw _ _ _ _ _ _ _ _ _ Hf Hf') as (-> & -> & -> & _). auto.
  Qed.

  Lemma legacy_related p key g : 0 <= p -> related (legacy_path key p 0 false) g ->
    exists d, die_file e p d key false g.
  Proof.
    intros Hp Hr. apply Hrel in Hr as (Hu & p' & d' & key' & [[E Hg]|[_ Hf]]).
    - pose proof Hg as (dir & Hd & _). destruct (shows_pos _ _ _ Hd).
      apply (legacy_path_inj) in E as (-> & -> & _); auto. now exists d'.
    - exfalso. eapply (new_die_not_legacy e Hw); [exact Hu|..|exact Hf|reflexivity]; lia.
  Qed.

  (** ** Reading *)
  Lemma get_freq_dies_post key dies lim s : known e s ->
    (forall p d, In (p, d) (each_die dies) -> exists dir, shows e dir p d) ->
    (forall p d f, In (p, d) (each_die dies) -> die_file e p d key lim f -> fresh (us_w s) f) ->
    post (get_freq_dies io e key dies lim) s
      (fun l s' => kept nothing s s' /\ tame s s' /\ map fst l = each_die dies /\
         forall p d v, In (p, d, v) l -> exists f n, die_file e p d key lim f /\
           view (us_w s) f = Ok n /\ v = n * 1000)
      (fun x s' => kept nothing s s' /\ tame s s' /\
         exists p d f, In (p, d) (each_die dies) /\ die_file e p d key lim f /\ view (us_w s) f = Exn x).
  Proof.
    intros Hk Hs Hf. unfold get_freq_dies.
    apply (post_mmap _ (fun done l s' => kept nothing s s' /\ tame s s' /\ map fst l = done /\
       forall p d v, In (p, d, v) l -> exists f n, die_file e p d key lim f /\
           view (us_w s) f = Ok n /\ v = n * 1000)).
    - intros pre [p d] rest El l s1 (K1 & T1 & M1 & V1). cbn [fst snd].
      assert (Hin : In (p, d) (each_die dies)) by (rewrite El; apply in_or_app; right; now left).
      destruct (Hs p d Hin) as (dir & Hd). apply post_bind.
      eapply post_conseq; [apply (path_post key p d lim dir s1); [now apply T1|exact Hd]| |intros ? ? []].
      intros f s2 (-> & W2 & T2). apply post_bind.
      assert (K12 : kept nothing s s2) by (eapply kept_trans; [exact K1|now apply same_w_kept]).
      assert (Fr : fresh (us_w s2) (uncore_path dir key lim)).
      { apply K12; [intros []|]. apply (Hf p d); [exact Hin|]. now exists dir. }
      assert (Vw : view (us_w s2) (uncore_path dir key lim) = view (us_w s) (uncore_path dir key lim))
        by (apply K12; intros []).
      eapply post_conseq; [apply rd_post| |].
      + intros v s3 (R & K3 & T3). apply post_ret. split; [eapply kept_trans; eassumption|].
        split; [eapply tame_trans; [eassumption|eapply tame_trans; eassumption]|].
        split; [rewrite map_app, M1; reflexivity|].
        intros p' d' v' H. apply in_app_or in H as [H|[[= <- <- <-]|[]]]; [auto|].
        exists (uncore_path dir key lim), v. split; [now exists dir|]. split; [|reflexivity].
        rewrite <- Vw. auto.
      + intros x s3 (R & K3 & T3). split; [eapply kept_trans; eassumption|].
        split; [eapply tame_trans; [eassumption|eapply tame_trans; eassumption]|].
        exists p, d, (uncore_path dir key lim). split; [exact Hin|]. split; [now exists dir|].
        rewrite <- Vw. auto.
    - split; [apply kept_refl|]. split; [apply tame_refl|]. split; [reflexivity|]. intros p d v [].
  Qed.

  (** ** Writing the files of some dies *)
  Definition die_files (l : list (Z * Z)) (key : ukey) (f : str) : Prop :=
    exists p d, In (p, d) l /\ die_file e p d key false f.

  Definition pkg_files (f : str) : Prop := exists p key, package_file e p key f.

  Lemma set_loop_post freq key l s : known e s -> (forall p d, In (p, d) l -> exists dir, shows e dir p d) ->
    post (mfor l (fun pd => let! path := die_path e key (fst pd) (snd pd) false in
                            on_w (u_wr io path freq))) s
      (fun _ s' => kept (fun q => die_files l key q \/ pkg_files q) s s' /\ tame s s' /\
         forall p d f, In (p, d) l -> die_file e p d key false f ->
           view (us_w s') f = Ok freq /\ fresh (us_w s') f)
      (fun x s' => kept (fun q => die_files l key q \/ pkg_files q) s s' /\ tame s s' /\ refused).
  Proof.
    intros Hk Hs.
    set (but := fun q => die_files l key q \/ pkg_files q).
    apply (post_mfor _ (fun done s' => kept but s s' /\ tame s s' /\
         forall p d f, In (p, d) done -> die_file e p d key false f ->
           view (us_w s') f = Ok freq /\ fresh (us_w s') f)).
    - intros pre [p d] rest El s1 (K1 & T1 & V1). cbn [fst snd].
      assert (Hin : In (p, d) l) by (rewrite El; apply in_or_app; right; now left).
      destruct (Hs p d Hin) as (dir & Hd).
      assert (Hf : die_file e p d key false (uncore_path dir key false)) by now exists dir.
      apply post_bind. eapply post_conseq; [apply (path_post key p d false dir s1); [now apply T1|exact Hd]| |intros ? ? []].
      intros f s2 (-> & W2 & T2).
      assert (K12 : kept but s s2) by (eapply kept_trans; [exact K1|now apply same_w_kept]).
      assert (Hb : forall q, q = uncore_path dir key false \/ related (uncore_path dir key false) q -> but q).
      { intros q [->|Hr]; [left; exists p, d; auto|]. right. destruct (die_related _ _ _ _ _ Hf Hr) as (-> & Hu).
        exists p, key. split; [exact Hu|]. split; [now exists dir, d|reflexivity]. }
      eapply post_conseq; [apply wr_post| |].
      + intros [] s3 (V3 & F3 & K3 & T3).
        split; [eapply kept_trans; [exact K12|eapply kept_weak; [exact Hb|exact K3]]|].
        split; [eapply tame_trans; [eassumption|eapply tame_trans; eassumption]|].
        intros p' d' f H Hf'. destruct (list_eq_dec ascii_dec f (uncore_path dir key false)) as [->|Hne].
        { now split. }
        assert (Hnot : ~ (f = uncore_path dir key false \/ related (uncore_path dir key false) f)).
        { intros [X|Hr]; [now apply Hne|]. destruct (die_related _ _ _ _ _ Hf Hr) as (-> & Hu).
          destruct (shows_pos _ _ _ Hd). destruct Hf' as (dir' & Hd' & E').
          eapply (new_die_not_legacy e Hw p' d' key false key p 0 false); [exact Hu|lia|lia| |reflexivity].
          now exists dir'. }
        destruct (K3 f Hnot) as [Kv Kf].
        apply in_app_or in H as [H|[[= <- <-]|[]]].
        * destruct (V1 p' d' f H Hf') as [A B]. rewrite <- W2 in A, B. split; [congruence|auto].
        * exfalso. apply Hne. destruct Hf' as (dir' & Hd' & ->). now rewrite (shows_fun _ _ _ _ Hd' Hd).
      + intros x s3 (K3 & T3 & B3).
        split; [eapply kept_trans; [exact K12|eapply kept_weak; [|exact K3]]|].
        { intros q ->. apply Hb. now left. }
        split; [eapply tame_trans; [eassumption|eapply tame_trans; eassumption]|].
        exists (uncore_path dir key false), freq. split; [|exact B3]. eapply die_driver, Hf.
    - split; [apply kept_refl|]. split; [apply tame_refl|]. intros p d f [].
  Qed.

  (** ** Unlocking *)
  Lemma saved_post p key dies s : known e s -> (forall d, In d dies -> exists dir, shows e dir p d) ->
    (forall d f, In d dies -> die_file e p d key false f -> fresh (us_w s) f) ->
    post (mmap dies (fun die => let! path := new_path e key p die false in
                                let! f := on_w (u_rd io path) in ret (path, f))) s
      (fun l s' => kept nothing s s' /\ tame s s' /\
         (forall d f, In d dies -> die_file e p d key false f -> In f (map fst l)) /\
         forall f v, In (f, v) l -> (exists d, In d dies /\ die_file e p d key false f) /\
                                    view (us_w s) f = Ok v)
      (fun x s' => kept nothing s s' /\ tame s s' /\
         exists d f, In d dies /\ die_file e p d key false f /\ view (us_w s) f = Exn x).
  Proof.
    intros Hk Hs Hf.
    apply (post_mmap _ (fun done l s' => kept nothing s s' /\ tame s s' /\
         (forall d f, In d done -> die_file e p d key false f -> In f (map fst l)) /\
         forall f v, In (f, v) l -> (exists d, In d dies /\ die_file e p d key false f) /\
                                    view (us_w s) f = Ok v)).
    - intros pre d rest El l s1 (K1 & T1 & M1 & V1).
      assert (Hin : In d dies) by (rewrite El; apply in_or_app; right; now left).
      destruct (Hs d Hin) as (dir & Hd). apply post_bind.
      eapply post_conseq; [apply (npath_post key p d false dir s1); [now apply T1|exact Hd]| |intros ? ? []].
      intros f s2 (-> & W2 & T2). apply post_bind.
      assert (K12 : kept nothing s s2) by (eapply kept_trans; [exact K1|now apply same_w_kept]).
      assert (Fr : fresh (us_w s2) (uncore_path dir key false)).
      { apply K12; [intros []|]. apply (Hf d); [exact Hin|]. now exists dir. }
      assert (Vw : view (us_w s2) (uncore_path dir key false) = view (us_w s) (uncore_path dir key false))
        by (apply K12; intros []).
      eapply post_conseq; [apply rd_post| |].
      + intros v s3 (R & K3 & T3). apply post_ret. split; [eapply kept_trans; eassumption|].
        split; [eapply tame_trans; [eassumption|eapply tame_trans; eassumption]|].
        rewrite map_app. cbn [map fst]. split.
        * intros d' f Hd' Hf'. apply in_or_app. apply in_app_or in Hd' as [Hd'|[<-|[]]]; [left; eapply M1; eassumption|].
          right. left. destruct Hf' as (dir' & Hd' & ->). now rewrite (shows_fun _ _ _ _ Hd' Hd).
        * intros f v' H. apply in_app_or in H as [H|[[= <- <-]|[]]]; [auto|]. split.
          -- exists d. split; [exact Hin|now exists dir].
          -- rewrite <- Vw. auto.
      + intros x s3 (R & K3 & T3). split; [eapply kept_trans; eassumption|].
        split; [eapply tame_trans; [eassumption|eapply tame_trans; eassumption]|].
        exists d, (uncore_path dir key false). split; [exact Hin|]. split; [now exists dir|].
        rewrite <- Vw. auto.
    - split; [apply kept_refl|]. split; [apply tame_refl|]. split; [intros d f []|intros f v []].
  Qed.

  (** Writing the saved values back. *)
  Lemma restore_post p key (l : list (str * Z)) s :
    (forall f v, In (f, v) l -> exists d, die_file e p d key false f) ->
    (forall f v v', In (f, v) l -> In (f, v') l -> v = v') ->
    post (mfor l (fun pf => on_w (u_wr io (fst pf) (snd pf)))) s
      (fun _ s' => kept (fun q => In q (map fst l) \/
                          (exists f, In f (map fst l) /\ related f q)) s s' /\ tame s s' /\
         forall f v, In (f, v) l -> view (us_w s') f = Ok v /\ fresh (us_w s') f)
      (fun x s' => kept (fun q => In q (map fst l) \/ (exists f, In f (map fst l) /\ related f q)) s s' /\ tame s s' /\ refused).
  Proof.
    intros Hl Hfun.
    set (but := fun q => In q (map fst l) \/ (exists f, In f (map fst l) /\ related f q)).
    apply (post_mfor _ (fun done s' => kept but s s' /\ tame s s' /\
         forall f v, In (f, v) done -> view (us_w s') f = Ok v /\ fresh (us_w s') f)).
    - intros pre [f v] rest El s1 (K1 & T1 & V1). cbn [fst snd].
      assert (Hin : In (f, v) l) by (rewrite El; apply in_or_app; right; now left).
      assert (Hinf : In f (map fst l)) by (apply in_map_iff; now exists (f, v)).
      eapply post_conseq; [apply wr_post| |].
      + intros [] s3 (V3 & F3 & K3 & T3).
        split; [eapply kept_trans; [exact K1|eapply kept_weak; [|exact K3]]|].
        { intros q [->|Hr]; [now left|]. right. now exists f. }
        split; [eapply tame_trans; eassumption|].
        intros f' v' H.
        destruct (list_eq_dec ascii_dec f' f) as [->|Hne].
        { assert (v' = v) as ->; [|now split]. apply (Hfun f); [|exact Hin].
          rewrite El. apply in_or_app. apply in_app_or in H as [H|[H|[]]]; [now left|right; now left]. }
        apply in_app_or in H as [H|[[= <- <-]|[]]]; [|congruence].
        assert (Hin' : In (f', v') l) by (rewrite El; apply in_or_app; now left).
        assert (Hnot : ~ (f' = f \/ related f f')).
        { intros [X|Hr]; [contradiction|]. destruct (Hl _ _ Hin) as (d & Hd).
          destruct (die_related _ _ _ _ _ Hd Hr) as (E & Hu). destruct (Hl _ _ Hin') as (d' & Hd').
          pose proof Hd as (dir & Sd & _). destruct (shows_pos _ _ _ Sd).
          eapply (new_die_not_legacy e Hw p d' key false key p 0 false f'); [exact Hu|lia|lia|exact Hd'|exact E]. }
        destruct (K3 f' Hnot) as [Kv Kf]. destruct (V1 f' v' H) as [A B]. split; [congruence|auto].
      + intros x s3 (K3 & T3 & B3).
        split; [eapply kept_trans; [exact K1|eapply kept_weak; [|exact K3]]|].
        { intros q ->. now left. }
        split; [eapply tame_trans; eassumption|].
        exists f, v. split; [|exact B3]. destruct (Hl f v Hin) as (d & Hd). eapply die_driver, Hd.
    - split; [apply kept_refl|]. split; [apply tame_refl|]. intros f v [].
  Qed.

  Definition one_file (p : Z) (key : ukey) (q : str) : Prop := q = legacy_path key p 0 false.

  (** One package, one key. *)
  Lemma unlock_one_post p key dies s : use_new_api e = true -> known e s ->
    (forall d, In d dies <-> exists dir, shows e dir p d) -> 0 <= p ->
    (exists dir d, shows e dir p d) ->
    fresh (us_w s) (legacy_path key p 0 true) -> fresh (us_w s) (legacy_path key p 0 false) ->
    (forall d f, die_file e p d key false f -> fresh (us_w s) f) ->
    post (unlock_one io e p dies key) s
      (fun _ s' => kept (one_file p key) s s' /\ tame s s' /\
         ((forall d f, die_file e p d key false f -> ~ related f (legacy_path key p 0 false)) ->
          view (us_w s') (legacy_path key p 0 false) = view (us_w s) (legacy_path key p 0 true)))
      (fun x s' => kept (fun q => one_file p key q \/ exists d, die_file e p d key false q) s s' /\ tame s s' /\
         (refused \/ exists f, (one_file p key f \/ f = legacy_path key p 0 true \/
            exists d, die_file e p d key false f) /\ view (us_w s) f = Exn x)).
  Proof.
    intros Hu Hk Hd Hp (dir0 & d0 & Sh0) F1 F2 F3. 
    assert (DL : forall b, driver_file e (legacy_path key p 0 b)).
    { intros b. right. now exists dir0, p, d0, key, b. }
    set (lim := legacy_path key p 0 true). set (leg := legacy_path key p 0 false).
    assert (Hll : lim <> leg).
    { intros X. apply legacy_path_inj in X as (_ & _ & X); auto. discriminate. }
    unfold unlock_one. fold lim leg. apply post_bind. eapply post_conseq; [apply rd_post| |].
    2:{ intros x s1 (R1 & K1 & T1). split; [eapply kept_weak; [|exact K1]; intros q []|].
        split; [exact T1|]. right. exists lim. split; [right; now left|auto]. }
    intros fl s1 (R1 & K1 & T1). specialize (R1 F1). apply post_bind.
    eapply post_conseq; [apply rd_post| |].
    2:{ intros x s2 (R2 & K2 & T2). split; [eapply kept_weak; [|eapply kept_trans; eassumption]; intros q []|].
        split; [eapply tame_trans; eassumption|]. right. exists leg. split; [now left|].
        destruct (K1 leg ltac:(intros [])) as [A B]. rewrite <- A. auto. }
    intros fr s2 (R2 & K2 & T2).
    assert (K12 : kept nothing s s2) by (eapply kept_trans; eassumption).
    assert (T12 : tame s s2) by (eapply tame_trans; eassumption).
    assert (Rleg : view (us_w s) leg = Ok fr).
    { destruct (K1 leg ltac:(intros [])) as [A B]. rewrite <- A. auto. }
    destruct (fr =? fl) eqn:Efr.
    { apply post_ret. split; [eapply kept_weak; [|exact K12]; intros q []|]. split; [exact T12|].
      intros _. destruct (K12 leg ltac:(intros [])) as [A _]. rewrite A, Rleg, R1. f_equal. lia. }
    apply post_bind. eapply post_conseq.
    { apply (saved_post p key dies s2).
      - now apply T12.
      - intros d Hin. now apply Hd.
      - intros d f _ Hf. apply K12; [intros []|]. eapply F3; exact Hf. }
    2:{ intros x s3 (K3 & T3 & d & f & _ & Hf & Ev).
        split; [eapply kept_weak; [|eapply kept_trans; [exact K12|exact K3]]; intros q []|].
        split; [eapply tame_trans; eassumption|]. right. exists f. split; [right; right; now exists d|].
        destruct (K12 f ltac:(intros [])) as [A _]. congruence. }
    intros l s3 (K3 & T3 & M3 & V3).
    assert (K13 : kept nothing s s3) by (eapply kept_trans; eassumption).
    assert (T13 : tame s s3) by (eapply tame_trans; eassumption).
    assert (V13 : forall f v, In (f, v) l -> (exists d, die_file e p d key false f) /\ view (us_w s) f = Ok v).
    { intros f v H. destruct (V3 f v H) as [(d & _ & Hf) Hv]. split; [now exists d|].
      destruct (K12 f ltac:(intros [])) as [A _]. congruence. }
    apply post_bind. eapply post_conseq; [apply wr_post| |].
    2:{ intros x s4 (K4 & T4 & B4). split; [|split; [eapply tame_trans; eassumption|]].
        2:{ left. exists leg, fl. split; [apply DL|exact B4]. }
        eapply kept_trans; [eapply kept_weak; [|exact K13]; intros q []|].
        eapply kept_weak; [|exact K4]. intros q ->. now left. }
    intros [] s4 (V4 & F4 & K4 & T4).
    assert (T14 : tame s s4) by (eapply tame_trans; eassumption).
    eapply post_conseq; [apply (restore_post p key l s4)| |].
    - intros f v H. exact (proj1 (V13 f v H)).
    - intros f v v' H H'. destruct (V13 f v H), (V13 f v' H'). congruence.
    - intros [] s5 (K5 & T5 & V5). split; [|split; [eapply tame_trans; eassumption|]].
      + intros q Hq.
        assert (Q : (exists v, In (q, v) l) \/ ~ In q (map fst l)).
        { destruct (in_dec (list_eq_dec ascii_dec) q (map fst l)) as [X|X]; [left|now right].
          apply in_map_iff in X as ([q' v] & <- & Hv). now exists v. }
        destruct Q as [(v & Hv)|Hn].
        { destruct (V5 q v Hv), (V13 q v Hv). split; [congruence|auto]. }
        assert (Hn5 : ~ (In q (map fst l) \/ (exists f, In f (map fst l) /\ related f q))).
        { intros [X|(f & Hf & Hr)]; [now apply Hn|]. apply in_map_iff in Hf as ([f' v] & Ef & Hv). cbn in Ef. subst f'.
          destruct (V13 f v Hv) as ((d & Hd') & _). destruct (die_related _ _ _ _ _ Hd' Hr) as (-> & _). now apply Hq. }
        assert (Hn4 : ~ (q = leg \/ related leg q)).
        { intros [X|Hr]; [now apply Hq|]. destruct (legacy_related p key q Hp Hr) as (d & Hd').
          apply Hn. apply (M3 d q); [|exact Hd']. apply Hd. destruct Hd' as (dir & H & _). now exists dir. }
        destruct (K5 q Hn5) as [A1 B1], (K4 q Hn4) as [A2 B2], (K13 q ltac:(intros [])) as [A3 B3].
        split; [congruence|auto].
      + intros Hno. rewrite R1. rewrite <- V4.
        assert (Hn5 : ~ (In leg (map fst l) \/ (exists f, In f (map fst l) /\ related f leg))).
        { intros [X|(f & Hf & Hr)].
          - apply in_map_iff in X as ([f' v] & Ef & Hv). cbn in Ef. subst f'.
            destruct (V13 leg v Hv) as ((d & Hd') & _).
            eapply (new_die_not_legacy e Hw p d key false key p 0 false leg); [exact Hu|lia|lia|exact Hd'|reflexivity].
          - apply in_map_iff in Hf as ([f' v] & Ef & Hv). cbn in Ef. subst f'.
            destruct (V13 f v Hv) as ((d & Hd') & _). eapply Hno; [exact Hd'|exact Hr]. }
        apply (K5 leg Hn5).
    - intros x s5 (K5 & T5 & B5). split; [|split; [eapply tame_trans; eassumption|]].
      2:{ now left. }
      eapply kept_trans; [eapply kept_weak; [|exact K13]; intros q []|].
      eapply kept_trans; (eapply kept_weak; [|eassumption]).
      + intros q [->|Hr]; [now left|]. right. eapply legacy_related; eassumption.
      + intros q [X|(f & Hf & Hr)].
        * apply in_map_iff in X as ([f' v] & Ef & Hv). cbn in Ef. subst f'. right. exact (proj1 (V13 q v Hv)).
        * apply in_map_iff in Hf as ([f' v] & Ef & Hv). cbn in Ef. subst f'.
          destruct (V13 f v Hv) as ((d & Hd') & _). destruct (die_related _ _ _ _ _ Hd' Hr) as (-> & _). now left.
  Qed.
  (** All the packages, both keys. *)
  Definition pk_pairs (info : dies_t) : list (Z * list Z * ukey) :=
    flat_map (fun pd => map (fun key => (pd, key)) [KMin; KMax]) info.

  Definition pk_body (x : Z * list Z * ukey) : M (ust W) unit := unlock_one io e (fst (fst x)) (snd (fst x)) (snd x).

  Lemma unlock_loop_eq info s :
    mfor info (fun pd => mfor [KMin; KMax] (unlock_one io e (fst pd) (snd pd))) s =
    mfor (pk_pairs info) pk_body s.
  Proof.
    unfold pk_pairs. rewrite mfor_flat_map. apply mfor_ext. intros pd s1 _. rewrite mfor_map. reflexivity.
  Qed.

  Lemma pk_pairs_In info p l key : In (p, l, key) (pk_pairs info) <-> In (p, l) info /\ (key = KMin \/ key = KMax).
  Proof.
    unfold pk_pairs. rewrite in_flat_map. split.
    - intros (pd & H & Hk). cbn in Hk. destruct Hk as [[= -> <-]|[[= -> <-]|[]]]; auto.
    - intros [H Hk]. exists (p, l). split; [exact H|]. cbn. destruct Hk as [-> | ->]; auto.
  Qed.

  Lemma pk_pairs_NoDup info : NoDup (map fst info) ->
    NoDup (map (fun x => (fst (fst x), snd x)) (pk_pairs info)).
  Proof.
    induction info as [|[p l] info IH]; intros H; [constructor|]. inversion_clear H.
    change (map _ (pk_pairs _)) with ((p, KMin) :: (p, KMax) :: map (fun x => (fst (fst x), snd x)) (pk_pairs info)).
    assert (Hn : forall key, ~ In (p, key) (map (fun x => (fst (fst x), snd x)) (pk_pairs info))).
    { intros key X. apply in_map_iff in X as ([[p' l'] k'] & [= -> ->] & X). apply pk_pairs_In in X as [X _].
      apply H0. apply in_map_iff. now exists (p, l'). }
    constructor; [|constructor; [apply Hn|now apply IH]].
    intros [X|X]; [discriminate|now apply Hn in X].
  Qed.

  Lemma pkg_split (done : list (Z * ukey)) q :
    (exists p key, In (p, key) done /\ one_file p key q) \/ ~ (exists p key, In (p, key) done /\ one_file p key q).
  Proof.
    induction done as [|[p key] done IH]; [right; intros (p & key & [] & _)|].
    destruct (list_eq_dec ascii_dec q (legacy_path key p 0 false)) as [->|Hne].
    - left. exists p, key. split; [now left|reflexivity].
    - destruct IH as [(p' & k' & H & H')|Hn]; [left; exists p', k'; split; [now right|exact H']|].
      right. intros (p' & k' & [[= <- <-]|H] & H'); [now apply Hne|]. apply Hn. now exists p', k'.
  Qed.

  Lemma unlock_post s : use_new_api e = true -> known e s -> us_unlocked s = false ->
    (forall f, driver_file e f -> fresh (us_w s) f) ->
    post (unlock_new_api io e) s
      (fun _ s' => kept pkg_files s s' /\ us_unlocked s' = true /\ known e s' /\
         ((forall p d key f, die_file e p d key false f -> ~ related f (legacy_path key p 0 false)) ->
          forall dir p d key, shows e dir p d -> key = KMin \/ key = KMax ->
            view (us_w s') (legacy_path key p 0 false) = view (us_w s) (legacy_path key p 0 true)))
      (fun x s' => kept (fun q => pkg_files q \/ exists p d key, die_file e p d key false q) s s' /\
         us_unlocked s' = false /\ known e s' /\ blame s x).
  Proof.
    intros Hu Hk Hl Hf. unfold unlock_new_api. apply post_bind, post_gets. rewrite Hl. apply post_bind.
    unfold post at 1. rewrite (get_built_run e Hw s Hk).
    destruct (found_facts e Hw) as (info & dm & Ef & (Hn1 & Hn2) & Hnn & Hhas & _).
    rewrite Ef. cbn [fst snd].
    set (s0 := knowing e s). assert (Ks0 : known e s0) by apply knowing_known.
    assert (W0 : us_w s0 = us_w s) by reflexivity.
    assert (Hpd : forall p l, In (p, l) info -> forall d, In d l <-> exists dir, shows e dir p d).
    { intros p l Hpl d. rewrite <- Hhas. split; [intros H; now exists l|].
      intros (l' & H1 & H2). assert (l' = l) as ->; [|exact H2].
      apply (In_dget _ Zeqb_spec) in H1; [|exact Hn1]. apply (In_dget _ Zeqb_spec) in Hpl; [|exact Hn1]. congruence. }
    assert (Hne : forall p l, In (p, l) info -> exists dir d, shows e dir p d).
    { intros p l Hpl. pose proof (Hnn p l Hpl). destruct l as [|d l]; [congruence|].
      destruct (proj1 (Hpd p _ Hpl d) (or_introl eq_refl)) as (dir & Hd). now exists dir, d. }
    assert (Hpos : forall p l, In (p, l) info -> 0 <= p).
    { intros p l H. destruct (Hne p l H) as (dir & d & Hd). now apply shows_pos in Hd. }
    set (I := fun (done : list (Z * list Z * ukey)) (s' : ust W) =>
        kept (fun q => exists p key, In (p, key) (map (fun x => (fst (fst x), snd x)) done) /\ one_file p key q) s0 s' /\
        tame s0 s' /\
        ((forall p d key f, die_file e p d key false f -> ~ related f (legacy_path key p 0 false)) ->
          forall p l key, In (p, l, key) done ->
            view (us_w s') (legacy_path key p 0 false) = view (us_w s) (legacy_path key p 0 true))).
    set (E := fun (x : exc) (s' : ust W) =>
         kept (fun q => pkg_files q \/ exists p d key, die_file e p d key false q) s s' /\
         us_unlocked s' = false /\ known e s' /\ blame s x).
    apply post_bind.
    assert (L : post (mfor (pk_pairs info) pk_body) s0 (fun _ s' => I (pk_pairs info) s') E).
    { apply (post_mfor _ I).
      - intros pre [[p l] key] rest El s1 (K1 & T1 & V1). unfold pk_body. cbn [fst snd].
        assert (Hin : In (p, l, key) (pk_pairs info)) by (rewrite El; apply in_or_app; right; now left).
        apply pk_pairs_In in Hin as [Hin Hkey]. pose proof (Hpos _ _ Hin) as Hp.
        assert (Hnew : ~ In (p, key) (map (fun x => (fst (fst x), snd x)) pre)).
        { pose proof (pk_pairs_NoDup info Hn1) as Hnd. rewrite El, map_app in Hnd. cbn [map fst snd] in Hnd.
          apply NoDup_remove_2 in Hnd. intros X. apply Hnd, in_or_app. now left. }
        assert (Hpre : forall p' key', In (p', key') (map (fun x => (fst (fst x), snd x)) pre) ->
                  exists l', In (p', l') info).
        { intros p' key' X. apply in_map_iff in X as ([[p'' l'] k'] & [= -> ->] & X). exists l'.
          assert (Y : In (p', l', key') (pk_pairs info)) by (rewrite El; apply in_or_app; now left).
          now apply pk_pairs_In in Y as [Y _]. }
        destruct (Hne _ _ Hin) as (dir0 & d0 & Sh0).
        assert (Hout : forall b, ~ (exists p' key', In (p', key') (map (fun x => (fst (fst x), snd x)) pre) /\
                       one_file p' key' (legacy_path key p 0 b))).
        { intros b (p' & key' & X & Y). destruct (Hpre _ _ X) as (l' & Hl').
          apply legacy_path_inj in Y as (-> & -> & _); eauto. }
        assert (Hdout : forall d key2 lim f, die_file e p d key2 lim f ->
                  ~ (exists p' key', In (p', key') (map (fun x => (fst (fst x), snd x)) pre) /\ one_file p' key' f)).
        { intros d key2 lim f Hd (p' & key' & X & Y). destruct (Hpre _ _ X) as (l' & Hl').
          eapply (new_die_not_legacy e Hw); [exact Hu| | |exact Hd|exact Y]; [now apply (Hpos p' l')|lia]. }
        assert (DL : forall b, driver_file e (legacy_path key p 0 b)).
        { intros b. right. now exists dir0, p, d0, key, b. }
        assert (Kv : forall b, view (us_w s1) (legacy_path key p 0 b) = view (us_w s) (legacy_path key p 0 b) /\
                               fresh (us_w s1) (legacy_path key p 0 b)).
        { intros b. destruct (K1 _ (Hout b)) as [A B]. rewrite W0 in A, B. split; [exact A|auto]. }
        eapply post_conseq.
        + apply (unlock_one_post p key l s1 Hu).
          * now apply T1.
          * now apply Hpd.
          * exact Hp.
          * now exists dir0, d0.
          * apply Kv.
          * apply Kv.
          * intros d f Hd. destruct (K1 f) as [_ B]; [eapply Hdout, Hd|]. apply B. rewrite W0. apply Hf.
            eapply die_driver, Hd.
        + intros [] s2 (K2 & T2 & V2). split; [|split; [eapply tame_trans; eassumption|]].
          * eapply kept_trans; [eapply kept_weak; [|exact K1]|eapply kept_weak; [|exact K2]].
            -- intros q (p' & k' & X & Y). exists p', k'. split; [rewrite map_app; apply in_or_app; now left|exact Y].
            -- intros q Y. exists p, key. split; [rewrite map_app; apply in_or_app; right; now left|exact Y].
          * intros Hno p' l' key' X. apply in_app_or in X as [X|[[= <- <- <-]|[]]].
            -- rewrite <- (V1 Hno p' l' key' X). apply K2. intros Y.
               assert (Z : In (p', key') (map (fun x => (fst (fst x), snd x)) pre))
                 by (apply in_map_iff; exists (p', l', key'); now split).
               destruct (Hpre _ _ Z) as (l2 & Hl2).
               apply legacy_path_inj in Y as (-> & -> & _); eauto.
            -- rewrite V2 by (intros; now apply (Hno p d key f)). apply Kv.
        + intros x s2 (K2 & T2 & B2). split; [|split; [destruct T1, T2; cbn in *; congruence|split]].
          * eapply (kept_trans _ s s0); [now apply same_w_kept|].
            eapply kept_trans; [eapply kept_weak; [|exact K1]|eapply kept_weak; [|exact K2]].
            -- intros q (p' & k' & X & Y). left. exists p', k'. destruct (Hpre _ _ X) as (l' & Hl').
               split; [exact Hu|]. split; [eapply Hne, Hl'|exact Y].
            -- intros q [Y|(d & Y)]; [left; exists p, key; split; [exact Hu|]; split; [now exists dir0, d0|exact Y]|].
               right. now exists p, d, key.
          * apply T2, T1, Ks0.
          * destruct B2 as [B2|(f & Df & Ev)]; [now right|left]. exists f.
            assert (Hdf : driver_file e f).
            { destruct Df as [X|[X|(d & X)]]; [rewrite X; apply DL..|]. eapply die_driver, X. }
            assert (Hn : ~ (exists p' key', In (p', key') (map (fun x => (fst (fst x), snd x)) pre) /\ one_file p' key' f)).
            { destruct Df as [X|[X|(d & X)]]; [rewrite X; apply Hout..|]. eapply Hdout, X. }
            split; [exact Hdf|]. destruct (K1 f Hn) as [A _]. rewrite W0 in A. congruence.
      - split; [apply kept_refl|]. split; [apply tame_refl|]. intros _ p l key []. }
    assert (L' : post (mfor info (fun pd => mfor [KMin; KMax] (unlock_one io e (fst pd) (snd pd)))) s0
                   (fun _ s' => I (pk_pairs info) s') E).
    { unfold post in *. rewrite unlock_loop_eq. exact L. }
    eapply post_conseq; [exact L'| |intros x s' H; exact H].
    intros [] s1 (K1 & T1 & V1). apply post_modify. cbn [us_w us_unlocked us_built].
    split; [|split; [reflexivity|split]].
    - intros q Hq. cbn [us_w]. rewrite <- W0. apply K1. intros (p & key & X & Y). apply Hq. exists p, key.
      apply in_map_iff in X as ([[p' l'] k'] & [= -> ->] & X). apply pk_pairs_In in X as [X _].
      split; [exact Hu|]. split; [eapply Hne, X|exact Y].
    - destruct T1 as [_ T1]. destruct (T1 Ks0) as [X|X]; [now left|now right].
    - intros Hno dir p d key Hs Hkey.
      destruct (proj2 (Hhas p d) (ex_intro _ dir Hs)) as (l & Hl1 & _).
      apply (V1 Hno p l). now apply pk_pairs_In.
  Qed.

  (** ** Setting *)
  Lemma set_freq_dies_post freq key dies s : known e s ->
    (forall p d, In (p, d) (each_die dies) -> exists dir, shows e dir p d) ->
    (us_unlocked s = false -> use_new_api e = true -> forall f, driver_file e f -> fresh (us_w s) f) ->
    post (set_freq_dies io e freq key dies) s
      (fun _ s' => kept (fun q => die_files (each_die dies) key q \/ pkg_files q) s s' /\ known e s' /\
         us_unlocked s' = (us_unlocked s || use_new_api e)%bool /\
         forall p d f, In (p, d) (each_die dies) -> die_file e p d key false f ->
           view (us_w s') f = Ok (freq / 1000) /\ fresh (us_w s') f)
      (fun x s' => known e s' /\ (use_new_api e = true /\ us_unlocked s = false /\ blame s x \/ refused)).
  Proof.
    intros Hk Hs Hf. unfold set_freq_dies. apply post_bind.
    assert (U : post (if use_new_api e then unlock_new_api io e else ret tt) s
       (fun _ s' => kept pkg_files s s' /\ known e s' /\ us_unlocked s' = (us_unlocked s || use_new_api e)%bool)
       (fun x s' => known e s' /\ use_new_api e = true /\ us_unlocked s = false /\ blame s x)).
    { destruct (use_new_api e) eqn:Hu.
      - destruct (us_unlocked s) eqn:Hl.
        + unfold unlock_new_api. apply post_bind, post_gets. rewrite Hl. apply post_ret.
          split; [apply kept_refl|]. now rewrite Hl.
        + eapply post_conseq; [apply (unlock_post s Hu Hk Hl); auto| |].
          * intros [] s' (K & L & Kn & _). auto.
          * intros x s' (K & L & Kn & B). auto.
      - apply post_ret. split; [apply kept_refl|]. split; [exact Hk|]. now rewrite orb_false_r. }
    eapply post_conseq; [exact U| |].
    - intros [] s1 (K1 & N1 & L1). eapply post_conseq; [apply (set_loop_post (freq / 1000) key (each_die dies) s1 N1 Hs)| |].
      + intros [] s2 (K2 & T2 & V2). split; [|split; [now apply T2|split; [destruct T2; congruence|exact V2]]].
        eapply kept_trans; [eapply kept_weak; [|exact K1]|exact K2]. intros q; now right.
      + intros x s2 (K2 & T2 & R2). split; [now apply T2|now right].
    - intros x s1 (N1 & B1). split; [exact N1|now left].
  Qed.
End IO.
