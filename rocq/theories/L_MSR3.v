(** MSR transactions and histories of calls (C05, C06), and the cache alone (C43). *)
From Verif Require Import Base L_Base L_Monad M_CPUInfo S_CPUInfo L_CPUInfo M_MSR S_MSR L_Bits L_MSR L_MSR2.
From Coq Require Import ZifyBool Sorted.

(** ** The verification information of a transaction *)

Definition vi_sound (P : Z -> Z -> scope -> Z -> Prop) (vi : list (Z * list (Z * (scope * list Z)))) : Prop :=
  forall v d a sn cl, In (v, d) vi -> In (a, (sn, cl)) d -> forall c, In c cl -> P v a sn c.

Definition vi_has (vi : list (Z * list (Z * (scope * list Z)))) (v a c : Z) : Prop :=
  exists d sn cl, dget Z.eqb vi v = Some d /\ dget Z.eqb d a = Some (sn, cl) /\ In c cl.

Lemma vi_add_has vi c a t v' a' c' :
  vi_has (verify_info_add vi c a t) v' a' c' <->
  vi_has vi v' a' c' \/ (ti_verify t = true /\ v' = ti_val t /\ a' = a /\ c' = c).
Proof.
  unfold verify_info_add. destruct (ti_verify t); cbn [negb]; [|intuition discriminate].
  set (d0 := match dget Z.eqb vi (ti_val t) with Some d => d | None => [] end).
  set (l0 := match dget Z.eqb d0 a with Some (_, l) => l | None => [] end).
  unfold vi_has. destruct (Z.eq_dec v' (ti_val t)) as [->|Hv].
  - rewrite (dget_dset_same Z.eqb Zeqb_spec). destruct (Z.eq_dec a' a) as [->|Ha].
    + split.
      * intros (d & sn & cl & [= <-] & E & Hin). rewrite (dget_dset_same Z.eqb Zeqb_spec) in E.
        injection E as <- <-. apply in_app_iff in Hin. destruct Hin as [Hin|[<-|[]]]; [|auto].
        left. unfold l0, d0 in Hin. destruct (dget Z.eqb vi (ti_val t)) as [d|] eqn:Ed; [|destruct Hin].
        destruct (dget Z.eqb d a) as [[sn l]|] eqn:Ea; [|destruct Hin].
        exists d, sn, l. auto.
      * intros [(d & sn & cl & E1 & E2 & Hin)|(_ & _ & _ & ->)].
        -- do 3 eexists. split; [reflexivity|]. rewrite (dget_dset_same Z.eqb Zeqb_spec).
           split; [reflexivity|]. apply in_app_iff. left. unfold l0, d0. now rewrite E1, E2.
        -- do 3 eexists. split; [reflexivity|]. rewrite (dget_dset_same Z.eqb Zeqb_spec).
           split; [reflexivity|]. apply in_app_iff. right. now left.
    + split.
      * intros (d & sn & cl & [= <-] & E & Hin). rewrite (dget_dset_other Z.eqb Zeqb_spec) in E by exact Ha.
        left. unfold d0 in E. destruct (dget Z.eqb vi (ti_val t)) as [d|] eqn:Ed; [|discriminate].
        exists d, sn, cl. auto.
      * intros [(d & sn & cl & E1 & E2 & Hin)|(_ & _ & E & _)]; [|contradiction].
        do 3 eexists. split; [reflexivity|]. rewrite (dget_dset_other Z.eqb Zeqb_spec) by exact Ha.
        unfold d0. rewrite E1. eauto.
  - rewrite (dget_dset_other Z.eqb Zeqb_spec) by exact Hv. intuition.
Qed.

Definition vi_ios (f : Z -> scope) (vi : list (Z * list (Z * (scope * list Z)))) : Prop :=
  NoDup (map fst vi) /\
  forall v d, In (v, d) vi -> NoDup (map fst d) /\ forall a sn cl, In (a, (sn, cl)) d -> sn = f a.

Lemma vi_add_ios f vi c a t : ti_ios t = f a -> vi_ios f vi -> vi_ios f (verify_info_add vi c a t).
Proof.
  intros Ht (Hnd & Hd). unfold verify_info_add. destruct (ti_verify t); cbn [negb]; [|split; auto].
  set (d0 := match dget Z.eqb vi (ti_val t) with Some d => d | None => [] end).
  assert (Hd0 : NoDup (map fst d0) /\ forall a sn cl, In (a, (sn, cl)) d0 -> sn = f a).
  { unfold d0. destruct (dget Z.eqb vi (ti_val t)) as [d|] eqn:E.
    - apply (dget_In Z.eqb Zeqb_spec) in E. eauto.
    - split; [constructor|intros ? ? ? []]. }
  set (l0 := match dget Z.eqb d0 a with Some (_, l) => l | None => [] end).
  split; [apply dset_NoDup; [apply Zeqb_spec|exact Hnd]|].
  intros v d Hin. assert (Hnd2 := dset_NoDup Z.eqb Zeqb_spec vi (ti_val t) (dset Z.eqb d0 a (ti_ios t, l0 ++ [c])) Hnd).
  apply (In_dget Z.eqb Zeqb_spec _ _ _ Hnd2) in Hin.
  destruct (Z.eq_dec v (ti_val t)) as [->|Hv].
  - rewrite (dget_dset_same Z.eqb Zeqb_spec) in Hin. injection Hin as <-.
    pose proof (dset_NoDup Z.eqb Zeqb_spec d0 a (ti_ios t, l0 ++ [c]) (proj1 Hd0)) as Hnd3.
    split; [exact Hnd3|]. intros a' sn cl Hin. apply (In_dget Z.eqb Zeqb_spec _ _ _ Hnd3) in Hin.
    destruct (Z.eq_dec a' a) as [->|Ha].
    + rewrite (dget_dset_same Z.eqb Zeqb_spec) in Hin. congruence.
    + rewrite (dget_dset_other Z.eqb Zeqb_spec) in Hin by exact Ha.
      apply (dget_In Z.eqb Zeqb_spec) in Hin. now apply (proj2 Hd0) in Hin.
  - rewrite (dget_dset_other Z.eqb Zeqb_spec) in Hin by exact Hv.
    apply (dget_In Z.eqb Zeqb_spec) in Hin. now apply Hd in Hin.
Qed.

Lemma verify_info_spec f buf :
  (forall c m a t, In (c, m) buf -> In (a, t) m -> ti_ios t = f a) ->
  vi_ios f (verify_info buf) /\
  forall v a c, vi_has (verify_info buf) v a c <->
    exists m t, In (c, m) buf /\ In (a, t) m /\ ti_verify t = true /\ ti_val t = v.
Proof.
  intros Hf. unfold verify_info.
  assert (Inner : forall c m vi, (forall a t, In (a, t) m -> ti_ios t = f a) -> vi_ios f vi ->
    let vi' := fold_left (fun acc r => verify_info_add acc c (fst r) (snd r)) m vi in
    vi_ios f vi' /\ forall v a c', vi_has vi' v a c' <->
      vi_has vi v a c' \/ (c' = c /\ exists t, In (a, t) m /\ ti_verify t = true /\ ti_val t = v)).
  { intros c m. induction m as [|[a t] m IH]; intros vi Hm Hvi; cbn zeta.
    - cbn [fold_left]. split; [exact Hvi|]. intros v a c'. split; [auto|].
      intros [H|(_ & t & [] & _)]. exact H.
    - cbn [fold_left fst snd].
      destruct (IH (verify_info_add vi c a t)) as (A & B).
      + intros; apply Hm; now right.
      + apply vi_add_ios; [apply Hm; now left|exact Hvi].
      + split; [exact A|]. intros v a' c'. rewrite B, vi_add_has. split.
        * intros [[H|(E1 & E2 & E3 & E4)]|(E & t' & Hin & Ht')]; [auto| |].
          -- right. subst. split; [reflexivity|]. exists t. split; [now left|auto].
          -- right. split; [exact E|]. exists t'. split; [now right|exact Ht'].
        * intros [H|(E & t' & [Hin|Hin] & E1 & E2)]; [auto| |].
          -- injection Hin as -> ->. subst. left. right. auto.
          -- right. split; [exact E|]. eauto. }
  assert (Outer : forall bf vi, (forall c m a t, In (c, m) bf -> In (a, t) m -> ti_ios t = f a) ->
    vi_ios f vi ->
    let vi' := fold_left (fun acc e => fold_left (fun acc r =>
                 verify_info_add acc (fst e) (fst r) (snd r)) (snd e) acc) bf vi in
    vi_ios f vi' /\ forall v a c, vi_has vi' v a c <->
      vi_has vi v a c \/ exists m t, In (c, m) bf /\ In (a, t) m /\ ti_verify t = true /\ ti_val t = v).
  { induction bf as [|[c m] bf IH]; intros vi Hbf Hvi; cbn zeta.
    - cbn [fold_left]. split; [exact Hvi|]. intros v a c. split; [auto|].
      intros [H|(m & t & [] & _)]. exact H.
    - cbn [fold_left fst snd].
      destruct (Inner c m vi (fun a t => Hbf c m a t (or_introl eq_refl)) Hvi) as (A & B). cbn zeta in A, B.
      destruct (IH _ (fun c' m' a t H => Hbf c' m' a t (or_intror H)) A) as (C & D). cbn zeta in C, D.
      split; [exact C|]. intros v a c'. rewrite D, B. split.
      + intros [[H|(-> & t & H)]|(m' & t & H1 & H2)]; [auto| |].
        * right. exists m, t. split; [now left|exact H].
        * right. exists m', t. split; [now right|exact H2].
      + intros [H|(m' & t & [[= <- <-]|H1] & H2)]; [auto| |].
        * left. right. split; [reflexivity|]. exists t. exact H2.
        * right. exists m', t. auto. }
  destruct (Outer buf [] Hf) as (A & B).
  { split; [constructor|intros ? ? []]. }
  cbn zeta in A, B. split; [exact A|]. intros v a c. rewrite B. split; [|auto].
  intros [(d & sn & cl & E & _)|H]; [discriminate|exact H].
Qed.

Section Flush.
  Variable env : menv.
  Notation dom := (me_dom env).
  Notation ci := (me_ci env).
  Notation online := (ci_online (me_ci env)).
  Variable rep : Z -> Z -> Z.
  Variable sc : Z -> scope.
  Notation Coh := (Coh env rep sc).
  Notation Buf := (Buf env rep sc).
  Notation view := (view env).
  Hypothesis Hwf : wf_ci ci.
  Hypothesis Hsc : forall a, scope_right env a (sc a).

  Definition put (w : Z * Z * Z) : M mstate unit :=
    let '(c, a, v) := w in
    if to_bytes_ok v then hw_write env a c v else throw EOverflow.

  Lemma transaction_write_flat s s0 : transaction_write env (ms_tbuf s0) s = mfor (pending_writes s0) put s.
  Proof.
    unfold transaction_write, pending_writes. rewrite mfor_flat_map.
    apply mfor_ext. intros [c m] s' _. cbn [fst snd]. rewrite mfor_map. reflexivity.
  Qed.

  (** Facts about the buffered entries, on any hardware. *)
  Record Buf0 (s : mstate) : Prop := {
    b0_nodup : NoDup (map fst (ms_tbuf s));
    b0_nodup2 : forall c m, In (c, m) (ms_tbuf s) -> NoDup (map fst m);
    b0_ios : forall c a t, tentry s c a = Some t -> ti_ios t = sc a;
    b0_onl : forall c a t, tentry s c a = Some t -> In c online;
    b0_tr : ms_intr s = false -> ms_tbuf s = [];
    b0_cache : me_cache env = false -> ms_intr s = false }.

  Lemma Buf_Buf0 s : Buf s -> Buf0 s.
  Proof. intros []. split; auto. Qed.

  Lemma buf_entry s c m a t :
    Buf0 s -> In (c, m) (ms_tbuf s) -> In (a, t) m -> tentry s c a = Some t.
  Proof.
    intros B Hm Ht. unfold tentry. rewrite (In_dget Z.eqb Zeqb_spec _ c m (b0_nodup _ B) Hm).
    apply (In_dget Z.eqb Zeqb_spec); [exact (b0_nodup2 _ B _ _ Hm)|exact Ht].
  Qed.

  (** The verification loops of a flush; any hardware. *)
  Definition verify_all (buf : list (Z * list (Z * tinfo))) : M mstate unit :=
    mfor (verify_info buf) (fun vi => mfor (snd vi) (fun ai =>
      verify env (fst ai) (fst vi) (snd (snd ai)) (fst (snd ai)))).

  Lemma vi_facts s0 : Buf0 s0 ->
    forall v d a sn cl, In (v, d) (verify_info (ms_tbuf s0)) -> In (a, (sn, cl)) d ->
    sn = sc a /\ forall c, In c cl -> In c online.
  Proof.
    intros B v d a sn cl Hd Ha.
    destruct (verify_info_spec sc (ms_tbuf s0)) as ((Hnd & Hin) & Hhas).
    { intros c m a0 t Hm Ht. eapply b0_ios; [exact B|]. eapply buf_entry; eauto. }
    destruct (Hin v d Hd) as (Hnd2 & Hsn). split; [eauto|]. intros c Hc.
    assert (H : vi_has (verify_info (ms_tbuf s0)) v a c).
    { exists d, sn, cl. split; [now apply (In_dget Z.eqb Zeqb_spec)|].
      split; [now apply (In_dget Z.eqb Zeqb_spec)|exact Hc]. }
    apply Hhas in H. destruct H as (m & t & Hm & Ht & _).
    eapply b0_onl; [exact B|]. eapply buf_entry; eauto.
  Qed.

  Lemma verify_all_any s0 s : Buf0 s0 ->
    post (verify_all (ms_tbuf s0)) s
      (fun _ s' => cache_only s s' /\
         forall c a t, tentry s0 c a = Some t -> ti_verify t = true ->
                       ms_hw s' a (dom a c) = ti_val t)
      (fun _ s' => cache_only s s').
  Proof.
    intros B. unfold verify_all. eapply post_conseq.
    - apply (post_mfor _ (fun q s' => cache_only s s' /\
        forall v d a sn cl c, In (v, d) q -> In (a, (sn, cl)) d -> In c cl -> ms_hw s a (dom a c) = v)
        (fun _ s' => cache_only s s')).
      + intros q [v d] r Eq s1 (C1 & V1). cbn [fst snd].
        assert (Hvd : In (v, d) (verify_info (ms_tbuf s0))) by (rewrite Eq; apply in_app_iff; right; now left).
        eapply post_conseq.
        * apply (post_mfor _ (fun p s' => cache_only s s' /\
            forall a sn cl c, In (a, (sn, cl)) p -> In c cl -> ms_hw s a (dom a c) = v)
            (fun _ s' => cache_only s s')).
          -- intros p [a [sn cl]] r2 Ep s2 (C2 & V2). cbn [fst snd].
             assert (Had : In (a, (sn, cl)) d) by (rewrite Ep; apply in_app_iff; right; now left).
             destruct (vi_facts s0 B v d a sn cl Hvd Had) as (-> & Hcl).
             eapply post_conseq; [apply (verify_any env Hwf a v cl (sc a) s2 (Hsc a) Hcl)| |].
             ++ intros u s3 (C3 & V3). assert (C03 : cache_only s s3) by (eapply cache_only_trans; eauto).
                split; [exact C03|]. intros a' sn' cl' c Hin Hc. apply in_app_iff in Hin.
                destruct Hin as [Hin|[[= <- <- <-]|[]]]; [eauto|].
                rewrite <- (co_hw _ _ C03). auto.
             ++ intros e s3 C3. eapply cache_only_trans; eauto.
          -- split; [exact C1|]. intros ? ? ? ? [].
        * intros u s2 (C2 & V2). split; [exact C2|]. intros v' d' a sn cl c Hin Ha Hc.
          apply in_app_iff in Hin. destruct Hin as [Hin|[[= <- <-]|[]]]; eauto.
        * auto.
      + split; [apply cache_only_refl|]. intros ? ? ? ? ? ? [].
    - intros u s' (C & V). split; [exact C|]. intros c a t Ht Hvf. rewrite (co_hw _ _ C).
      destruct (verify_info_spec sc (ms_tbuf s0)) as (_ & Hhas).
      { intros c0 m a0 t0 Hm Ht0. eapply b0_ios; [exact B|]. eapply buf_entry; eauto. }
      assert (H : vi_has (verify_info (ms_tbuf s0)) (ti_val t) a c).
      { apply Hhas. unfold tentry in Ht. destruct (dget Z.eqb (ms_tbuf s0) c) as [m|] eqn:Em; [|discriminate].
        exists m, t. apply (dget_In Z.eqb Zeqb_spec) in Em, Ht. auto. }
      destruct H as (d & sn & cl & E1 & E2 & Hc). apply (dget_In Z.eqb Zeqb_spec) in E1, E2. eauto.
    - auto.
  Qed.

  (** A verified commit: whatever the hardware does with written values, after a successful commit
      every register written with verification holds the value. *)
  Lemma verified_commit_l s r s' : Buf0 s ->
    commit_transaction env s = (Ok r, s') ->
    forall c a t, tentry s c a = Some t -> ti_verify t = true -> ms_hw s' a (dom a c) = ti_val t.
  Proof.
    intros B E c a t Ht Hvf. unfold commit_transaction in E.
    unfold mbind in E. unfold gets at 1 in E. destruct (ms_intr s) eqn:Ei; cbn [negb] in E.
    2:{ discriminate. }
    destruct (flush_transaction env s) as [[fl|e] s1] eqn:Ef; [|discriminate].
    cbn in E. injection E as <- <-. cbn [ms_hw set_intr].
    unfold flush_transaction in Ef. unfold mbind at 1 2 in Ef. unfold gets in Ef. rewrite Ei in Ef.
    assert (Em : me_cache env = true).
    { destruct (me_cache env) eqn:Em; [reflexivity|]. rewrite (b0_cache _ B Em) in Ei. discriminate. }
    rewrite Em in Ef. cbn [negb orb] in Ef.
    destruct (ms_tbuf s) as [|x bf] eqn:Eb.
    { unfold tentry in Ht. rewrite Eb in Ht. discriminate. }
    rewrite <- Eb in Ef. unfold mbind at 1 in Ef.
    destruct (transaction_write env (ms_tbuf s) s) as [[u|e] s2] eqn:Et; [|discriminate].
    unfold mbind at 1, modify in Ef. unfold mbind in Ef.
    pose proof (verify_all_any s (set_tbuf [] s2) B) as P. unfold post, verify_all in P.
    destruct (mfor (verify_info (ms_tbuf s)) _ (set_tbuf [] s2)) as [[u2|e] s3]; [|discriminate].
    injection Ef as <- <-. destruct P as (_ & V). eauto.
  Qed.

  Hypothesis Hfaith : faithful env.

  Record FI (s : mstate) (p : list (Z * Z * Z)) (s' : mstate) : Prop := {
    f_tbuf : ms_tbuf s' = ms_tbuf s;
    f_intr : ms_intr s' = ms_intr s;
    f_cache : ms_cache s' = ms_cache s;
    f_log : ms_log s' = ms_log s ++ p;
    f_hw : forall a d, ms_hw s' a d = do_writes env p (ms_hw s) a d }.

  Lemma FI_view s p r s' a d :
    Buf s -> pending_writes s = p ++ r -> FI s p s' -> view s' a d = view s a d.
  Proof.
    intros B Ep F. assert (B' : Buf s') by (eapply Buf_ext; [apply F|apply F|exact B]).
    assert (T : forall c a, tentry s' c a = tentry s c a) by (intros; unfold tentry; now rewrite (f_tbuf _ _ _ F)).
    destruct (entry_dec env rep sc s a d B) as [(c & t & Ht & <-)|Hn].
    - rewrite (view_entry env rep sc s c a t B Ht). apply (view_entry env rep sc s' c a t B').
      now rewrite T.
    - rewrite (view_hw env rep sc s a d B Hn).
      rewrite (view_hw env rep sc s' a d B'); [|intros c t; rewrite T; eauto].
      rewrite (f_hw _ _ _ F). apply do_writes_none. intros c w Hin.
      assert (Hin' : In (c, a, w) (pending_writes s)) by (rewrite Ep; apply in_app_iff; now left).
      apply pending_entry in Hin'; [|apply B..]. destruct Hin' as (t & Et & _). eauto.
  Qed.

  Lemma FI_Coh s p r s' : Coh s -> pending_writes s = p ++ r -> FI s p s' -> Coh s'.
  Proof.
    intros H Ep F. pose proof (c_buf _ _ _ _ _ H) as B. split.
    - eapply Buf_ext; [apply F|apply F|exact B].
    - intros a c v Hc E. rewrite (FI_view s p r s' a _ B Ep F).
      apply (c_val _ _ _ _ _ H a c v); [exact Hc|]. rewrite <- (cache_get_ext env s s' a c (f_cache _ _ _ F)). exact E.
    - intros a c t x Ht Hx Hd. rewrite (cache_get_ext env s s' a x (f_cache _ _ _ F)).
      apply (c_pend _ _ _ _ _ H a c t x); auto. unfold tentry in *. rewrite <- (f_tbuf _ _ _ F). exact Ht.
  Qed.

  Lemma FI_refl s : FI s [] s.
  Proof. split; auto. now rewrite app_nil_r. Qed.

  Lemma put_post s p c a v r s1 :
    pending_writes s = p ++ (c, a, v) :: r -> FI s p s1 ->
    post (put (c, a, v)) s1 (fun _ s' => FI s (p ++ [(c, a, v)]) s') (fun _ s' => FI s p s').
  Proof.
    intros Ep F. unfold put. destruct (to_bytes_ok v); [|apply post_throw; exact F].
    eapply post_conseq; [apply (hw_write_post env Hfaith a c v s1)| |].
    - intros u s2 (H2 & T2 & E2 & M2 & L2). split.
      + rewrite T2. apply F.
      + rewrite E2. apply F.
      + rewrite M2. apply F.
      + rewrite L2, (f_log _ _ _ F). now rewrite app_assoc.
      + intros a' d. rewrite do_writes_snoc. cbn [fst snd]. rewrite H2, (f_hw _ _ _ F).
        destruct (Z.eqb_spec a' a) as [->|]; [reflexivity|]. reflexivity.
    - intros e s2 (C & Ec). destruct F as [F1 F2 F3 F4 F5], C as [C1 C2 C3 C4]. split; try congruence.
  Qed.

  Lemma flush_post s :
    Coh s ->
    post (flush_transaction env) s
      (fun _ s' => Coh s' /\ ms_intr s' = ms_intr s /\ (forall a d, view s' a d = view s a d) /\
                   ms_tbuf s' = [] /\ ms_log s' = ms_log s ++ pending_writes s)
      (fun _ s' => Coh s' /\ ms_intr s' = ms_intr s /\ (forall a d, view s' a d = view s a d) /\
                   exists p r, pending_writes s = p ++ r /\ ms_log s' = ms_log s ++ p).
  Proof.
    intros H. pose proof (c_buf _ _ _ _ _ H) as B.
    unfold flush_transaction. apply post_bind, post_gets, post_bind, post_gets.
    destruct (negb (me_cache env) || negb (ms_intr s)) eqn:Eoff.
    - apply post_ret. assert (Eb : ms_tbuf s = []).
      { apply (b_tr _ _ _ _ B). destruct (me_cache env) eqn:Em; [|now apply (b_cache _ _ _ _ B)].
        cbn in Eoff. now destruct (ms_intr s). }
      repeat split; auto; try apply H. unfold pending_writes. rewrite Eb. cbn. now rewrite app_nil_r.
    - assert (Ecase : forall X : M mstate bool, X = (transaction_write env (ms_tbuf s) ;;
             modify (set_tbuf []) ;; verify_all (ms_tbuf s) ;; ret true) ->
        post X s
        (fun _ s' => Coh s' /\ ms_intr s' = ms_intr s /\ (forall a d, view s' a d = view s a d) /\
                   ms_tbuf s' = [] /\ ms_log s' = ms_log s ++ pending_writes s)
        (fun _ s' => Coh s' /\ ms_intr s' = ms_intr s /\ (forall a d, view s' a d = view s a d) /\
                   exists p r, pending_writes s = p ++ r /\ ms_log s' = ms_log s ++ p)).
      { intros X ->. apply post_bind.
        unfold post at 1. rewrite transaction_write_flat.
        change (post (mfor (pending_writes s) put) s
          (fun _ s' => post (modify (set_tbuf []) ;; verify_all (ms_tbuf s) ;; ret true) s'
            (fun _ s' => Coh s' /\ ms_intr s' = ms_intr s /\ (forall a d, view s' a d = view s a d) /\
                   ms_tbuf s' = [] /\ ms_log s' = ms_log s ++ pending_writes s)
            (fun _ s' => Coh s' /\ ms_intr s' = ms_intr s /\ (forall a d, view s' a d = view s a d) /\
                   exists p r, pending_writes s = p ++ r /\ ms_log s' = ms_log s ++ p))
          (fun _ s' => Coh s' /\ ms_intr s' = ms_intr s /\ (forall a d, view s' a d = view s a d) /\
                   exists p r, pending_writes s = p ++ r /\ ms_log s' = ms_log s ++ p)).
        eapply post_conseq.
        - apply (post_mfor put (FI s) (fun _ s' => exists p r, pending_writes s = p ++ r /\ FI s p s'));
            [|apply FI_refl].
          intros p [[c a] v] r Ep s1 F1. eapply post_conseq; [apply (put_post s p c a v r s1 Ep F1)|auto|].
          intros e s2 F2. eauto.
        - intros u s1 F1. apply post_bind, post_modify.
          set (s2 := set_tbuf [] s1).
          assert (V2 : forall a d, view s2 a d = view s a d).
          { intros a d. rewrite (view_nobuf env s2) by reflexivity. unfold s2. cbn [ms_hw set_tbuf].
            rewrite (f_hw _ _ _ F1). reflexivity. }
          assert (H2 : Coh s2).
          { split.
            - split; unfold s2; cbn; try easy; [constructor|]. rewrite (f_intr _ _ _ F1). apply B.
            - intros a c v Hc E. rewrite V2. apply (c_val _ _ _ _ _ H); [exact Hc|].
              rewrite <- E. unfold cache_get, s2. cbn [ms_cache set_tbuf]. now rewrite (f_cache _ _ _ F1).
            - intros a c t x Ht. unfold tentry, s2 in Ht. cbn in Ht. discriminate. }
          apply post_bind. eapply post_conseq.
          { unfold verify_all.
            apply (post_mfor _ (fun _ s' => cache_only s2 s' /\ Coh s') (fun _ s' => cache_only s2 s' /\ Coh s'));
              [|split; [apply cache_only_refl|exact H2]].
            intros q [v d] r Eq s3 (C3 & H3). cbn [fst snd].
            assert (Hvd : In (v, d) (verify_info (ms_tbuf s))) by (rewrite Eq; apply in_app_iff; right; now left).
            apply (post_mfor _ (fun _ s' => cache_only s2 s' /\ Coh s') (fun _ s' => cache_only s2 s' /\ Coh s'));
              [|auto].
            intros q2 [a [sn cl]] r2 Eq2 s4 (C4 & H4). cbn [fst snd].
            assert (Had : In (a, (sn, cl)) d) by (rewrite Eq2; apply in_app_iff; right; now left).
            destruct (vi_facts s (Buf_Buf0 s B) v d a sn cl Hvd Had) as (-> & Hcl).
            eapply post_conseq; [apply (verify_post env rep sc Hwf Hsc a v cl s4 Hcl H4)| |].
            - rewrite (co_tbuf _ _ C4). reflexivity.
            - intros u5 s5 (C5 & H5 & _). split; [eapply cache_only_trans; eauto|exact H5].
            - intros e s5 (C5 & H5). split; [eapply cache_only_trans; eauto|exact H5]. }
          + intros u3 s3 (C3 & H3). apply post_ret. split; [exact H3|].
            split; [rewrite (co_intr _ _ C3); apply F1|].
            split; [intros a d; rewrite (cache_only_view env _ _ _ _ C3); apply V2|].
            split; [rewrite (co_tbuf _ _ C3); reflexivity|].
            rewrite (co_log _ _ C3). apply F1.
          + intros e s3 (C3 & H3). split; [exact H3|].
            split; [rewrite (co_intr _ _ C3); apply F1|].
            split; [intros a d; rewrite (cache_only_view env _ _ _ _ C3); apply V2|].
            exists (pending_writes s), []. split; [now rewrite app_nil_r|].
            rewrite (co_log _ _ C3). apply F1.
        - intros e s1 (p & r & Ep & F1). split; [eapply FI_Coh; eauto|]. split; [apply F1|].
          split; [intros a d; eapply FI_view; eauto|]. exists p, r. split; [exact Ep|apply F1]. }
      destruct (ms_tbuf s) as [|x bf] eqn:Eb.
      + apply post_ret. repeat split; auto; try apply H.
        unfold pending_writes. rewrite Eb. cbn. now rewrite app_nil_r.
      + apply Ecase. unfold verify_all. reflexivity.
  Qed.

  Lemma commit_post s :
    Coh s ->
    post (commit_transaction env) s
      (fun _ s' => Coh s' /\ ms_intr s = true /\ ms_intr s' = false /\ ms_tbuf s' = [] /\
                   (forall a d, view s' a d = view s a d) /\ ms_log s' = ms_log s ++ pending_writes s)
      (fun _ s' => Coh s' /\ ms_intr s' = ms_intr s /\ (forall a d, view s' a d = view s a d) /\
                   exists p r, pending_writes s = p ++ r /\ ms_log s' = ms_log s ++ p).
  Proof.
    intros H. unfold commit_transaction. apply post_bind, post_gets.
    destruct (ms_intr s) eqn:Ei; cbn [negb].
    - apply post_bind. eapply post_conseq; [apply (flush_post s H)| |].
      + intros fl s1 (H1 & E1 & V1 & T1 & L1). apply post_modify.
        assert (V2 : forall a d, view (set_intr false s1) a d = view s a d).
        { intros a d. rewrite <- V1. reflexivity. }
        split; [|repeat split; auto].
        split.
        * assert (T : forall c a, tentry (set_intr false s1) c a = None).
          { intros c a. unfold tentry. cbn [ms_tbuf set_intr]. now rewrite T1. }
          split; cbn [ms_tbuf ms_intr set_intr]; rewrite ?T1; try easy; try constructor;
            intros c a t; rewrite T; discriminate.
        * intros a c v Hc E. apply (c_val _ _ _ _ _ H1); auto.
        * intros a c t x Ht. unfold tentry in Ht. cbn in Ht. rewrite T1 in Ht. discriminate.
      + intros e s1 (H1 & E1 & V1 & Hp). rewrite Ei in E1. auto.
    - apply post_throw. split; [exact H|]. split; [auto|]. split; [reflexivity|].
      exists [], (pending_writes s). split; [reflexivity|now rewrite app_nil_r].
  Qed.

  Lemma start_post s :
    Coh s ->
    post (start_transaction env) s
      (fun _ s' => Coh s' /\ ms_intr s = false /\ ms_intr s' = me_cache env /\ ms_tbuf s' = [] /\
                   ms_hw s' = ms_hw s /\ ms_log s' = ms_log s)
      (fun _ s' => s' = s).
  Proof.
    intros H. pose proof (c_buf _ _ _ _ _ H) as B. unfold start_transaction.
    destruct (me_cache env) eqn:Em; cbn [negb].
    - apply post_bind, post_gets. destruct (ms_intr s) eqn:Ei; [apply post_throw; reflexivity|].
      apply post_modify. assert (Eb : ms_tbuf s = []) by now apply (b_tr _ _ _ _ B).
      split; [|repeat split; auto]. split.
      + split; cbn; try apply B; try congruence.
      + intros a c v Hc E. apply (c_val _ _ _ _ _ H); auto.
      + intros a c t x Ht. unfold tentry in Ht. cbn in Ht. rewrite Eb in Ht. discriminate.
    - apply post_ret. assert (Ei : ms_intr s = false) by now apply (b_cache _ _ _ _ B).
      split; [exact H|]. split; [exact Ei|]. split; [exact Ei|].
      split; [now apply (b_tr _ _ _ _ B)|]. auto.
  Qed.

  (** One call of the API. *)
  Lemma mstep_post o s :
    Coh s -> op_scoped sc o -> (ms_intr s = true -> op_rep env rep o) ->
    post (mstep env o) s
      (fun _ s' => Coh s' /\ op_effect env o (view s) (view s') /\
                   (buffered_op o -> ms_intr s' = ms_intr s /\ (ms_intr s = true -> unwritten s s')))
      (fun _ s' => Coh s' /\ (forall a d, ~ op_touches env o a d -> view s' a d = view s a d) /\
                   ms_intr s' = ms_intr s /\
                   (buffered_op o -> ms_intr s = true -> unwritten s s')).
  Proof.
    intros H Hs Hr. destruct o as [a cpus sn|a v cpus sn vf|a b val cpus sn vf| | |]; cbn [mstep op_scoped op_rep] in *.
    - subst sn. eapply post_conseq; [apply (read_post env rep sc Hwf Hsc a cpus s H)| |].
      + intros r s' (_ & C & H'). split; [exact H'|]. split; [intros a' d; apply (cache_only_view env _ _ _ _ C)|].
        intros _. split; [apply C|]. intros _. split; apply C.
      + intros e s' (C & H'). split; [exact H'|]. split; [intros a' d _; apply (cache_only_view env _ _ _ _ C)|].
        split; [apply C|]. intros _ _. split; apply C.
    - subst sn. apply post_bind. eapply post_conseq; [apply (write_post env rep sc Hwf Hsc Hfaith a v cpus vf s H Hr)| |].
      + intros u s' (K & E). apply post_ret. split; [apply K|]. split; [exact E|]. intros _. split; apply K.
      + intros e s' (K & E). split; [apply K|]. split; [intros a' d Hd; apply E; exact Hd|].
        split; [apply K|]. intros _. apply K.
    - destruct Hs as (-> & Hf & Hv). apply post_bind.
      eapply post_conseq; [apply (write_bits_post env rep sc Hwf Hsc Hfaith a b val cpus vf s H Hr Hf Hv)| |].
      + intros u s' (K & E). apply post_ret. split; [apply K|]. split; [exact E|]. intros _. split; apply K.
      + intros e s' (K & E). split; [apply K|]. split; [intros a' d Hd; apply E; exact Hd|].
        split; [apply K|]. intros _. apply K.
    - apply post_bind. eapply post_conseq; [apply (start_post s H)| |].
      + intros u s' (H' & E & E' & T & Hh & _). apply post_ret. split; [exact H'|]. split; [|intros []].
        intros a d. rewrite (view_nobuf env s') by exact T. rewrite Hh. symmetry. apply view_nobuf.
        now apply (b_tr _ _ _ _ (c_buf _ _ _ _ _ H)).
      + intros e s' ->. split; [exact H|]. split; [reflexivity|]. split; [reflexivity|intros []].
    - apply post_bind. eapply post_conseq; [apply (flush_post s H)| |].
      + intros u s' (H' & E & V & _). apply post_ret. split; [exact H'|]. split; [exact V|intros []].
      + intros e s' (H' & E & V & _). split; [exact H'|]. split; [auto|]. split; [exact E|intros []].
    - apply post_bind. eapply post_conseq; [apply (commit_post s H)| |].
      + intros u s' (H' & _ & E & _ & V & _). apply post_ret. split; [exact H'|]. split; [exact V|intros []].
      + intros e s' (H' & E & V & _). split; [exact H'|]. split; [auto|]. split; [exact E|intros []].
  Qed.

  Lemma mstep_intr o s : Coh s -> op_scoped sc o -> (ms_intr s = true -> op_rep env rep o) ->
    o <> OStart -> ms_intr s = false -> ms_intr (snd (mstep env o s)) = false.
  Proof.
    intros H Hs Hr Hne Hi. pose proof (mstep_post o s H Hs Hr) as P. unfold post in P.
    destruct (mstep env o s) as [[r|e] s'] eqn:E; cbn [snd].
    - destruct P as (H' & _ & P).
      assert (Hd : buffered_op o \/ o = OFlush \/ o = OCommit) by (destruct o; cbn; auto; contradiction).
      destruct Hd as [Hd|[Hd|Hd]]; [|subst o|subst o].
      + destruct (P Hd). congruence.
      + cbn in E. unfold mbind in E. pose proof (flush_post s H) as P2. unfold post in P2.
        destruct (flush_transaction env s) as [[x|x] s2]; [|discriminate]. cbn in E. injection E as _ <-.
        destruct P2 as (_ & -> & _). exact Hi.
      + cbn in E. unfold mbind in E. pose proof (commit_post s H) as P2. unfold post in P2.
        destruct (commit_transaction env s) as [[x|x] s2]; [|discriminate]. cbn in E. injection E as _ <-.
        apply P2.
    - destruct P as (_ & _ & -> & _). exact Hi.
  Qed.

  (** Histories. *)
  Lemma mrun_Coh ops s :
    Coh s -> (forall o, In o ops -> op_scoped sc o) ->
    ((ms_intr s = false /\ ~ In OStart ops) \/ forall o, In o ops -> op_rep env rep o) ->
    Coh (mrun env ops s) /\ ((ms_intr s = false /\ ~ In OStart ops) -> ms_intr (mrun env ops s) = false).
  Proof.
    revert s. induction ops as [|o t IH]; intros s H Hs Hr; [cbn; split; [exact H|tauto]|].
    assert (Hro : ms_intr s = true -> op_rep env rep o).
    { destruct Hr as [(Hi & _)|Hr]; [congruence|]. intros _. apply Hr. now left. }
    pose proof (mstep_post o s H (Hs o (or_introl eq_refl)) Hro) as P.
    assert (H' : Coh (snd (mstep env o s))).
    { unfold post in P. destruct (mstep env o s) as [[r|e] s']; cbn [snd]; apply P. }
    assert (Hi' : ms_intr s = false /\ ~ In OStart (o :: t) -> ms_intr (snd (mstep env o s)) = false).
    { intros (Hi & Hn). apply mstep_intr; auto; [apply Hs; now left|].
      intros ->. apply Hn. now left. }
    destruct (IH (snd (mstep env o s)) H') as (A & B).
    - intros o' Ho'. apply Hs. now right.
    - destruct Hr as [Hr|Hr]; [left|right].
      + split; [auto|]. intros Hin. apply (proj2 Hr). now right.
      + intros o' Ho'. apply Hr. now right.
    - split; [exact A|]. intros Hx. apply B. split; [auto|]. intros Hin. apply (proj2 Hx). now right.
  Qed.

  Lemma mrun_ok_mrun ops s s' : mrun_ok env ops s = Some s' -> mrun env ops s = s'.
  Proof.
    revert s. induction ops as [|o t IH]; intros s; cbn [mrun_ok mrun fold_left]; [intros [= <-]; reflexivity|].
    destruct (mstep env o s) as [[r|e] s1]; [|discriminate]. intros E. cbn [snd]. now apply IH.
  Qed.

  Lemma mrun_ok_effects ops s s' :
    Coh s -> (forall o, In o ops -> op_scoped sc o) ->
    ((ms_intr s = false /\ ~ In OStart ops) \/ forall o, In o ops -> op_rep env rep o) ->
    mrun_ok env ops s = Some s' -> effects env ops (view s) (view s').
  Proof.
    revert s. induction ops as [|o t IH]; intros s H Hs Hr; cbn [mrun_ok].
    - intros [= <-]. constructor. reflexivity.
    - assert (Hro : ms_intr s = true -> op_rep env rep o).
      { destruct Hr as [(Hi & _)|Hr]; [congruence|]. intros _. apply Hr. now left. }
      pose proof (mstep_post o s H (Hs o (or_introl eq_refl)) Hro) as P. unfold post in P.
      pose proof (mstep_intr o s H (Hs o (or_introl eq_refl)) Hro) as Hi'.
      destruct (mstep env o s) as [[r|e] s1] eqn:E; [|discriminate]. cbn [snd] in Hi'.
      destruct P as (H1 & E1 & _). intros Er. apply (eff_cons env o t _ (view s1)); [exact E1|].
      apply IH; auto.
      + intros o' Ho'. apply Hs. now right.
      + destruct Hr as [(Hi & Hn)|Hr]; [left|right].
        * split; [apply Hi'; [intros ->; apply Hn; now left|exact Hi]|]. intros Hin. apply Hn. now right.
        * intros o' Ho'. apply Hr. now right.
  Qed.

  (** Calls inside a transaction do not reach the hardware, whether they succeed or not. *)
  Lemma buffered_unwritten ops s :
    Coh s -> (forall o, In o ops -> op_scoped sc o /\ op_rep env rep o /\ buffered_op o) ->
    ms_intr s = true ->
    unwritten s (mrun env ops s) /\ ms_intr (mrun env ops s) = true.
  Proof.
    revert s. induction ops as [|o t IH]; intros s H Ho Hi; [cbn; split; [split; reflexivity|exact Hi]|].
    destruct (Ho o (or_introl eq_refl)) as (Hs & Hr & Hb).
    pose proof (mstep_post o s H Hs (fun _ => Hr)) as P.
    assert (P' : Coh (snd (mstep env o s)) /\ unwritten s (snd (mstep env o s)) /\ ms_intr (snd (mstep env o s)) = true).
    { unfold post in P. destruct (mstep env o s) as [[r|e] s1]; cbn [snd].
      - destruct P as (A & _ & C). destruct (C Hb) as (C1 & C2). rewrite C1. auto.
      - destruct P as (A & _ & C & D). rewrite C. auto. }
    destruct P' as (A & (B1 & B2) & C).
    destruct (IH _ A (fun o' Ho' => Ho o' (or_intror Ho')) C) as ((D1 & D2) & E).
    cbn [mrun fold_left]. split; [|exact E]. split.
    - transitivity (ms_hw (snd (mstep env o s))); [exact D1|exact B1].
    - transitivity (ms_log (snd (mstep env o s))); [exact D2|exact B2].
  Qed.
End Flush.

(** ** Arbitrary hardware *)

Section AnyHw.
  Variable env : menv.
  Notation dom := (me_dom env).
  Notation ci := (me_ci env).
  Notation online := (ci_online (me_ci env)).
  Variable sc : Z -> scope.
  Notation Buf0 := (Buf0 env sc).
  Hypothesis Hwf : wf_ci ci.
  Hypothesis Hsc : forall a, scope_right env a (sc a).

  Lemma Buf0_ext s s' : ms_tbuf s' = ms_tbuf s -> ms_intr s' = ms_intr s -> Buf0 s -> Buf0 s'.
  Proof.
    intros E1 E2 B. assert (T : forall c a, tentry s' c a = tentry s c a).
    { intros. unfold tentry. now rewrite E1. }
    destruct B. split; try (intros c a t; rewrite T; eauto); rewrite ?E1, ?E2; auto.
  Qed.

  Lemma Buf0_co s s' : cache_only s s' -> Buf0 s -> Buf0 s'.
  Proof. intros C. apply Buf0_ext; apply C. Qed.

  Lemma Buf0_empty s : ms_tbuf s = [] -> (me_cache env = false -> ms_intr s = false) -> Buf0 s.
  Proof.
    intros E H. assert (T : forall c a, tentry s c a = None) by (intros; unfold tentry; now rewrite E).
    split; rewrite ?E; auto; try constructor; try (intros c a t; rewrite T; discriminate).
    intros c m [].
  Qed.

  Lemma Buf0_init hw faults : Buf0 (msr_init hw faults).
  Proof. apply Buf0_empty; reflexivity. Qed.

  Lemma hw_write_any a c v s :
    post (hw_write env a c v) s
      (fun _ s' => ms_tbuf s' = ms_tbuf s /\ ms_intr s' = ms_intr s)
      (fun _ s' => ms_tbuf s' = ms_tbuf s /\ ms_intr s' = ms_intr s).
  Proof.
    unfold hw_write, io, post, mbind, modify.
    destruct (ms_faults s) as [|[|] f]; cbn; auto.
  Qed.

  Definition step0 (s s' : mstate) : Prop := Buf0 s' /\ ms_intr s' = ms_intr s.

  Lemma read_one_0 a c s : In c online -> Buf0 s ->
    post (read_one env a (sc a) c) s (fun cv s' => step0 s s') (fun _ s' => step0 s s').
  Proof.
    intros Hc B. eapply post_conseq; [apply (read_one_any env Hwf a (sc a) c s (Hsc a) Hc)| |].
    - intros cv s' (_ & C & _). split; [eapply Buf0_co; eauto|apply C].
    - intros e s' (C & _). split; [eapply Buf0_co; eauto|apply C].
  Qed.

  Lemma step0_refl s : Buf0 s -> step0 s s.
  Proof. split; auto. Qed.

  Lemma step0_trans s1 s2 s3 : step0 s1 s2 -> step0 s2 s3 -> step0 s1 s3.
  Proof. intros [] []. split; congruence. Qed.

  Lemma write_one_0 a v vf c s : In c online -> Buf0 s ->
    post (write_one env a v (sc a) vf c) s (fun _ s' => step0 s s') (fun _ s' => step0 s s').
  Proof.
    intros Hc B. unfold write_one. apply post_bind, post_gets.
    destruct (cache_get env s a c); [apply post_ret; now apply step0_refl|].
    apply post_bind, post_gets. apply post_bind.
    assert (Hadd : forall s1, step0 s s1 -> post (cache_add env a c v (sc a)) s1
                     (fun _ s' => step0 s s') (fun _ s' => step0 s s')).
    { intros s1 S1. eapply post_conseq; [apply (cache_add_post env Hwf a c v (sc a) s1 (Hsc a) Hc)| |intros ? ? []].
      intros u s2 (C & _). eapply step0_trans; [exact S1|]. split; [|apply C].
      eapply Buf0_co; [exact C|apply S1]. }
    destruct (ms_intr s) eqn:Ei; cbn [negb].
    - unfold add_for_transaction. destruct (me_cache env) eqn:Em; cbn [negb];
        [|apply post_throw; now apply step0_refl].
      apply post_modify. apply Hadd.
      set (m := match dget Z.eqb (ms_tbuf s) c with Some m => m | None => [] end).
      set (s2 := set_tbuf _ s).
      assert (T2 : forall c' a', tentry s2 c' a' =
                   if (c' =? c) && (a' =? a) then Some (TI v vf (sc a)) else tentry s c' a').
      { intros c' a'. unfold tentry, s2. cbn [ms_tbuf set_tbuf].
        destruct (Z.eqb_spec c' c) as [->|Hn]; cbn [andb].
        - rewrite (dget_dset_same Z.eqb Zeqb_spec). destruct (Z.eqb_spec a' a) as [->|Hna].
          + now rewrite (dget_dset_same Z.eqb Zeqb_spec).
          + rewrite (dget_dset_other Z.eqb Zeqb_spec) by exact Hna. unfold m.
            now destruct (dget Z.eqb (ms_tbuf s) c).
        - now rewrite (dget_dset_other Z.eqb Zeqb_spec) by exact Hn. }
      split; [|reflexivity]. destruct B as [B1 B2 B4 B5 B6 B7]. split.
      + apply dset_NoDup; [apply Zeqb_spec|exact B1].
      + intros c' m' Hin.
        assert (Hnd : NoDup (map fst (ms_tbuf s2))) by (apply dset_NoDup; [apply Zeqb_spec|exact B1]).
        apply (In_dget Z.eqb Zeqb_spec _ _ _ Hnd) in Hin. unfold s2 in Hin. cbn [ms_tbuf set_tbuf] in Hin.
        destruct (Z.eq_dec c' c) as [->|Hn].
        * rewrite (dget_dset_same Z.eqb Zeqb_spec) in Hin. injection Hin as <-.
          apply dset_NoDup; [apply Zeqb_spec|]. unfold m.
          destruct (dget Z.eqb (ms_tbuf s) c) as [m0|] eqn:E0; [|constructor].
          apply (dget_In Z.eqb Zeqb_spec) in E0. eauto.
        * rewrite (dget_dset_other Z.eqb Zeqb_spec) in Hin by exact Hn.
          apply (dget_In Z.eqb Zeqb_spec) in Hin. eauto.
      + intros c' a' t. rewrite T2.
        destruct ((c' =? c) && (a' =? a)) eqn:Eb; [|eauto].
        intros [= <-]. apply andb_prop in Eb. destruct Eb as (E1 & E2). apply Z.eqb_eq in E1, E2.
        now subst.
      + intros c' a' t. rewrite T2.
        destruct ((c' =? c) && (a' =? a)) eqn:Eb; [|eauto].
        intros _. apply andb_prop in Eb. destruct Eb as (E1 & E2). apply Z.eqb_eq in E1, E2.
        now subst.
      + unfold s2. cbn [ms_intr set_tbuf]. congruence.
      + congruence.
    - destruct (to_bytes_ok v); [|apply post_throw; now apply step0_refl].
      eapply post_conseq; [apply hw_write_any| |].
      + intros u s1 (E1 & E2). apply Hadd. split; [eapply Buf0_ext; eauto|exact E2].
      + intros u s1 (E1 & E2). split; [eapply Buf0_ext; eauto|exact E2].
  Qed.

  Lemma removes_0 a l s : (forall c, In c l -> In c online) -> Buf0 s ->
    post (mfor l (fun c => cache_remove env a c (sc a))) s (fun _ s' => step0 s s') (fun _ s' => step0 s s').
  Proof.
    intros Hl B. eapply post_conseq; [apply (removes_post env Hwf a l (sc a) s (Hsc a) Hl)| |intros ? ? []].
    intros u s' (C & _). split; [eapply Buf0_co; eauto|apply C].
  Qed.

  (** A write: the buffer stays well formed; with verification, outside a transaction, success means
      that the hardware holds the value. *)
  Lemma write_0 a v cpus vf s : Buf0 s ->
    post (write env a v cpus (sc a) vf) s
      (fun _ s' => step0 s s' /\
         (vf = true -> ms_intr s = false -> forall c, In c (targets env cpus) -> ms_hw s' a (dom a c) = v))
      (fun _ s' => step0 s s').
  Proof.
    intros B. unfold write. apply post_bind, post_lift; [|intros e _; now apply step0_refl].
    intros l El. pose proof (normalized_online env cpus l El) as Hl.
    apply post_bind. eapply post_conseq; [apply (removes_0 a l s Hl B)| |auto].
    intros u s1 S1. apply post_bind.
    eapply post_conseq.
    { apply (post_mfor _ (fun _ s' => step0 s s') (fun _ s' => step0 s s')); [|exact S1].
      intros p c r Ep s2 S2. eapply post_conseq; [apply (write_one_0 a v vf c s2)| |].
      - apply Hl. rewrite Ep. apply in_app_iff. right. now left.
      - apply S2.
      - intros u2 s3 S3. eapply step0_trans; eauto.
      - intros u2 s3 S3. eapply step0_trans; eauto. }
    - intros u2 s2 S2. cbn beta in S2. apply post_bind, post_gets. rewrite (proj2 S2).
      destruct (vf && negb (ms_intr s)) eqn:Ev.
      + eapply post_conseq; [apply (verify_any env Hwf a v l (sc a) s2 (Hsc a) Hl)| |].
        * intros u3 s3 (C3 & V3). split.
          -- eapply step0_trans; [exact S2|]. split; [eapply Buf0_co; [exact C3|apply S2]|apply C3].
          -- intros _ _ c Hc. apply V3. now apply (normalized_targets env cpus l El).
        * intros e s3 C3. eapply step0_trans; [exact S2|]. split; [eapply Buf0_co; [exact C3|apply S2]|apply C3].
      + apply post_ret. split; [exact S2|]. intros -> Hi. rewrite Hi in Ev. discriminate.
    - auto.
  Qed.

  Lemma group_writes_0 a b val l : forall acc s, (forall c, In c l -> In c online) -> Buf0 s ->
    post (group_writes env a b val (sc a) l acc) s (fun _ s' => step0 s s') (fun _ s' => step0 s s').
  Proof.
    induction l as [|c r IH]; intros acc s Hl B; cbn [group_writes]; [apply post_ret; now apply step0_refl|].
    apply post_bind. eapply post_conseq; [apply (read_one_0 a c s (Hl c (or_introl eq_refl)) B)| |auto].
    intros [c' old] s1 S1. apply post_bind, post_lift; [|auto]. intros n En.
    assert (Hl' : forall c, In c r -> In c online) by (intros; apply Hl; now right).
    destruct (old =? n).
    - eapply post_conseq; [apply (IH acc s1 Hl' (proj1 S1))| |]; intros ? ? S2; eapply step0_trans; eauto.
    - eapply post_conseq; [apply (IH _ s1 Hl' (proj1 S1))| |]; intros ? ? S2; eapply step0_trans; eauto.
  Qed.

  Lemma transaction_write_0 s0 s : Buf0 s ->
    post (transaction_write env (ms_tbuf s0)) s (fun _ s' => step0 s s') (fun _ s' => step0 s s').
  Proof.
    intros B. unfold post. rewrite transaction_write_flat.
    apply (post_mfor (put env) (fun _ s' => step0 s s') (fun _ s' => step0 s s')); [|now apply step0_refl].
    intros p [[c a] v] r Ep s1 S1. cbn [put]. destruct (to_bytes_ok v); [|apply post_throw; exact S1].
    eapply post_conseq; [apply hw_write_any| |]; intros u s2 (E1 & E2);
      (eapply step0_trans; [exact S1|split; [eapply Buf0_ext; [exact E1|exact E2|apply S1]|exact E2]]).
  Qed.

  Lemma mstep_0 o s : op_scoped sc o -> Buf0 s ->
    post (mstep env o) s (fun _ s' => Buf0 s') (fun _ s' => Buf0 s').
  Proof.
    intros Hs B. destruct o as [a cpus sn|a v cpus sn vf|a b val cpus sn vf| | |]; cbn [mstep op_scoped] in *.
    - subst sn. unfold read. apply post_bind, post_lift; [|auto]. intros l El.
      pose proof (normalized_online env cpus l El) as Hl. unfold read_cpus.
      apply (post_mmap _ (fun _ _ s' => Buf0 s') (fun _ s' => Buf0 s')); [|exact B].
      intros p c r Ep q s1 B1. eapply post_conseq; [apply (read_one_0 a c s1)| |].
      + apply Hl. rewrite Ep. apply in_app_iff. right. now left.
      + exact B1.
      + intros cv s2 S2. apply S2.
      + intros cv s2 S2. apply S2.
    - subst sn. apply post_bind. eapply post_conseq; [apply (write_0 a v cpus vf s B)| |].
      + intros u s1 (S1 & _). apply post_ret, S1.
      + intros e s1 S1. apply S1.
    - destruct Hs as (-> & _). apply post_bind. unfold write_bits.
      apply post_bind, post_lift; [|auto]. intros l El.
      pose proof (normalized_online env cpus l El) as Hl.
      apply post_bind. eapply post_conseq; [apply (group_writes_0 a b val l [] s Hl B)| |intros e s1 S1; apply S1].
      intros groups s1 S1. eapply post_conseq.
      + apply (post_mfor _ (fun _ s' => Buf0 s') (fun _ s' => Buf0 s')); [|apply S1].
        intros p [g cl] r Ep s2 B2. cbn [fst snd].
        eapply post_conseq; [apply (write_0 a g (Some cl) vf s2 B2)| |].
        * intros u s3 (S3 & _). apply S3.
        * intros e s3 S3. apply S3.
      + intros u s2 B2. apply post_ret. exact B2.
      + auto.
    - apply post_bind. unfold start_transaction. destruct (me_cache env) eqn:Em; cbn [negb].
      + apply post_bind, post_gets. destruct (ms_intr s) eqn:Ei; [apply post_throw; exact B|].
        apply post_modify, post_ret. apply Buf0_empty; cbn; [now apply (b0_tr _ _ _ B)|congruence].
      + apply post_ret, post_ret. exact B.
    - apply post_bind. unfold flush_transaction. apply post_bind, post_gets, post_bind, post_gets.
      destruct (negb (me_cache env) || negb (ms_intr s)); [apply post_ret, post_ret; exact B|].
      destruct (ms_tbuf s) as [|x bf] eqn:Eb; [apply post_ret, post_ret; exact B|]. rewrite <- Eb.
      apply post_bind. eapply post_conseq; [apply (transaction_write_0 s s B)| |].
      + intros u s1 S1. cbn beta in S1. apply post_bind, post_modify. apply post_bind.
        eapply post_conseq; [apply (verify_all_any env sc Hwf Hsc s (set_tbuf [] s1) B)| |].
        * intros u2 s2 (C2 & _). apply post_ret, post_ret. eapply Buf0_co; [exact C2|].
          apply Buf0_empty; [reflexivity|]. cbn. rewrite (proj2 S1). apply B.
        * intros e s2 C2. eapply Buf0_co; [exact C2|].
          apply Buf0_empty; [reflexivity|]. cbn. rewrite (proj2 S1). apply B.
      + intros e s1 S1. apply S1.
    - apply post_bind. unfold commit_transaction. apply post_bind, post_gets.
      destruct (ms_intr s) eqn:Ei; cbn [negb]; [|apply post_throw; exact B].
      apply post_bind. unfold flush_transaction. apply post_bind, post_gets, post_bind, post_gets.
      assert (Hend : forall (b : bool) s', ms_tbuf s' = [] ->
         post (modify (set_intr false)) s' (fun _ s'' => post (ret []) s'' (fun (_ : list (Z * Z)) s' => Buf0 s') (fun _ s' => Buf0 s'))
              (fun _ s' => Buf0 s')).
      { intros _ s' E. apply post_modify, post_ret. apply Buf0_empty; [exact E|reflexivity]. }
      assert (Em : me_cache env = true).
      { destruct (me_cache env) eqn:Em; [reflexivity|]. rewrite (b0_cache _ _ _ B Em) in Ei. discriminate. }
      rewrite Em, Ei. cbn [negb orb].
      destruct (ms_tbuf s) as [|x bf] eqn:Eb.
      { apply post_ret. apply (Hend true). exact Eb. }
      rewrite <- Eb.
      apply post_bind. eapply post_conseq; [apply (transaction_write_0 s s B)| |].
      + intros u s1 S1. cbn beta in S1. apply post_bind, post_modify. apply post_bind.
        eapply post_conseq; [apply (verify_all_any env sc Hwf Hsc s (set_tbuf [] s1) B)| |].
        * intros u2 s2 (C2 & _). apply post_ret. apply (Hend true). rewrite (co_tbuf _ _ C2). reflexivity.
        * intros e s2 C2. eapply Buf0_co; [exact C2|].
          apply Buf0_empty; [reflexivity|]. cbn. rewrite (proj2 S1). apply B.
      + intros e s1 S1. apply S1.
  Qed.

  Lemma mrun_0 ops s : (forall o, In o ops -> op_scoped sc o) -> Buf0 s -> Buf0 (mrun env ops s).
  Proof.
    revert s. induction ops as [|o t IH]; intros s Hs B; [exact B|]. cbn [mrun fold_left].
    apply IH; [intros; apply Hs; now right|].
    pose proof (mstep_0 o s (Hs o (or_introl eq_refl)) B) as P. unfold post in P.
    now destruct (mstep env o s) as [[r|e] s'].
  Qed.
End AnyHw.

(** ** The cache alone (C43) *)

Section CacheOnly.
  Variable env : menv.
  Hypothesis Hwf : wf_ci (me_ci env).
  Hypothesis Hm : modules_unique (ci_topo (me_ci env)).
  Hypothesis Hon : me_cache env = true.

  Lemma crun_snoc ops o s : crun env (ops ++ [o]) s =
    snd (match o with
         | CAdd a c v sn => cache_add env a c v sn (crun env ops s)
         | CRemove a c sn => cache_remove env a c sn (crun env ops s)
         end).
  Proof. unfold crun. rewrite fold_left_app. reflexivity. Qed.

  Lemma cache_contract_l ops s0 a x :
    (forall a, ms_cache s0 a = None) -> (forall o, In o ops -> cop_ok env o) ->
    cached_after env a x ops (cache_get env (crun env ops s0) a x).
  Proof.
    intros H0. induction ops as [|o ops IH] using rev_ind; intros Hok.
    - cbn [crun fold_left]. unfold cache_get. rewrite Hon, H0. constructor.
    - assert (Hok' : forall o, In o ops -> cop_ok env o) by (intros; apply Hok, in_app_iff; now left).
      specialize (IH Hok').
      assert (Ho : cop_ok env o) by (apply Hok, in_app_iff; right; now left). clear Hok. rename Ho into Hok.
      rewrite crun_snoc. set (s := crun env ops s0) in *. destruct o as [a' c v sn|a' c sn]; cbn [cop_ok] in Hok.
      + destruct (siblings_spec_l (me_ci env) c sn Hwf (fun _ => Hm) Hok) as (l & El & _ & Il).
        unfold cache_add. rewrite Hon. cbn [negb]. unfold mbind, lift, modify. rewrite El. cbn [snd].
        unfold cache_get. rewrite Hon. cbn [ms_cache set_cache]. unfold upd.
        destruct (Z.eqb_spec a a') as [->|Hna].
        * destruct (inb x l) eqn:Eb.
          -- apply ca_add. split; [reflexivity|]. now apply Il, inb_In.
          -- apply ca_skip.
             ++ intros (_ & Hu). apply inb_false in Eb. apply Eb, Il, Hu.
             ++ unfold cache_get in IH. rewrite Hon in IH. now destruct (ms_cache s a').
        * apply ca_skip; [intros (E & _); congruence|]. unfold cache_get in IH. now rewrite Hon in IH.
      + destruct Hok as (Hc & Hng).
        destruct (siblings_spec_l (me_ci env) c sn Hwf (fun _ => Hm) Hc) as (l & El & _ & Il).
        assert (E : cache_get env (snd (cache_remove env a' c sn s)) a x =
                    if (a =? a') && inb x l then None else cache_get env s a x).
        { unfold cache_remove. rewrite Hon. cbn [negb].
          assert (G : cache_get env (snd ((let! sibs := lift (get_cpu_siblings (me_ci env) c sn) in
              modify (fun s => match ms_cache s a' with
                         | None => s
                         | Some m => set_cache (upd (ms_cache s) a'
                                        (Some (fun x => if inb x sibs then None else m x))) s
                         end)) s)) a x = if (a =? a') && inb x l then None else cache_get env s a x).
          { rewrite El. unfold mbind, lift, modify. cbn [snd]. unfold cache_get. rewrite Hon.
            destruct (ms_cache s a') as [m|] eqn:Em; cbn [ms_cache set_cache]; unfold upd.
            - destruct (Z.eqb_spec a a') as [->|]; cbn [andb]; [|reflexivity]. now rewrite Em.
            - destruct (Z.eqb_spec a a') as [->|]; cbn [andb]; [|reflexivity]. rewrite Em. now destruct (inb x l). }
          destruct sn; try exact G. contradiction. }
        rewrite E. destruct (Z.eqb_spec a a') as [->|Hna]; cbn [andb].
        * destruct (inb x l) eqn:Eb.
          -- apply ca_remove. split; [reflexivity|]. now apply Il, inb_In.
          -- apply ca_skip; [|exact IH]. intros (_ & Hu). apply inb_false in Eb. apply Eb, Il, Hu.
        * apply ca_skip; [intros (E' & _); congruence|exact IH].
  Qed.
End CacheOnly.
