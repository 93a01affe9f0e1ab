(** MSR writes and transactions refine the abstract register file (C04, C05, C06). *)
From Verif Require Import Base L_Base L_Monad M_CPUInfo S_CPUInfo L_CPUInfo M_MSR S_MSR L_Bits L_MSR.
From Coq Require Import ZifyBool Sorted.

Section Writes.
  Variable env : menv.
  Notation dom := (me_dom env).
  Notation ci := (me_ci env).
  Notation online := (ci_online (me_ci env)).
  Variable rep : Z -> Z -> Z.
  Variable sc : Z -> scope.
  Notation Coh := (Coh env rep sc).
  Notation CohX := (CohX env rep sc).
  Notation Buf := (Buf env rep sc).
  Notation doms := (doms env).
  Notation view := (view env).
  Hypothesis Hwf : wf_ci ci.
  Hypothesis Hsc : forall a, scope_right env a (sc a).
  Hypothesis Hfaith : faithful env.

  Lemma Buf_ext s s' : ms_tbuf s' = ms_tbuf s -> ms_intr s' = ms_intr s -> Buf s -> Buf s'.
  Proof.
    intros E1 E2 B. assert (T : forall c a, tentry s' c a = tentry s c a).
    { intros. unfold tentry. now rewrite E1. }
    destruct B. split; try (intros c a t; rewrite T; eauto); rewrite ?E1, ?E2; auto.
  Qed.

  (** States with the same hardware contents, log and transaction state. *)
  Definition unwritten (s s' : mstate) : Prop := ms_hw s' = ms_hw s /\ ms_log s' = ms_log s.

  Lemma hw_write_post a c v s :
    post (hw_write env a c v) s
      (fun _ s' => (forall a' d, ms_hw s' a' d = if (a' =? a) && (d =? dom a c) then v else ms_hw s a' d) /\
                   ms_tbuf s' = ms_tbuf s /\ ms_intr s' = ms_intr s /\ ms_cache s' = ms_cache s /\
                   ms_log s' = ms_log s ++ [(c, a, v)])
      (fun _ s' => cache_only s s' /\ ms_cache s' = ms_cache s).
  Proof.
    assert (G : forall s0 : mstate, forall a' d,
      upd (ms_hw s0) a (upd (ms_hw s0 a) (dom a c) (me_accept env a (ms_hw s0 a (dom a c)) v)) a' d
      = if (a' =? a) && (d =? dom a c) then v else ms_hw s0 a' d).
    { intros s0 a' d. unfold upd. rewrite Hfaith.
      destruct (Z.eqb_spec a' a) as [->|]; cbn [andb]; [|reflexivity]. reflexivity. }
    unfold hw_write, io, post, mbind, modify.
    destruct (ms_faults s) as [|[|] f]; cbn; repeat split; auto.
  Qed.

  Record WI (a v : Z) (l : list Z) (s1 : mstate) (p : list Z) (s : mstate) : Prop := {
    i_coh : CohX (fun a' d => a' = a /\ In d (doms a l) /\ ~ In d (doms a p)) s;
    i_none : forall c, In c online -> In (dom a c) (doms a l) -> ~ In (dom a c) (doms a p) ->
               cache_get env s a c = None;
    i_some : me_cache env = true -> forall c, In c online -> In (dom a c) (doms a p) ->
               cache_get env s a c <> None;
    i_new : forall d, In d (doms a p) -> view s a d = v;
    i_old : forall a' d, ~ (a' = a /\ In d (doms a p)) -> view s a' d = view s1 a' d;
    i_intr : ms_intr s = ms_intr s1;
    i_unw : ms_intr s1 = true -> unwritten s1 s }.

  (** What holds after a failed write. *)
  Record WE (a v : Z) (l : list Z) (s1 s : mstate) : Prop := {
    e_coh : Coh s;
    e_mix : forall d, view s a d = view s1 a d \/ view s a d = v;
    e_old : forall a' d, ~ (a' = a /\ In d (doms a l)) -> view s a' d = view s1 a' d;
    e_intr : ms_intr s = ms_intr s1;
    e_unw : ms_intr s1 = true -> unwritten s1 s }.

  Lemma doms_snoc a p c d : In d (doms a (p ++ [c])) <-> In d (doms a p) \/ d = dom a c.
  Proof.
    unfold L_MSR.doms. rewrite map_app, in_app_iff. cbn [map In]. intuition.
  Qed.

  Lemma write_one_step a v vf l s1 p c r s :
    l = p ++ c :: r -> (forall x, In x l -> In x online) ->
    (ms_intr s1 = true -> find (fun x => dom a x =? dom a c) l = Some (rep a (dom a c))) ->
    WI a v l s1 p s ->
    post (write_one env a v (sc a) vf c) s
      (fun _ s' => WI a v l s1 (p ++ [c]) s')
      (fun _ s' => WE a v l s1 s').
  Proof.
    intros El Hl Hrep I.
    assert (Hcl : In c l) by (rewrite El; apply in_app_iff; right; now left).
    assert (Hc : In c online) by auto.
    assert (HcW : In (dom a c) (doms a l)) by (apply doms_In; eauto).
    assert (HpW : forall d, In d (doms a p) -> In d (doms a l)).
    { intros d Hd. apply doms_In in Hd. destruct Hd as (x & Hx & <-). apply doms_In.
      exists x. split; [|reflexivity]. rewrite El. apply in_app_iff. now left. }
    destruct I as [IC IN IS IV IO II IU].
    unfold write_one. apply post_bind, post_gets.
    destruct (cache_get env s a c) as [w|] eqn:Eg.
    - (* the register was written through another CPU *)
      apply post_ret.
      assert (Hp : In (dom a c) (doms a p)).
      { destruct (in_dec Z.eq_dec (dom a c) (doms a p)) as [H|H]; [exact H|].
        rewrite IN in Eg by auto. discriminate. }
      assert (Hsame : forall d, In d (doms a (p ++ [c])) <-> In d (doms a p)).
      { intros d. rewrite doms_snoc. intuition. now subst. }
      split; auto.
      + eapply CohX_weaken; [|exact IC]. intros a' d (H1 & H2 & H3). rewrite Hsame. auto.
      + intros x Hx Hd. rewrite Hsame. auto.
      + intros Hm x Hx. rewrite Hsame. auto.
      + intros d. rewrite Hsame. auto.
      + intros a' d. rewrite Hsame. auto.
    - apply post_bind, post_gets. apply post_bind.
      destruct (ms_intr s) eqn:Eintr; cbn [negb].
      + (* in a transaction *)
        assert (Em : me_cache env = true).
        { destruct (me_cache env) eqn:Em; [reflexivity|].
          pose proof (b_cache _ _ _ _ (c_buf _ _ _ _ _ IC) Em). congruence. }
        assert (Hnp : ~ In (dom a c) (doms a p)).
        { intros H. apply (IS Em c Hc H). exact Eg. }
        assert (Hcrep : c = rep a (dom a c)).
        { assert (E : find (fun x => dom a x =? dom a c) l = Some c).
          { rewrite El. apply find_app_not; [|apply Z.eqb_refl].
            intros y Hy. apply Z.eqb_neq. intros E. apply Hnp, doms_In. eauto. }
          rewrite Hrep in E by congruence. congruence. }
        unfold add_for_transaction. rewrite Em. cbn [negb]. apply post_modify.
        set (m := match dget Z.eqb (ms_tbuf s) c with Some m => m | None => [] end).
        set (s2 := set_tbuf _ s).
        assert (T2 : forall c' a', tentry s2 c' a' =
                     if (c' =? c) && (a' =? a) then Some (TI v vf (sc a)) else tentry s c' a').
        { intros c' a'. unfold tentry, s2. cbn [ms_tbuf set_tbuf].
          destruct (Z.eqb_spec c' c) as [->|Hn]; cbn [andb].
          - rewrite (dget_dset_same Z.eqb Zeqb_spec). destruct (Z.eqb_spec a' a) as [->|Hna].
            + now rewrite (dget_dset_same Z.eqb Zeqb_spec).
            + rewrite (dget_dset_other Z.eqb Zeqb_spec) by exact Hna. unfold m.
              now destruct (dget Z.eqb (ms_tbuf s) c).
          - now rewrite (dget_dset_other Z.eqb Zeqb_spec) by exact Hn. }
        assert (B2 : Buf s2).
        { pose proof (c_buf _ _ _ _ _ IC) as B. destruct B as [B1 B2 B3 B4 B5 B6 B7]. split.
          - apply dset_NoDup; [apply Zeqb_spec|exact B1].
          - intros c' m' Hin.
            assert (Hnd : NoDup (map fst (ms_tbuf s2))) by (apply dset_NoDup; [apply Zeqb_spec|exact B1]).
            apply (In_dget Z.eqb Zeqb_spec _ _ _ Hnd) in Hin. unfold s2 in Hin. cbn [ms_tbuf set_tbuf] in Hin.
            destruct (Z.eq_dec c' c) as [->|Hn].
            + rewrite (dget_dset_same Z.eqb Zeqb_spec) in Hin. injection Hin as <-.
              apply dset_NoDup; [apply Zeqb_spec|]. unfold m.
              destruct (dget Z.eqb (ms_tbuf s) c) as [m0|] eqn:E0; [|constructor].
              apply (dget_In Z.eqb Zeqb_spec) in E0. eauto.
            + rewrite (dget_dset_other Z.eqb Zeqb_spec) in Hin by exact Hn.
              apply (dget_In Z.eqb Zeqb_spec) in Hin. eauto.
          - intros c' a' t. rewrite T2.
            destruct ((c' =? c) && (a' =? a)) eqn:Eb; [|eauto].
            intros _. apply andb_prop in Eb. destruct Eb as (E1 & E2). apply Z.eqb_eq in E1, E2.
            subst. exact Hcrep.
          - intros c' a' t. rewrite T2.
            destruct ((c' =? c) && (a' =? a)) eqn:Eb; [|eauto].
            intros [= <-]. apply andb_prop in Eb. destruct Eb as (E1 & E2). apply Z.eqb_eq in E1, E2.
            now subst.
          - intros c' a' t. rewrite T2.
            destruct ((c' =? c) && (a' =? a)) eqn:Eb; [|eauto].
            intros _. apply andb_prop in Eb. destruct Eb as (E1 & E2). apply Z.eqb_eq in E1, E2.
            now subst.
          - unfold s2. cbn [ms_intr set_tbuf]. congruence.
          - congruence. }
        assert (V2n : view s2 a (dom a c) = v).
        { assert (Ht : tentry s2 c a = Some (TI v vf (sc a))) by (rewrite T2, !Z.eqb_refl; reflexivity).
          rewrite (view_entry env rep sc s2 c a _ B2 Ht). reflexivity. }
        assert (V2o : forall a' d, ~ (a' = a /\ d = dom a c) -> view s2 a' d = view s a' d).
        { intros a' d Hne. pose proof (c_buf _ _ _ _ _ IC) as B.
          destruct (entry_dec env rep sc s a' d B) as [(c' & t & Ht & Hd)|Hnone].
          - assert (Ht2 : tentry s2 c' a' = Some t).
            { rewrite T2. destruct (Z.eqb_spec c' c) as [->|]; cbn [andb]; [|exact Ht].
              destruct (Z.eqb_spec a' a) as [->|]; [|exact Ht]. exfalso. apply Hne. auto. }
            rewrite <- Hd. now rewrite (view_entry env rep sc s2 c' a' t B2 Ht2),
              (view_entry env rep sc s c' a' t B Ht).
          - rewrite (view_hw env rep sc s a' d B Hnone).
            rewrite (view_hw env rep sc s2 a' d B2); [reflexivity|].
            intros c' t. rewrite T2. destruct ((c' =? c) && (a' =? a)) eqn:Eb; [|eauto].
            intros _ Hd. apply andb_prop in Eb. destruct Eb as (E1 & E2). apply Z.eqb_eq in E1, E2.
            subst c' a'. apply Hne. auto. }
        eapply post_conseq; [apply (cache_add_post env Hwf a c v (sc a) s2 (Hsc a) Hc)| |intros ? ? []].
        intros u s3 (C3 & _ & G3).
        assert (G3' : forall a' x, In x online -> cache_get env s3 a' x =
                  if (a' =? a) && (dom a x =? dom a c) then Some v else cache_get env s a' x).
        { intros a' x Hx. rewrite G3 by exact Hx. rewrite Em. reflexivity. }
        split.
        * split.
          -- eapply cache_only_Buf; eauto.
          -- intros a' x w Hx Ew. rewrite (cache_only_view env _ _ _ _ C3). rewrite G3' in Ew by exact Hx.
             destruct (Z.eqb_spec a' a) as [->|Hna]; cbn [andb] in Ew.
             ++ destruct (Z.eqb_spec (dom a x) (dom a c)) as [Ed|Ed].
                ** injection Ew as <-. now rewrite Ed.
                ** rewrite V2o by tauto. now apply (c_val _ _ _ _ _ IC).
             ++ rewrite V2o by tauto. now apply (c_val _ _ _ _ _ IC).
          -- intros a' c' t x Ht Hx Hd. rewrite (cache_only_tentry _ _ _ _ C3), T2 in Ht.
             destruct (Z.eqb_spec a' a) as [->|Hna].
             ++ destruct (Z.eq_dec (dom a c') (dom a c)) as [Ed|Ed].
                ** right. rewrite G3' by exact Hx. rewrite Z.eqb_refl, Hd, Ed, Z.eqb_refl. discriminate.
                ** assert (Hc' : (c' =? c) && true = false).
                   { rewrite andb_true_r. apply Z.eqb_neq. congruence. }
                   rewrite Hc' in Ht. clear Hc'.
                   destruct (c_pend _ _ _ _ _ IC a c' t x Ht Hx Hd) as [(_ & H1 & H2)|H1].
                   --- left. split; [reflexivity|]. split; [exact H1|]. rewrite doms_snoc. tauto.
                   --- right. rewrite G3' by exact Hx. destruct (_ && _); [discriminate|exact H1].
             ++ rewrite andb_false_r in Ht.
                destruct (c_pend _ _ _ _ _ IC a' c' t x Ht Hx Hd) as [(H0 & _)|H1]; [contradiction|].
                right. rewrite G3' by exact Hx. destruct (_ && _); [discriminate|exact H1].
        * intros x Hx Hd Hn. rewrite doms_snoc in Hn. rewrite G3' by exact Hx. rewrite Z.eqb_refl.
          destruct (Z.eqb_spec (dom a x) (dom a c)) as [Ed|Ed]; [exfalso; apply Hn; auto|].
          cbn [andb]. apply IN; auto.
        * intros _ x Hx Hd. rewrite doms_snoc in Hd. rewrite G3' by exact Hx. rewrite Z.eqb_refl.
          destruct (Z.eqb_spec (dom a x) (dom a c)) as [Ed|Ed]; [discriminate|].
          cbn [andb]. apply IS; tauto.
        * intros d Hd. rewrite (cache_only_view env _ _ _ _ C3). rewrite doms_snoc in Hd.
          destruct (Z.eq_dec d (dom a c)) as [->|Hn]; [exact V2n|]. rewrite V2o by tauto. apply IV. tauto.
        * intros a' d Hd. rewrite (cache_only_view env _ _ _ _ C3). rewrite doms_snoc in Hd.
          rewrite V2o by tauto. apply IO. tauto.
        * rewrite (co_intr _ _ C3). unfold s2. cbn [ms_intr set_tbuf]. congruence.
        * intros Hi. specialize (IU Hi). destruct IU. split.
          -- rewrite (co_hw _ _ C3). exact H.
          -- rewrite (co_log _ _ C3). exact H0.
      + (* direct write *)
        assert (Hb : ms_tbuf s = []) by (apply (b_tr _ _ _ _ (c_buf _ _ _ _ _ IC)); exact Eintr).
        assert (Hfail : forall s', cache_only s s' -> ms_cache s' = ms_cache s -> WE a v l s1 s').
        { intros s' C Ec. split.
          - eapply CohX_nobuf; [rewrite (co_tbuf _ _ C); exact Hb|].
            eapply Coh_cache_change; [exact C|exact IC| | |].
            + intros a' x w Hx Ew. rewrite (cache_get_ext env s s' a' x Ec) in Ew. auto.
            + intros a' x Hx Hn. left. now rewrite (cache_get_ext env s s' a' x Ec).
            + intros a' x Hx HX. left. exact HX.
          - intros d. rewrite (cache_only_view env _ _ _ _ C).
            destruct (in_dec Z.eq_dec d (doms a p)) as [Hd|Hd]; [right; now apply IV|left; apply IO; tauto].
          - intros a' d Hd. rewrite (cache_only_view env _ _ _ _ C). apply IO.
            intros (-> & H). apply Hd. auto.
          - rewrite (co_intr _ _ C). congruence.
          - intros Hi. congruence. }
        destruct (to_bytes_ok v); [|apply post_throw, Hfail; [apply cache_only_refl|reflexivity]].
        eapply post_conseq; [apply hw_write_post| |intros e s' (C & Ec); auto].
        intros u s2 (H2 & T2 & E2 & M2 & _).
        assert (V2 : forall a' d, view s2 a' d = if (a' =? a) && (d =? dom a c) then v else view s a' d).
        { intros a' d. rewrite (view_nobuf env s2) by congruence. rewrite H2.
          destruct (_ && _); [reflexivity|]. symmetry. now apply view_nobuf. }
        eapply post_conseq; [apply (cache_add_post env Hwf a c v (sc a) s2 (Hsc a) Hc)| |intros ? ? []].
        intros u' s3 (C3 & _ & G3).
        assert (G3' : forall a' x, In x online -> cache_get env s3 a' x =
                  if me_cache env && (a' =? a) && (dom a x =? dom a c) then Some v
                  else cache_get env s a' x).
        { intros a' x Hx. rewrite G3 by exact Hx. now rewrite (cache_get_ext env s s2 a' x M2). }
        assert (V3 : forall a' d, view s3 a' d = if (a' =? a) && (d =? dom a c) then v else view s a' d).
        { intros a' d. rewrite (cache_only_view env _ _ _ _ C3). apply V2. }
        split.
        * split.
          -- eapply Buf_ext; [| |exact (c_buf _ _ _ _ _ IC)].
             ++ rewrite (co_tbuf _ _ C3). exact T2.
             ++ rewrite (co_intr _ _ C3). exact E2.
          -- intros a' x w Hx Ew. rewrite V3. rewrite G3' in Ew by exact Hx.
             destruct (me_cache env) eqn:Em; cbn [andb] in Ew.
             ++ destruct (Z.eqb_spec a' a) as [->|Hna]; cbn [andb] in *.
                ** destruct (Z.eqb_spec (dom a x) (dom a c)) as [Ed|Ed]; [congruence|].
                   now apply (c_val _ _ _ _ _ IC).
                ** now apply (c_val _ _ _ _ _ IC).
             ++ unfold cache_get in Ew. rewrite Em in Ew. discriminate.
          -- intros a' c' t x Ht. unfold tentry in Ht. rewrite (co_tbuf _ _ C3), T2, Hb in Ht. discriminate.
        * intros x Hx Hd Hn. rewrite doms_snoc in Hn. rewrite G3' by exact Hx. rewrite Z.eqb_refl.
          destruct (Z.eqb_spec (dom a x) (dom a c)) as [Ed|Ed]; [exfalso; apply Hn; auto|].
          rewrite andb_false_r. apply IN; auto.
        * intros Em x Hx Hd. rewrite doms_snoc in Hd. rewrite G3' by exact Hx. rewrite Em, Z.eqb_refl.
          destruct (Z.eqb_spec (dom a x) (dom a c)) as [Ed|Ed]; [discriminate|].
          cbn [andb]. apply IS; tauto.
        * intros d Hd. rewrite V3, Z.eqb_refl. cbn [andb]. rewrite doms_snoc in Hd.
          destruct (Z.eqb_spec d (dom a c)) as [->|Hn]; [reflexivity|]. apply IV. tauto.
        * intros a' d Hd. rewrite V3. rewrite doms_snoc in Hd.
          destruct (Z.eqb_spec a' a) as [->|Hna]; cbn [andb].
          -- destruct (Z.eqb_spec d (dom a c)) as [->|Hn]; [tauto|]. apply IO. tauto.
          -- apply IO. tauto.
        * rewrite (co_intr _ _ C3), E2. congruence.
        * intros Hi. congruence.
  Qed.

  Lemma targeted_doms a cpus l d :
    normalize_cpus ci cpus false = Ok l -> In d (doms a l) <-> targeted env a cpus d.
  Proof.
    intros E. rewrite doms_In. unfold targeted.
    split; intros (c & Hc & Hd); exists c; split; auto; now apply (normalized_targets env cpus l E).
  Qed.

  (** Summary of the state change of a call that may write registers at [a]. *)
  Record keeps (s s' : mstate) : Prop := {
    k_coh : Coh s';
    k_intr : ms_intr s' = ms_intr s;
    k_unw : ms_intr s = true -> unwritten s s' }.

  Lemma keeps_trans s1 s2 s3 : keeps s1 s2 -> keeps s2 s3 -> keeps s1 s3.
  Proof.
    intros [A1 B1 C1] [A2 B2 C2]. split; auto; [congruence|].
    intros H. destruct (C1 H). destruct C2; [congruence|]. split; congruence.
  Qed.

  Lemma cache_only_keeps s s' : cache_only s s' -> Coh s' -> keeps s s'.
  Proof. intros C H. split; [exact H|apply C|]. intros _. split; apply C. Qed.

  Lemma write_post_mix a v cpus vf s :
    Coh s -> (ms_intr s = true -> first_is env rep a cpus) ->
    post (write env a v cpus (sc a) vf) s
      (fun _ s' => keeps s s' /\ op_effect env (OWrite a v cpus (sc a) vf) (view s) (view s'))
      (fun _ s' => keeps s s' /\
         (forall a' d, ~ (a' = a /\ targeted env a cpus d) -> view s' a' d = view s a' d) /\
         (forall d, view s' a d = view s a d \/ view s' a d = v)).
  Proof.
    intros H Hfi. unfold write. apply post_bind, post_lift.
    2:{ intros e _. split; [apply cache_only_keeps; [apply cache_only_refl|exact H]|split; [reflexivity|now left]]. }
    intros l El. pose proof (normalized_online env cpus l El) as Hl.
    apply post_bind. eapply post_conseq; [apply (removes_Coh env rep sc Hwf Hsc _ a l s Hl H)| |intros ? ? []].
    intros u s1 (C1 & H1 & G1). cbn beta in *.
    assert (I0 : WI a v l s1 [] s1).
    { split.
      - eapply CohX_weaken; [|exact H1]. intros a' d [[]|(-> & Hd)]. split; [reflexivity|]. split; auto.
      - intros c Hc Hd _. rewrite G1 by exact Hc. rewrite Z.eqb_refl.
        rewrite (proj2 (inb_In _ _)); [reflexivity|exact Hd].
      - intros _ c _ [].
      - intros d [].
      - reflexivity.
      - reflexivity.
      - intros _. split; reflexivity. }
    apply post_bind. eapply post_conseq.
    { apply (post_mfor _ (WI a v l s1) (fun _ s' => WE a v l s1 s')); [|exact I0].
      intros p c r Ep s2 I2. apply (write_one_step a v vf l s1 p c r s2 Ep Hl); [|exact I2].
      intros Hi. rewrite (co_intr _ _ C1) in Hi. specialize (Hfi Hi).
      rewrite (normalized_find env cpus l _ El). apply Hfi.
      apply (normalized_targets env cpus l El). rewrite Ep. apply in_app_iff. right. now left. }
    2:{ intros e s2 [E1 E5 E2 E3 E4]. split; [|split].
        - split; [exact E1| |].
          + rewrite E3. apply C1.
          + intros Hi. destruct E4 as (A & B); [rewrite (co_intr _ _ C1); exact Hi|].
            split; [rewrite A; apply C1|rewrite B; apply C1].
        - intros a' d Hd. rewrite E2; [apply (cache_only_view env _ _ _ _ C1)|].
          rewrite (targeted_doms a cpus l d El). exact Hd.
        - intros d. rewrite <- (cache_only_view env _ _ a d C1). apply E5. }
    intros u2 s2 [J1 J2 J3 J4 J5 J6 J7]. cbn beta in *.
    assert (H2 : Coh s2).
    { eapply CohX_weaken; [|exact J1]. cbn beta. tauto. }
    assert (K2 : keeps s s2).
    { split; [exact H2|rewrite J6; apply C1|]. intros Hi.
      destruct J7 as (A & B); [rewrite (co_intr _ _ C1); exact Hi|].
      split; [rewrite A; apply C1|rewrite B; apply C1]. }
    assert (E2 : op_effect env (OWrite a v cpus (sc a) vf) (view s) (view s2)).
    { intros a' d. rewrite <- (targeted_doms a cpus l d El). split.
      - intros (-> & Hd). auto.
      - intros Hd. rewrite J5 by exact Hd. apply (cache_only_view env _ _ _ _ C1). }
    apply post_bind, post_gets.
    destruct (vf && negb (ms_intr s2)) eqn:Ev; [|apply post_ret; auto].
    apply andb_prop in Ev. destruct Ev as (_ & Ev). apply negb_true_iff in Ev.
    assert (Hb : ms_tbuf s2 = []) by (apply (b_tr _ _ _ _ (c_buf _ _ _ _ _ H2)); exact Ev).
    eapply post_conseq; [apply (verify_post env rep sc Hwf Hsc a v l s2 Hl H2 Hb)| |].
    - intros u3 s3 (C3 & H3 & _). split; [eapply keeps_trans; [exact K2|now apply cache_only_keeps]|].
      intros a' d. rewrite (cache_only_view env _ _ _ _ C3). apply E2.
    - intros e s3 (C3 & H3). split; [eapply keeps_trans; [exact K2|now apply cache_only_keeps]|]. split.
      + intros a' d Hd. rewrite (cache_only_view env _ _ _ _ C3). now apply E2.
      + intros d. rewrite (cache_only_view env _ _ _ _ C3). destruct (E2 a d) as (E2a & E2b).
        destruct (in_dec Z.eq_dec d (doms a l)) as [Hd|Hd]; rewrite (targeted_doms a cpus l d El) in Hd; [right; now apply E2a|left; apply E2b; tauto].
  Qed.

  Lemma write_post a v cpus vf s :
    Coh s -> (ms_intr s = true -> first_is env rep a cpus) ->
    post (write env a v cpus (sc a) vf) s
      (fun _ s' => keeps s s' /\ op_effect env (OWrite a v cpus (sc a) vf) (view s) (view s'))
      (fun _ s' => keeps s s' /\
         forall a' d, ~ (a' = a /\ targeted env a cpus d) -> view s' a' d = view s a' d).
  Proof. intros H Hfi. eapply post_conseq; [apply (write_post_mix a v cpus vf s H Hfi)|auto|intros e s' (K & E & _); auto]. Qed.

  (** ** write_bits *)

  Section Bits.
    Variables (a : Z) (b : bits_t) (val : option Z) (s0 : mstate).
    Definition newval (d : Z) : res Z := set_bits (view s0 a d) b val.
    Definition chosen (g c : Z) : bool :=
      match newval (dom a c) with
      | Ok n => (n =? g) && negb (view s0 a (dom a c) =? n)
      | Exn _ => false
      end.

    Record GI (p : list Z) (acc : list (Z * list Z)) : Prop := {
      g_nodup : NoDup (map fst acc);
      g_cpus : forall g cl, In (g, cl) acc -> cl = filter (chosen g) p;
      g_all : forall c, In c p -> exists n, newval (dom a c) = Ok n /\
                (n = view s0 a (dom a c) \/ In n (map fst acc)) }.

    Lemma chosen_dom g x c : dom a x = dom a c -> chosen g x = chosen g c.
    Proof. intros E. unfold chosen. now rewrite E. Qed.

    Lemma group_writes_post l : (forall c, In c l -> In c online) ->
      forall r p acc s, l = p ++ r -> cache_only s0 s -> Coh s -> GI p acc ->
      post (group_writes env a b val (sc a) r acc) s
        (fun acc' s' => cache_only s0 s' /\ Coh s' /\ GI l acc')
        (fun _ s' => cache_only s0 s' /\ Coh s').
    Proof.
      intros Hl. induction r as [|c r IH]; intros p acc s El C H G.
      - cbn [group_writes]. rewrite app_nil_r in El. subst p. apply post_ret. auto.
      - cbn [group_writes]. apply post_bind.
        assert (Hc : In c online) by (apply Hl; rewrite El; apply in_app_iff; right; now left).
        eapply post_conseq; [apply (read_one_post env rep sc Hwf Hsc a c s Hc H)| |].
        2:{ intros e s' (C' & H'). split; [eapply cache_only_trans; eauto|exact H']. }
        intros cv s1 (-> & C1 & H1). cbn beta iota.
        assert (C01 : cache_only s0 s1) by (eapply cache_only_trans; eauto).
        rewrite (cache_only_view env _ _ _ _ C).
        apply post_bind, post_lift; [|auto].
        intros n En.
        assert (El' : l = (p ++ [c]) ++ r) by (now rewrite <- app_assoc).
        destruct (Z.eqb_spec (view s0 a (dom a c)) n) as [Eon|Eon].
        + apply (IH (p ++ [c])); auto. destruct G as [G1 G2 G3]. split; auto.
          * intros g cl Hin. rewrite filter_app, <- (G2 g cl Hin). cbn [filter].
            assert (Ech : chosen g c = false).
            { unfold chosen, newval. rewrite En, Eon, Z.eqb_refl. apply andb_false_r. }
            rewrite Ech. now rewrite app_nil_r.
          * intros x Hx. apply in_app_iff in Hx. destruct Hx as [Hx|[<-|[]]]; [auto|].
            exists n. unfold newval. auto.
        + apply (IH (p ++ [c])); auto.
          destruct G as [G1 G2 G3]. split.
          * apply dset_NoDup; [apply Zeqb_spec|exact G1].
          * intros g cl Hin.
            assert (Hnd : NoDup (map fst (dset Z.eqb acc n
              (match dget Z.eqb acc n with Some l => l | None => [] end ++ [c]))))
              by (apply dset_NoDup; [apply Zeqb_spec|exact G1]).
            apply (In_dget Z.eqb Zeqb_spec _ _ _ Hnd) in Hin.
            rewrite filter_app. cbn [filter].
            assert (Ech : chosen g c = (n =? g)).
            { unfold chosen, newval. rewrite En. destruct (Z.eqb_spec (view s0 a (dom a c)) n); [contradiction|].
              apply andb_true_r. }
            rewrite Ech.
            destruct (Z.eqb_spec n g) as [->|Hng].
            -- rewrite (dget_dset_same Z.eqb Zeqb_spec) in Hin. injection Hin as <-. f_equal.
               destruct (dget Z.eqb acc g) as [l0|] eqn:E0.
               ++ apply G2. now apply (dget_In Z.eqb Zeqb_spec).
               ++ symmetry. apply (dget_None Z.eqb Zeqb_spec) in E0.
                  destruct (filter (chosen g) p) as [|y t] eqn:Ef; [reflexivity|].
                  assert (Hy : In y (filter (chosen g) p)) by (rewrite Ef; now left).
                  apply filter_In in Hy. destruct Hy as (Hy & Hch).
                  destruct (G3 y Hy) as (n' & En' & Hn'). unfold chosen in Hch. rewrite En' in Hch.
                  apply andb_prop in Hch. destruct Hch as (A & B). apply Z.eqb_eq in A. subst n'.
                  destruct Hn' as [->|Hn']; [|contradiction]. now rewrite Z.eqb_refl in B.
            -- rewrite (dget_dset_other Z.eqb Zeqb_spec) in Hin by auto. rewrite app_nil_r.
               apply G2. now apply (dget_In Z.eqb Zeqb_spec).
          * intros x Hx. apply in_app_iff in Hx. destruct Hx as [Hx|[<-|[]]].
            -- destruct (G3 x Hx) as (n' & En' & Hn'). exists n'. split; [exact En'|].
               destruct Hn'; [auto|]. right. apply (dset_keys_In Z.eqb Zeqb_spec). auto.
            -- exists n. unfold newval. split; [exact En|]. right.
               apply (dset_keys_In Z.eqb Zeqb_spec). auto.
    Qed.
  End Bits.

  Lemma write_bits_post_mix a b val cpus vf s :
    Coh s -> (ms_intr s = true -> first_is env rep a cpus) ->
    field_ok b -> match val with Some v => 0 <= v | None => True end ->
    post (write_bits env a b val cpus (sc a) vf) s
      (fun _ s' => keeps s s' /\ op_effect env (OWriteBits a b val cpus (sc a) vf) (view s) (view s'))
      (fun _ s' => keeps s s' /\
         (forall a' d, ~ (a' = a /\ targeted env a cpus d) -> view s' a' d = view s a' d) /\
         (forall d, view s' a d = view s a d \/ newval a b val s d = Ok (view s' a d))).
  Proof.
    intros H Hfi Hf Hv. unfold write_bits. apply post_bind, post_lift.
    2:{ intros e _. split; [apply cache_only_keeps; [apply cache_only_refl|exact H]|split; [reflexivity|now left]]. }
    intros l El. pose proof (normalized_online env cpus l El) as Hl.
    apply post_bind. eapply post_conseq.
    { apply (group_writes_post a b val s l Hl l [] [] s eq_refl (cache_only_refl s) H).
      split; [constructor|intros ? ? []|intros ? []]. }
    2:{ intros e s1 (C1 & H1). split; [now apply cache_only_keeps|]. split.
        - intros a' d _. apply (cache_only_view env _ _ _ _ C1).
        - intros d. left. apply (cache_only_view env _ _ _ _ C1). }
    intros groups s1 (C1 & H1 & G). destruct G as [G1 G2 G3].
    set (gc := fun (q : list (Z * list Z)) (d : Z) => exists g cl c, In (g, cl) q /\ In c cl /\ dom a c = d).
    assert (Hgt : forall q r d, groups = q ++ r -> gc q d -> targeted env a cpus d /\
                exists n, newval a b val s d = Ok n /\ n <> view s a d).
    { intros q r d Eq (g & cl & c & Hin & Hc & Hd).
      assert (Hg : In (g, cl) groups) by (rewrite Eq; apply in_app_iff; now left).
      rewrite (G2 g cl Hg) in Hc. apply filter_In in Hc. destruct Hc as (Hc & Hch). split.
      - exists c. split; [now apply (normalized_targets env cpus l El)|exact Hd].
      - unfold chosen in Hch. rewrite Hd in Hch. destruct (newval a b val s d) as [n|] eqn:En; [|discriminate].
        exists n. split; [reflexivity|]. apply andb_prop in Hch. destruct Hch as (_ & B).
        intros ->. now rewrite Z.eqb_refl in B. }
    set (I := fun (q : list (Z * list Z)) (s' : mstate) => keeps s s' /\
      (forall d, gc q d -> newval a b val s d = Ok (view s' a d)) /\
      (forall a' d, ~ (a' = a /\ gc q d) -> view s' a' d = view s a' d)).
    eapply post_conseq.
    { apply (post_mfor _ I (fun _ s' => keeps s s' /\
         (forall a' d, ~ (a' = a /\ targeted env a cpus d) -> view s' a' d = view s a' d) /\
         (forall d, view s' a d = view s a d \/ newval a b val s d = Ok (view s' a d)))).
      - intros q [g cl] r Eq s2 (K2 & N2 & O2). cbn [fst snd].
        assert (Hg : In (g, cl) groups) by (rewrite Eq; apply in_app_iff; right; now left).
        pose proof (G2 g cl Hg) as Ecl.
        assert (Hch : forall c, In c cl -> In c l /\ newval a b val s (dom a c) = Ok g /\ In c (targets env cpus)).
        { intros c Hc. rewrite Ecl in Hc. apply filter_In in Hc. destruct Hc as (Hc & Hch).
          split; [exact Hc|]. split; [|now apply (normalized_targets env cpus l El)].
          unfold chosen in Hch. destruct (newval a b val s (dom a c)) as [n|]; [|discriminate].
          apply andb_prop in Hch. destruct Hch as (A & _). apply Z.eqb_eq in A. now subst. }
        assert (Hsub : forall d, targeted env a (Some cl) d -> targeted env a cpus d).
        { intros d (c & Hc & Hd). exists c. split; [|exact Hd]. now apply Hch. }
        eapply post_conseq; [apply (write_post_mix a g (Some cl) vf s2 (k_coh _ _ K2))| |].
        + rewrite (k_intr _ _ K2). intros Hi c Hc. cbn [ordered_targets targets] in *.
          specialize (Hfi Hi). destruct (Hch c Hc) as (Hcl & Hn & Ht). rewrite <- (Hfi c Ht).
          rewrite <- (normalized_find env cpus l _ El). rewrite Ecl. apply find_filter.
          intros x Hx. apply Z.eqb_eq in Hx. rewrite (chosen_dom a b val s g x c Hx).
          rewrite Ecl in Hc. apply filter_In in Hc. apply Hc.
        + intros u s3 (K3 & E3). unfold op_effect in E3. split; [eapply keeps_trans; eauto|].
          assert (Hdec : forall d, targeted env a (Some cl) d \/ ~ targeted env a (Some cl) d).
          { intros d. destruct (in_dec Z.eq_dec d (doms a cl)) as [Hd|Hd]; rewrite doms_In in Hd; auto. }
          split.
          * intros d (g' & cl' & c & Hin & Hc & Hd). destruct (Hdec d) as [Ht|Ht].
            -- destruct (E3 a d) as (E3a & _). rewrite E3a by auto.
               destruct Ht as (c' & Hc' & <-). now apply Hch.
            -- destruct (E3 a d) as (_ & E3b). rewrite E3b by tauto. apply N2.
               apply in_app_iff in Hin. destruct Hin as [Hin|[[= <- <-]|[]]].
               ++ exists g', cl', c. auto.
               ++ exfalso. apply Ht. exists c. auto.
          * intros a' d Hn. destruct (E3 a' d) as (_ & E3b). rewrite E3b.
            -- apply O2. intros (-> & g' & cl' & c & Hin & Hc & Hd). apply Hn. split; [reflexivity|].
               exists g', cl', c. split; [apply in_app_iff; now left|auto].
            -- intros (-> & c & Hc & Hd). apply Hn. split; [reflexivity|]. exists g, cl, c.
               split; [apply in_app_iff; right; now left|auto].
        + intros e s3 (K3 & E3 & E4). split; [eapply keeps_trans; eauto|]. split.
          * intros a' d Hd. rewrite E3.
            -- apply O2. intros (-> & Hg'). apply Hd. split; [reflexivity|].
               eapply (Hgt q ((g, cl) :: r)); eauto.
            -- intros (-> & Ht). apply Hd. auto.
          * intros d. assert (M2 : view s2 a d = view s a d \/ newval a b val s d = Ok (view s2 a d)).
            { destruct (existsb (fun gl => existsb (fun c => dom a c =? d) (snd gl)) q) eqn:Ex.
              - right. apply N2. apply existsb_exists in Ex. destruct Ex as ([g' cl'] & Hin & Ex).
                apply existsb_exists in Ex. destruct Ex as (c & Hc & Ex). apply Z.eqb_eq in Ex.
                exists g', cl', c. auto.
              - left. apply O2. intros (_ & g' & cl' & c & Hin & Hc & Hd).
                assert (Y : existsb (fun gl => existsb (fun c => dom a c =? d) (snd gl)) q = true).
                { apply existsb_exists. exists (g', cl'). split; [exact Hin|]. apply existsb_exists. exists c.
                  split; [exact Hc|]. now apply Z.eqb_eq. }
                congruence. }
            destruct (in_dec Z.eq_dec d (doms a cl)) as [Hd|Hd].
            -- rewrite doms_In in Hd. destruct Hd as (c & Hc & <-). destruct (Hch c Hc) as (_ & Hn & _).
               destruct (E4 (dom a c)) as [Ev|Ev]; rewrite Ev; [exact M2|right; exact Hn].
            -- rewrite E3; [exact M2|]. intros (_ & c & Hc & Ed). apply Hd, doms_In. eauto.
      - split; [now apply cache_only_keeps|]. split.
        + intros d (? & ? & ? & [] & _).
        + intros a' d _. apply (cache_only_view env _ _ _ _ C1). }
    - intros u s2 (K2 & N2 & O2). split; [exact K2|]. intros a' d. split.
      + intros (-> & c & Hc & Hd). apply (normalized_targets env cpus l El) in Hc.
        destruct (G3 c Hc) as (n & En & Hn). rewrite Hd in *.
        assert (Ew : newval a b val s d = Ok (view s2 a d)).
        { destruct (Z.eq_dec n (view s a d)) as [Ens|Ens].
          - rewrite O2; [now rewrite <- Ens|]. intros (_ & Hg).
            destruct (Hgt groups [] d) as (_ & n' & En' & Hn'); [now rewrite app_nil_r|exact Hg|]. congruence.
          - destruct Hn as [Hn|Hn]; [contradiction|]. apply in_map_iff in Hn.
            destruct Hn as ([g cl] & Eg & Hin). cbn [fst] in Eg. subst g.
            apply N2. exists n, cl, c. split; [exact Hin|]. split; [|exact Hd].
            rewrite (G2 n cl Hin). apply filter_In. split; [exact Hc|].
            unfold chosen. rewrite Hd, En, Z.eqb_refl. cbn [andb]. apply negb_true_iff, Z.eqb_neq. congruence. }
        apply (set_bits_is_set _ _ _ _ Hf Hv) in Ew. apply Ew.
      + intros Hn. apply O2. intros (-> & Hg). apply Hn. split; [reflexivity|].
        eapply (Hgt groups []); [now rewrite app_nil_r|exact Hg].
    - auto.
  Qed.

  Lemma write_bits_post a b val cpus vf s :
    Coh s -> (ms_intr s = true -> first_is env rep a cpus) ->
    field_ok b -> match val with Some v => 0 <= v | None => True end ->
    post (write_bits env a b val cpus (sc a) vf) s
      (fun _ s' => keeps s s' /\ op_effect env (OWriteBits a b val cpus (sc a) vf) (view s) (view s'))
      (fun _ s' => keeps s s' /\
         forall a' d, ~ (a' = a /\ targeted env a cpus d) -> view s' a' d = view s a' d).
  Proof. intros H Hfi Hf Hv. eapply post_conseq; [apply (write_bits_post_mix a b val cpus vf s H Hfi Hf Hv)|auto|intros e s' (K & E & _); auto]. Qed.
End Writes.
