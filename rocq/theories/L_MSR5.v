(** When I/O works, MSR calls succeed. *)
From Verif Require Import Base L_Base L_Monad M_CPUInfo S_CPUInfo L_CPUInfo M_MSR S_MSR L_Bits L_MSR L_MSR2 L_MSR3 L_MSR4.
From Coq Require Import ZifyBool Sorted.

Lemma post_live {S A} (m : M S A) s (Q Q' : A -> S -> Prop) (E : exc -> S -> Prop) :
  post m s Q E -> post m s Q' (fun _ _ => False) -> post m s (fun a s' => Q a s' /\ Q' a s') (fun _ _ => False).
Proof. unfold post. destruct (m s) as [[a|e] s']; tauto. Qed.

Section Live.
  Variable env : menv.
  Notation dom := (me_dom env).
  Notation ci := (me_ci env).
  Notation online := (ci_online (me_ci env)).
  Variable rep : Z -> Z -> Z.
  Variable sc : Z -> scope.
  Notation Coh := (Coh env rep sc).
  Notation view := (view env).
  Notation keeps := (keeps env rep sc).
  Hypothesis Hwf : wf_ci ci.
  Hypothesis Hsc : forall a, scope_right env a (sc a).
  Hypothesis Hfaith : faithful env.

  Definition live {A} (m : M mstate A) (s : mstate) : Prop := post m s (fun _ s' => io_works s') (fun _ _ => False).

  Lemma works_faults s s' : ms_faults s' = ms_faults s -> io_works s -> io_works s'.
  Proof. unfold io_works. now intros ->. Qed.

  Lemma io_live s : io_works s -> post io s (fun _ s' => io_works s' /\ s' = set_faults (ms_faults s') s) (fun _ _ => False).
  Proof.
    unfold post, io, io_works. destruct s as [h m i t f l]. cbn [ms_faults]. intros H. destruct f as [|b f].
    - cbn. split; [intros ? []|reflexivity].
    - rewrite (H b (or_introl eq_refl)) in *. cbn. split; [intros x Hx; apply H; now right|reflexivity].
  Qed.

  Lemma hw_read_live a c s : io_works s -> live (hw_read env a c) s.
  Proof.
    intros H. apply post_bind. eapply post_conseq; [apply (io_live s H)| |auto]. intros u s' (W & _).
    apply post_gets. exact W.
  Qed.

  Lemma hw_write_live a c v s : io_works s -> live (hw_write env a c v) s.
  Proof.
    intros H. apply post_bind. eapply post_conseq; [apply (io_live s H)| |auto]. intros u s' (W & _).
    apply post_modify. exact W.
  Qed.

  Lemma cache_add_live a c v s : In c online -> io_works s -> live (cache_add env a c v (sc a)) s.
  Proof.
    intros Hc H. eapply post_conseq; [apply (cache_add_post env Hwf a c v (sc a) s (Hsc a) Hc)| |auto].
    intros u s' (_ & F & _). eapply works_faults; eauto.
  Qed.

  Lemma read_one_live a c s : In c online -> io_works s -> live (read_one env a (sc a) c) s.
  Proof.
    intros Hc H. apply post_bind, post_gets. destruct (cache_get env s a c); [apply post_ret; exact H|].
    apply post_bind. eapply post_conseq; [apply (hw_read_live a c s H)| |auto]. intros v s1 W1.
    apply post_bind. eapply post_conseq; [apply (cache_add_live a c v s1 Hc W1)| |auto]. intros u s2 W2.
    apply post_ret. exact W2.
  Qed.

  Lemma read_cpus_live a l s : (forall c, In c l -> In c online) -> io_works s -> live (read_cpus env a l (sc a)) s.
  Proof.
    intros Hl H. apply (post_mmap _ (fun _ _ s' => io_works s') (fun _ _ => False)); [|exact H].
    intros p c r El q s1 W. apply read_one_live; [|exact W]. apply Hl. rewrite El. apply in_app_iff. right. now left.
  Qed.

  Lemma removes_live a l s : (forall c, In c l -> In c online) -> io_works s ->
    live (mfor l (fun c => cache_remove env a c (sc a))) s.
  Proof.
    intros Hl H. eapply post_conseq; [apply (removes_post env Hwf a l (sc a) s (Hsc a) Hl)| |auto].
    intros u s' (_ & F & _). eapply works_faults; eauto.
  Qed.

  Lemma verify_live a v l s : (forall c, In c l -> In c online) -> Coh s -> ms_tbuf s = [] ->
    (forall c, In c l -> view s a (dom a c) = v) -> io_works s -> live (verify env a v l (sc a)) s.
  Proof.
    intros Hl H Hb Hv W. unfold verify. apply post_bind.
    eapply post_conseq; [apply (post_live _ _ _ _ _ (removes_Coh env rep sc Hwf Hsc _ a l s Hl H) (removes_live a l s Hl W))| |auto].
    intros u s1 ((C1 & H1 & _) & W1). cbn beta in *.
    assert (H1' : Coh s1).
    { eapply CohX_nobuf; [|exact H1]. now rewrite (co_tbuf _ _ C1). }
    eapply post_conseq; [apply (post_mfor _ (fun p s' => (cache_only s s' /\ Coh s') /\ io_works s') (fun _ _ => False))| |auto].
    - intros p c r El s2 ((C2 & H2) & W2). assert (Hcl : In c l) by (rewrite El; apply in_app_iff; right; now left).
      apply post_bind. eapply post_conseq; [apply (post_live _ _ _ _ _ (read_one_post env rep sc Hwf Hsc a c s2 (Hl c Hcl) H2) (read_one_live a c s2 (Hl c Hcl) W2))| |auto].
      intros cv s3 ((-> & C3 & H3) & W3). cbn beta iota.
      rewrite (cache_only_view env _ _ _ _ C2), (Hv c Hcl), Z.eqb_refl. apply post_ret. split; [split|]; auto.
      eapply cache_only_trans; eauto.
    - auto.
    - intros u2 s2 (_ & W2). exact W2.
  Qed.

  Lemma write_one_live a v vf c s : In c online -> io_works s -> to_bytes_ok v = true ->
    (ms_intr s = true -> me_cache env = true) -> live (write_one env a v (sc a) vf c) s.
  Proof.
    intros Hc H Hv Hi. apply post_bind, post_gets. destruct (cache_get env s a c); [apply post_ret; exact H|].
    apply post_bind, post_gets, post_bind. rewrite Hv. destruct (ms_intr s) eqn:Ei; cbn [negb].
    - unfold add_for_transaction. rewrite Hi by reflexivity. cbn [negb]. apply post_modify. now apply cache_add_live.
    - eapply post_conseq; [apply (hw_write_live a c v s H)| |auto]. intros u s1 W1. now apply cache_add_live.
  Qed.

  Lemma intr_cache s : Coh s -> ms_intr s = true -> me_cache env = true.
  Proof.
    intros H Hi. destruct (me_cache env) eqn:Em; [reflexivity|]. pose proof (b_cache _ _ _ _ (c_buf _ _ _ _ _ H) Em). congruence.
  Qed.

  Lemma write_live a v cpus vf s : Coh s -> (ms_intr s = true -> first_is env rep a cpus) -> io_works s ->
    to_bytes_ok v = true -> (exists l, normalize_cpus ci cpus false = Ok l) -> live (write env a v cpus (sc a) vf) s.
  Proof.
    intros H Hfi W Hv (l & El). unfold live, write. apply post_bind, post_lift; [|intros e E; congruence].
    intros l' El'. rewrite El in El'. injection El' as <-. pose proof (normalized_online env cpus l El) as Hl.
    apply post_bind. eapply post_conseq; [apply (post_live _ _ _ _ _ (removes_Coh env rep sc Hwf Hsc _ a l s Hl H) (removes_live a l s Hl W))| |auto].
    intros u s1 ((C1 & H1 & G1) & W1). cbn beta in *.
    assert (I0 : WI env rep sc a v l s1 [] s1).
    { split.
      - eapply CohX_weaken; [|exact H1]. intros a' d [[]|(-> & Hd)]. split; [reflexivity|]. split; auto.
      - intros c Hc Hd _. rewrite G1 by exact Hc. rewrite Z.eqb_refl.
        rewrite (proj2 (inb_In _ _)); [reflexivity|exact Hd].
      - intros _ c _ [].
      - intros d [].
      - reflexivity.
      - reflexivity.
      - intros _. split; reflexivity. }
    apply post_bind. eapply post_conseq.
    { apply (post_mfor _ (fun p s' => WI env rep sc a v l s1 p s' /\ io_works s') (fun _ _ => False)); [|auto].
      intros p c r Ep s2 (I2 & W2). apply (post_live _ _ (fun _ s' => WI env rep sc a v l s1 (p ++ [c]) s') _ (fun _ s' => WE env rep sc a v l s1 s')).
      - apply (write_one_step env rep sc Hwf Hsc Hfaith a v vf l s1 p c r s2 Ep Hl); [|exact I2].
        intros Hi. rewrite (co_intr _ _ C1) in Hi. specialize (Hfi Hi).
        rewrite (normalized_find env cpus l _ El). apply Hfi.
        apply (normalized_targets env cpus l El). rewrite Ep. apply in_app_iff. right. now left.
      - apply write_one_live; auto; [apply Hl; rewrite Ep; apply in_app_iff; right; now left|].
        intros Hi. apply (intr_cache s H). rewrite (i_intr _ _ _ _ _ _ _ _ _ I2) in Hi. now rewrite (co_intr _ _ C1) in Hi. }
    2:{ auto. }
    intros u2 s2 ([J1 J2 J3 J4 J5 J6 J7] & W2). cbn beta in *.
    assert (H2 : Coh s2). { eapply CohX_weaken; [|exact J1]. cbn beta. tauto. }
    apply post_bind, post_gets. destruct (vf && negb (ms_intr s2)) eqn:Ev; [|apply post_ret; exact W2].
    apply andb_prop in Ev as (_ & Ev). apply negb_true_iff in Ev.
    assert (Hb : ms_tbuf s2 = []) by (apply (b_tr _ _ _ _ (c_buf _ _ _ _ _ H2)); exact Ev).
    apply verify_live; auto. intros c Hc. apply J4. apply doms_In. eauto.
  Qed.

  Lemma group_writes_live a b val : forall l acc s, (forall c, In c l -> In c online) -> Coh s -> io_works s ->
    (forall c, In c l -> exists n, set_bits (view s a (dom a c)) b val = Ok n) ->
    live (group_writes env a b val (sc a) l acc) s.
  Proof.
    induction l as [|c l IH]; intros acc s Hl H W Hn; cbn [group_writes]; [apply post_ret; exact W|].
    assert (Hc : In c online) by (apply Hl; now left).
    apply post_bind. eapply post_conseq; [apply (post_live _ _ _ _ _ (read_one_post env rep sc Hwf Hsc a c s Hc H) (read_one_live a c s Hc W))| |auto].
    intros cv s1 ((-> & C1 & H1) & W1). cbn beta iota.
    destruct (Hn c (or_introl eq_refl)) as (n & En). rewrite En. apply post_bind, post_lift; [|discriminate].
    intros n' [= <-].
    assert (R : forall acc', live (group_writes env a b val (sc a) l acc') s1).
    { intros acc'. apply IH; auto; [intros; apply Hl; now right|]. intros x Hx.
      rewrite (cache_only_view env _ _ _ _ C1). apply Hn. now right. }
    destruct (_ =? n); apply R.
  Qed.

  Lemma write_bits_live a b val cpus vf s : Coh s -> (ms_intr s = true -> first_is env rep a cpus) ->
    field_ok b -> fits b (value_of b val) -> io_works s -> (forall d, 0 <= view s a d < 2 ^ 64) ->
    (exists l, normalize_cpus ci cpus false = Ok l) -> live (write_bits env a b val cpus (sc a) vf) s.
  Proof.
    intros H Hfi Hf Hfit W Hreg (l & El).
    assert (Hv : match val with Some v => 0 <= v | None => True end).
    { destruct val as [v|]; [|exact I]. unfold value_of, fits in Hfit. lia. }
    assert (Hnv : forall d, exists n, set_bits (view s a d) b val = Ok n).
    { intros d. rewrite (set_bits_eq _ b val Hf (proj2 Hfit)). eauto. }
    unfold live, write_bits. apply post_bind, post_lift; [|intros e E; congruence].
    intros l' El'. rewrite El in El'. injection El' as <-. pose proof (normalized_online env cpus l El) as Hl.
    apply post_bind. eapply post_conseq.
    { apply (post_live _ _ _ _ _ (group_writes_post env rep sc Hwf Hsc a b val s l Hl l [] [] s eq_refl (cache_only_refl s) H
        (Build_GI env a b val s [] [] (NoDup_nil _) (fun _ _ (F : In _ []) => match F with end) (fun _ (F : In _ []) => match F with end)))
        (group_writes_live a b val l [] s Hl H W (fun c _ => Hnv (dom a c)))). }
    2:{ auto. }
    intros groups s1 ((C1 & H1 & [G1 G2 G3]) & W1).
    eapply post_conseq; [apply (post_mfor _ (fun _ s' => keeps s s' /\ io_works s') (fun _ _ => False))| |auto].
    - intros q [g cl] r Eq s2 (K2 & W2). cbn [fst snd].
      assert (Hg : In (g, cl) groups) by (rewrite Eq; apply in_app_iff; right; now left).
      pose proof (G2 g cl Hg) as Ecl.
      assert (Hch : forall c, In c cl -> In c l /\ newval env a b val s (dom a c) = Ok g /\ In c (targets env cpus)).
      { intros c Hc. rewrite Ecl in Hc. apply filter_In in Hc. destruct Hc as (Hc & Hch).
        split; [exact Hc|]. split; [|now apply (normalized_targets env cpus l El)].
        unfold chosen in Hch. destruct (newval env a b val s (dom a c)) as [n|]; [|discriminate].
        apply andb_prop in Hch. destruct Hch as (A & _). apply Z.eqb_eq in A. now subst. }
      assert (Hfi2 : ms_intr s2 = true -> first_is env rep a (Some cl)).
      { rewrite (k_intr _ _ _ _ _ K2). intros Hi c Hc. cbn [ordered_targets targets] in *.
        specialize (Hfi Hi). destruct (Hch c Hc) as (Hcl & Hn & Ht). rewrite <- (Hfi c Ht).
        rewrite <- (normalized_find env cpus l _ El). rewrite Ecl. apply find_filter.
        intros x Hx. apply Z.eqb_eq in Hx. rewrite (chosen_dom env a b val s g x c Hx).
        rewrite Ecl in Hc. apply filter_In in Hc. apply Hc. }
      assert (Ncl : normalize_cpus ci (Some cl) false = Ok (dedup cl)).
      { unfold normalize_cpus. apply normalize_in_succeeds. intros c Hc. apply Hl, Hch, Hc. }
      destruct cl as [|c0 ct].
      { unfold post, write. rewrite Ncl. cbn. now rewrite andb_comm; destruct (ms_intr s2); destruct vf. }
      assert (Hb : to_bytes_ok g = true).
      { destruct (Hch c0 (or_introl eq_refl)) as (_ & En & _). unfold newval in En.
        pose proof (set_bits_range _ _ _ _ Hf Hv (Hreg _) En) as R. unfold to_bytes_ok, regbits. lia. }
      eapply post_conseq; [apply (post_live _ _ _ _ _ (write_post env rep sc Hwf Hsc Hfaith a g (Some (c0 :: ct)) vf s2 (k_coh _ _ _ _ _ K2) Hfi2)
        (write_live a g (Some (c0 :: ct)) vf s2 (k_coh _ _ _ _ _ K2) Hfi2 W2 Hb (ex_intro _ _ Ncl)))| |auto].
      intros u s3 ((K3 & _) & W3). split; [eapply keeps_trans; eauto|exact W3].
    - split; [now apply cache_only_keeps|exact W1].
    - intros u s2 (_ & W2). exact W2.
  Qed.

  Lemma flush_live s : Coh s -> io_works s -> (forall a d, 0 <= view s a d < 2 ^ 64) -> live (flush_transaction env) s.
  Proof.
    intros H W Hreg. pose proof (c_buf _ _ _ _ _ H) as B.
    unfold live, flush_transaction. apply post_bind, post_gets, post_bind, post_gets.
    destruct (negb (me_cache env) || negb (ms_intr s)); [apply post_ret; exact W|].
    assert (Ecase : live (transaction_write env (ms_tbuf s) ;; modify (set_tbuf []) ;; verify_all env (ms_tbuf s) ;; ret true) s).
    { apply post_bind. unfold post at 1. rewrite transaction_write_flat.
      change (post (mfor (pending_writes s) (put env)) s
          (fun _ s' => post (modify (set_tbuf []) ;; verify_all env (ms_tbuf s) ;; ret true) s'
            (fun _ s' => io_works s') (fun _ _ => False)) (fun _ _ => False)).
      eapply post_conseq.
      - apply (post_mfor (put env) (fun p s' => FI env s p s' /\ io_works s') (fun _ _ => False)).
        + intros p [[c a] v] r Ep s1 (F1 & W1).
          apply (post_live _ _ _ _ _ (put_post env Hfaith s p c a v r s1 Ep F1)).
          assert (Hb : to_bytes_ok v = true).
          { assert (Hin : In (c, a, v) (pending_writes s)) by (rewrite Ep; apply in_app_iff; right; now left).
            apply pending_entry in Hin; [|apply B..]. destruct Hin as (t & Et & <-).
            rewrite <- (view_entry env rep sc s c a t B Et). specialize (Hreg a (dom a c)). unfold to_bytes_ok, regbits. lia. }
          unfold put. rewrite Hb. now apply hw_write_live.
        + split; [apply FI_refl|exact W].
      - intros u s1 (F1 & W1). apply post_bind, post_modify.
        set (s2 := set_tbuf [] s1).
        assert (W2 : io_works s2) by exact W1.
        assert (V2 : forall a d, view s2 a d = view s a d).
        { intros a d. rewrite (view_nobuf env s2) by reflexivity. unfold s2. cbn [ms_hw set_tbuf].
          rewrite (f_hw _ _ _ _ F1). reflexivity. }
        assert (H2 : Coh s2).
        { split.
          - split; unfold s2; cbn; try easy; [constructor|]. rewrite (f_intr _ _ _ _ F1). apply B.
          - intros a c v Hc E. rewrite V2. apply (c_val _ _ _ _ _ H); [exact Hc|].
            rewrite <- E. unfold cache_get, s2. cbn [ms_cache set_tbuf]. now rewrite (f_cache _ _ _ _ F1).
          - intros a c t x Ht. unfold tentry, s2 in Ht. cbn in Ht. discriminate. }
        apply post_bind. eapply post_conseq.
        { unfold verify_all.
          apply (post_mfor _ (fun _ s' => (cache_only s2 s' /\ Coh s') /\ io_works s') (fun _ _ => False));
            [|split; [split; [apply cache_only_refl|exact H2]|exact W2]].
          intros q [v d] r Eq s3 ((C3 & H3) & W3). cbn [fst snd].
          assert (Hvd : In (v, d) (verify_info (ms_tbuf s))) by (rewrite Eq; apply in_app_iff; right; now left).
          apply (post_mfor _ (fun _ s' => (cache_only s2 s' /\ Coh s') /\ io_works s') (fun _ _ => False)); [|auto].
          intros q2 [a [sn cl]] r2 Eq2 s4 ((C4 & H4) & W4). cbn [fst snd].
          assert (Had : In (a, (sn, cl)) d) by (rewrite Eq2; apply in_app_iff; right; now left).
          destruct (vi_facts env sc s (Buf_Buf0 env rep sc s B) v d a sn cl Hvd Had) as (-> & Hcl).
          assert (Hval : forall c, In c cl -> view s4 a (dom a c) = v).
          { intros c Hc. rewrite (cache_only_view env _ _ _ _ C4), V2.
            assert (Hf : forall c m a0 t, In (c, m) (ms_tbuf s) -> In (a0, t) m -> ti_ios t = sc a0).
            { intros c0 m a0 t Hm Ht. eapply b_ios; [exact B|]. eapply (buf_entry env sc); [apply (Buf_Buf0 env rep sc s B)|eauto|eauto]. }
            destruct (verify_info_spec sc (ms_tbuf s) Hf) as ((Hnd & Hin) & Hhas).
            destruct (Hin v d Hvd) as (Hnd2 & _).
            assert (X : vi_has (verify_info (ms_tbuf s)) v a c).
            { exists d, (sc a), cl. split; [now apply (In_dget Z.eqb Zeqb_spec)|].
              split; [now apply (In_dget Z.eqb Zeqb_spec)|exact Hc]. }
            apply Hhas in X. destruct X as (m & t & Hm & Ht & _ & <-).
            apply (view_entry env rep sc s c a t B). eapply (buf_entry env sc); [apply (Buf_Buf0 env rep sc s B)|eauto|eauto]. }
          assert (Tb : ms_tbuf s4 = []) by (rewrite (co_tbuf _ _ C4); reflexivity).
          eapply post_conseq; [apply (post_live _ _ _ _ _ (verify_post env rep sc Hwf Hsc a v cl s4 Hcl H4 Tb)
            (verify_live a v cl s4 Hcl H4 Tb Hval W4))| |auto].
          intros u5 s5 ((C5 & H5 & _) & W5). split; [split; [eapply cache_only_trans; eauto|exact H5]|exact W5]. }
        + intros u3 s3 (_ & W3). apply post_ret. exact W3.
        + auto.
      - auto. }
    destruct (ms_tbuf s) as [|x bf] eqn:Eb; [apply post_ret; exact W|exact Ecase].
  Qed.

  Lemma normalize_targets_ex cpus : (forall c, In c (targets env cpus) -> In c online) ->
    exists l, normalize_cpus ci cpus false = Ok l.
  Proof.
    destruct cpus as [l|]; cbn [targets]; intros H.
    - eexists. unfold normalize_cpus. apply normalize_in_succeeds. exact H.
    - eexists. reflexivity.
  Qed.

  Lemma mstep_live o s : Coh s -> op_scoped sc o -> (ms_intr s = true -> op_rep env rep o) -> io_works s ->
    (forall a d, 0 <= view s a d < 2 ^ 64) -> op_valid env (ms_intr s) o -> live (mstep env o) s.
  Proof.
    intros H Hs Hr W Hreg Hv. unfold live.
    destruct o as [a cpus sn|a v cpus sn vf|a b val cpus sn vf| | |]; cbn [mstep op_scoped op_rep op_valid] in *.
    - subst sn. destruct (normalize_targets_ex cpus Hv) as (l & El). unfold read. apply post_bind, post_lift; [|intros e E; congruence].
      intros l' El'. apply read_cpus_live; [|exact W]. exact (normalized_online env cpus l' El').
    - subst sn. destruct Hv as (Hv & Hn). apply post_bind. eapply post_conseq; [apply (write_live a v cpus vf s H Hr W)| |auto].
      + unfold to_bytes_ok, regbits. lia.
      + now apply normalize_targets_ex.
      + intros u s' W'. apply post_ret. exact W'.
    - destruct Hs as (-> & Hf & _). destruct Hv as (Hv & Hfit). apply post_bind.
      eapply post_conseq; [apply (write_bits_live a b val cpus vf s H Hr Hf Hfit W (Hreg a))| |auto].
      + now apply normalize_targets_ex.
      + intros u s' W'. apply post_ret. exact W'.
    - apply post_bind. unfold start_transaction. destruct Hv as (Hm & Hi). rewrite Hm. cbn [negb].
      apply post_bind, post_gets. rewrite Hi. apply post_modify, post_ret. exact W.
    - apply post_bind. eapply post_conseq; [apply (flush_live s H W Hreg)| |auto]. intros u s' W'. apply post_ret. exact W'.
    - apply post_bind. unfold commit_transaction. apply post_bind, post_gets. rewrite Hv. cbn [negb]. apply post_bind.
      eapply post_conseq; [apply (flush_live s H W Hreg)| |auto]. intros u s' W'. apply post_modify, post_ret. exact W'.
  Qed.

  Lemma mstep_regs64 o s r s' : Coh s -> op_scoped sc o -> (ms_intr s = true -> op_rep env rep o) ->
    op_valid env (ms_intr s) o -> (forall a d, 0 <= view s a d < 2 ^ 64) -> mstep env o s = (Ok r, s') ->
    forall a d, 0 <= view s' a d < 2 ^ 64.
  Proof.
    intros H Hs Hr Hv Hreg E a d. pose proof (mstep_post env rep sc Hwf Hsc Hfaith o s H Hs Hr) as P.
    unfold post in P. rewrite E in P. destruct P as (_ & P & _).
    destruct o as [a1 cpus sn|a1 v cpus sn vf|a1 b val cpus sn vf| | |]; cbn [op_effect op_valid op_scoped] in *;
      try (rewrite P; apply Hreg).
    - destruct (P a d) as (P1 & P2). destruct (in_dec Z.eq_dec d (map (dom a1) (targets env cpus))) as [Hd|Hd].
      + destruct (Z.eq_dec a a1) as [->|Hn]; [rewrite P1; [lia|]|rewrite P2; [apply Hreg|tauto]].
        split; [reflexivity|]. apply in_map_iff in Hd as (c & <- & Hc). exists c. auto.
      + rewrite P2; [apply Hreg|]. intros (-> & c & Hc & <-). apply Hd, in_map, Hc.
    - destruct Hs as (_ & Hf & Hn). destruct Hv as (_ & Hfit).
      destruct (P a d) as (P1 & P2). destruct (in_dec Z.eq_dec d (map (dom a1) (targets env cpus))) as [Hd|Hd].
      + destruct (Z.eq_dec a a1) as [->|Hne]; [|rewrite P2; [apply Hreg|tauto]].
        apply in_map_iff in Hd as (c & <- & Hc). assert (P3 := P1 (conj eq_refl (ex_intro _ c (conj Hc eq_refl)))).
        destruct (set_bits_ex (view s a1 (dom a1 c)) b (value_of b val) Hf Hfit) as (r' & Er').
        destruct (set_bits_is_set_some _ _ _ _ Hf (proj1 Hfit) Er') as (_ & S).
        pose proof (set_bits_range _ _ (Some (value_of b val)) _ Hf (proj1 Hfit) (Hreg a1 (dom a1 c)) Er') as R.
        rewrite (is_set_functional b (value_of b val) _ _ _ P3 S). exact R.
      + rewrite P2; [apply Hreg|]. intros (-> & c & Hc & <-). apply Hd, in_map, Hc.
  Qed.

  Lemma mstep_intr_next o s r s' : Coh s -> op_scoped sc o -> (ms_intr s = true -> op_rep env rep o) ->
    op_valid env (ms_intr s) o -> mstep env o s = (Ok r, s') ->
    ms_intr s' = match o with OStart => true | OCommit => false | _ => ms_intr s end.
  Proof.
    intros H Hs Hr Hv E. pose proof (mstep_post env rep sc Hwf Hsc Hfaith o s H Hs Hr) as P.
    unfold post in P. rewrite E in P. destruct P as (_ & _ & P).
    destruct o; cbn [buffered_op] in P; try (apply P; exact I); cbn [mstep op_valid] in *; unfold mbind in E.
    - pose proof (start_post env rep sc s H) as Q. unfold post in Q. destruct (start_transaction env s) as [[u|e] s1]; [|discriminate].
      injection E as _ <-. destruct Q as (_ & _ & -> & _). apply Hv.
    - pose proof (flush_post env rep sc Hwf Hsc Hfaith s H) as Q. unfold post in Q. destruct (flush_transaction env s) as [[u|e] s1]; [|discriminate].
      injection E as _ <-. apply Q.
    - pose proof (commit_post env rep sc Hwf Hsc Hfaith s H) as Q. unfold post in Q. destruct (commit_transaction env s) as [[u|e] s1]; [|discriminate].
      injection E as _ <-. apply Q.
  Qed.

  Lemma mrun_ok_live ops : forall s, Coh s -> (forall o, In o ops -> op_scoped sc o) ->
    ((ms_intr s = false /\ ~ In OStart ops) \/ forall o, In o ops -> op_rep env rep o) ->
    io_works s -> (forall a d, 0 <= view s a d < 2 ^ 64) -> ops_valid env (ms_intr s) ops ->
    exists s', mrun_ok env ops s = Some s' /\ forall a d, 0 <= view s' a d < 2 ^ 64.
  Proof.
    induction ops as [|o t IH]; intros s H Hs Hr W Hreg Hv; [exists s; auto|].
    cbn [ops_valid mrun_ok] in *. destruct Hv as (Hv & Ht).
    assert (Hro : ms_intr s = true -> op_rep env rep o).
    { destruct Hr as [(Hi & _)|Hr]; [congruence|]. intros _. apply Hr. now left. }
    assert (Hso := Hs o (or_introl eq_refl)).
    pose proof (mstep_live o s H Hso Hro W Hreg Hv) as L.
    pose proof (mstep_post env rep sc Hwf Hsc Hfaith o s H Hso Hro) as P.
    unfold live, post in L, P. destruct (mstep env o s) as [[r|e] s1] eqn:E; [|destruct L].
    assert (Hi1 := mstep_intr_next o s r s1 H Hso Hro Hv E).
    apply IH; auto.
    - apply P.
    - intros o' Ho'. apply Hs. now right.
    - destruct Hr as [(Hi & Hn)|Hr]; [left|right; intros o' Ho'; apply Hr; now right].
      split; [|intros X; apply Hn; now right]. rewrite Hi1.
      assert (o <> OStart) by (intros ->; apply Hn; now left). destruct o; auto; congruence.
    - exact (mstep_regs64 o s r s1 H Hso Hro Hv Hreg E).
    - now rewrite Hi1.
  Qed.
End Live.

Lemma available_l env sc ops hw faults : wf_ci (me_ci env) -> (forall a, scope_right env a (sc a)) -> faithful env ->
  disciplined env sc ops -> ops_valid env false ops -> (forall b, In b faults -> b = false) ->
  (forall a d, 0 <= hw a d < 2 ^ 64) -> exists s, mrun_ok env ops (msr_init hw faults) = Some s.
Proof.
  intros Hwf Hsc Hf (Hs & Hd) Hv Hio Hhw.
  assert (G : exists rep, (~ In OStart ops) \/ forall o, In o ops -> op_rep env rep o).
  { destruct Hd as [Hn|(rep & Hr)]; [exists (fun _ _ => 0); auto|exists rep; auto]. }
  destruct G as (rep & G).
  destruct (mrun_ok_live env rep sc Hwf Hsc Hf ops (msr_init hw faults)) as (s & E & _); eauto.
  - apply Coh_init.
  - destruct G; auto.
Qed.
