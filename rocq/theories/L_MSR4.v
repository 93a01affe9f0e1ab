(** The MSR property theorems in the form in which P_MSR.v states them. *)
From Verif Require Import Base L_Base L_Monad M_CPUInfo S_CPUInfo L_CPUInfo M_MSR S_MSR L_Bits
  L_MSR L_MSR2 L_MSR3.
From Coq Require Import ZifyBool Sorted.

Section Final.
  Variable env : menv.
  Variable sc : Z -> scope.
  Hypothesis Hwf : wf_ci (me_ci env).
  Hypothesis Hsc : forall a, scope_right env a (sc a).

  Lemma reached ops hw faults : faithful env -> disciplined env sc ops ->
    exists rep, Coh env rep sc (mrun env ops (msr_init hw faults)) /\
      (~ In OStart ops -> ms_intr (mrun env ops (msr_init hw faults)) = false) /\
      ((~ In OStart ops) \/ forall o, In o ops -> op_rep env rep o).
  Proof.
    intros Hf (Hs & Hd). destruct Hd as [Hn|(rep & Hr)].
    - exists (fun _ _ => 0).
      destruct (mrun_Coh env (fun _ _ => 0) sc Hwf Hsc Hf ops (msr_init hw faults)) as (A & B); auto.
      + apply Coh_init.
    - exists rep.
      destruct (mrun_Coh env rep sc Hwf Hsc Hf ops (msr_init hw faults)) as (A & B); auto.
      + apply Coh_init.
  Qed.

  Lemma C05_reads_coherent_l ops hw faults a cpus r s' :
    faithful env -> disciplined env sc ops ->
    let s := mrun env ops (msr_init hw faults) in
    read env a cpus (sc a) s = (Ok r, s') ->
    (forall c v, In (c, v) r -> In c (targets env cpus) /\ v = view env s a (me_dom env a c)) /\
    (forall c, In c (targets env cpus) -> exists v, In (c, v) r) /\
    (ms_intr s = false -> forall a d, view env s a d = ms_hw s a d).
  Proof.
    intros Hf Hd s E. destruct (reached ops hw faults Hf Hd) as (rep & H & _). fold s in H.
    pose proof (read_post env rep sc Hwf Hsc a cpus s H) as P. unfold post in P. rewrite E in P.
    destruct P as ((l & El & ->) & _). split; [|split].
    - intros c v Hin. apply in_map_iff in Hin. destruct Hin as (x & [= <- <-] & Hx).
      split; [now apply (normalized_targets env cpus l El)|reflexivity].
    - intros c Hc. exists (view env s a (me_dom env a c)). apply in_map_iff. exists c.
      split; [reflexivity|]. now apply (normalized_targets env cpus l El).
    - intros Hi a' d. apply view_nobuf. now apply (b_tr _ _ _ _ (c_buf _ _ _ _ _ H)).
  Qed.

  Lemma C05_refinement_l ops hw faults s :
    faithful env -> disciplined env sc ops ->
    mrun_ok env ops (msr_init hw faults) = Some s -> effects env ops hw (view env s).
  Proof.
    intros Hf Hd E. destruct (reached ops hw faults Hf Hd) as (rep & _ & _ & Hr).
    assert (H0 : Coh env rep sc (msr_init hw faults)) by apply Coh_init.
    exact (mrun_ok_effects env rep sc Hwf Hsc Hf ops (msr_init hw faults) s H0 (proj1 Hd)
             (match Hr with or_introl h => or_introl (conj eq_refl h) | or_intror h => or_intror h end) E).
  Qed.

  Lemma C05_verified_write_l ops hw faults a v cpus s' :
    (forall o, In o ops -> op_scoped sc o) ->
    let s := mrun env ops (msr_init hw faults) in
    ms_intr s = false ->
    write env a v cpus (sc a) true s = (Ok tt, s') ->
    forall c, In c (targets env cpus) -> ms_hw s' a (me_dom env a c) = v.
  Proof.
    intros Hs s Hi E. pose proof (mrun_0 env sc Hwf Hsc ops _ Hs (Buf0_init env sc hw faults)) as B.
    fold s in B. pose proof (write_0 env sc Hwf Hsc a v cpus true s B) as P. unfold post in P.
    rewrite E in P. destruct P as (_ & P). auto.
  Qed.

  Lemma C04_write_bits_l ops hw faults a b val cpus vf s' :
    faithful env -> disciplined env sc ops -> field_ok b ->
    match val with Some v => 0 <= v | None => True end ->
    let s := mrun env ops (msr_init hw faults) in
    ms_intr s = false ->
    write_bits env a b val cpus (sc a) vf s = (Ok tt, s') ->
    (forall c, In c (targets env cpus) ->
       is_set b (value_of b val) (ms_hw s a (me_dom env a c)) (ms_hw s' a (me_dom env a c))) /\
    (forall a' d, ~ (a' = a /\ targeted env a cpus d) -> ms_hw s' a' d = ms_hw s a' d).
  Proof.
    intros Hf Hd Hb Hv s Hi E. destruct (reached ops hw faults Hf Hd) as (rep & H & _). fold s in H.
    assert (Hr : ms_intr s = true -> first_is env rep a cpus) by congruence.
    pose proof (write_bits_post env rep sc Hwf Hsc Hf a b val cpus vf s H Hr Hb Hv) as P.
    unfold post in P. rewrite E in P. destruct P as (K & Eff).
    assert (V : forall a d, view env s a d = ms_hw s a d).
    { intros. apply view_nobuf. now apply (b_tr _ _ _ _ (c_buf _ _ _ _ _ H)). }
    assert (V' : forall a d, view env s' a d = ms_hw s' a d).
    { intros. apply view_nobuf. apply (b_tr _ _ _ _ (c_buf _ _ _ _ _ (k_coh _ _ _ _ _ K))).
      rewrite (k_intr _ _ _ _ _ K). exact Hi. }
    split.
    - intros c Hc. rewrite <- V, <- V'. apply Eff. split; [reflexivity|]. exists c. auto.
    - intros a' d Hn. rewrite <- V, <- V'. now apply Eff.
  Qed.

  Lemma C04_write_bits_failed_l ops hw faults a b val cpus vf e s' :
    faithful env -> disciplined env sc ops -> field_ok b ->
    match val with Some v => 0 <= v | None => True end ->
    let s := mrun env ops (msr_init hw faults) in
    ms_intr s = false ->
    write_bits env a b val cpus (sc a) vf s = (Exn e, s') ->
    (forall a' d, ~ (a' = a /\ targeted env a cpus d) -> ms_hw s' a' d = ms_hw s a' d) /\
    forall d, ms_hw s' a d = ms_hw s a d \/ is_set b (value_of b val) (ms_hw s a d) (ms_hw s' a d).
  Proof.
    intros Hf Hd Hb Hv s Hi E. destruct (reached ops hw faults Hf Hd) as (rep & H & _). fold s in H.
    assert (Hr : ms_intr s = true -> first_is env rep a cpus) by congruence.
    pose proof (write_bits_post_mix env rep sc Hwf Hsc Hf a b val cpus vf s H Hr Hb Hv) as P.
    unfold post in P. rewrite E in P. destruct P as (K & Eff & Mix).
    assert (V : forall a d, view env s a d = ms_hw s a d).
    { intros. apply view_nobuf. now apply (b_tr _ _ _ _ (c_buf _ _ _ _ _ H)). }
    assert (V' : forall a d, view env s' a d = ms_hw s' a d).
    { intros. apply view_nobuf. apply (b_tr _ _ _ _ (c_buf _ _ _ _ _ (k_coh _ _ _ _ _ K))).
      rewrite (k_intr _ _ _ _ _ K). exact Hi. }
    split; [intros a' d Hn; rewrite <- V, <- V'; now apply Eff|].
    intros d. rewrite <- V, <- V'. destruct (Mix d) as [M|M]; [now left|right].
    now apply (set_bits_is_set _ _ _ _ Hb Hv) in M.
  Qed.

  Lemma C06_deferred_l rep ops body hw faults s1 :
    faithful env ->
    (forall o, In o (ops ++ body) -> op_scoped sc o /\ op_rep env rep o) ->
    (forall o, In o body -> buffered_op o) ->
    let s := mrun env ops (msr_init hw faults) in
    me_cache env = true ->
    start_transaction env s = (Ok tt, s1) ->
    ms_hw (mrun env body s1) = ms_hw s /\ ms_log (mrun env body s1) = ms_log s.
  Proof.
    intros Hf Ho Hb s Hc E.
    destruct (mrun_Coh env rep sc Hwf Hsc Hf ops (msr_init hw faults)) as (H & _).
    { apply Coh_init. }
    { intros o Hin. apply Ho, in_app_iff. now left. }
    { right. intros o Hin. apply Ho, in_app_iff. now left. }
    fold s in H. pose proof (start_post env rep sc s H) as P. unfold post in P. rewrite E in P.
    destruct P as (H1 & _ & Hi & _ & Eh & El).
    destruct (buffered_unwritten env rep sc Hwf Hsc Hf body s1 H1) as ((A & B) & _).
    { intros o Hin. split; [apply Ho, in_app_iff; now right|]. split; [apply Ho, in_app_iff; now right|auto]. }
    { congruence. }
    split; congruence.
  Qed.

  Lemma mrun_ok_app o1 o2 s s' : mrun_ok env (o1 ++ o2) s = Some s' ->
    exists s1, mrun_ok env o1 s = Some s1 /\ mrun_ok env o2 s1 = Some s'.
  Proof.
    revert s. induction o1 as [|o t IH]; intros s; cbn [app mrun_ok]; [eauto|].
    destruct (mstep env o s) as [[r|e] s1]; [auto|discriminate].
  Qed.

  Lemma effects_ext ops L1 L2 L1' L2' :
    (forall a d, L1 a d = L1' a d) -> (forall a d, L2 a d = L2' a d) ->
    effects env ops L1 L2 -> effects env ops L1' L2'.
  Proof.
    intros E1 E2 H. revert L1' E1. induction H as [L L' He|o t L M L'' Ho Ht IH]; intros L1' E1.
    - constructor. intros a d. rewrite <- E1, <- E2. apply He.
    - apply (eff_cons env o t L1' M); [|apply IH; [exact E2|reflexivity]].
      destruct o; cbn [op_effect] in *; intros a' d;
        try (rewrite <- E1; apply Ho); rewrite <- E1; apply Ho.
  Qed.

  Lemma C06_commit_l rep ops body hw faults s' :
    faithful env ->
    (forall o, In o (ops ++ body) -> op_scoped sc o /\ op_rep env rep o) ->
    (forall o, In o body -> buffered_op o) ->
    let s := mrun env ops (msr_init hw faults) in
    mrun_ok env (OStart :: body ++ [OCommit]) s = Some s' ->
    effects env body (ms_hw s) (ms_hw s') /\ ms_intr s' = false /\ ms_tbuf s' = [].
  Proof.
    intros Hf Ho Hb s E.
    destruct (mrun_Coh env rep sc Hwf Hsc Hf ops (msr_init hw faults)) as (H & _).
    { apply Coh_init. }
    { intros o Hin. apply Ho, in_app_iff. now left. }
    { right. intros o Hin. apply Ho, in_app_iff. now left. }
    fold s in H. cbn [mrun_ok] in E.
    pose proof (start_post env rep sc s H) as P. unfold post in P.
    cbn [mstep] in E. unfold mbind in E.
    destruct (start_transaction env s) as [[u|e] s1] eqn:Es; [|discriminate]. cbn [ret] in E.
    destruct P as (H1 & Hi0 & Hi & Tb & Eh & El).
    apply mrun_ok_app in E. destruct E as (s2 & E2 & E3).
    assert (Hs2 : forall o, In o body -> op_scoped sc o) by (intros; apply Ho, in_app_iff; now right).
    assert (Hr2 : forall o, In o body -> op_rep env rep o) by (intros; apply Ho, in_app_iff; now right).
    pose proof (mrun_ok_effects env rep sc Hwf Hsc Hf body s1 s2 H1 Hs2 (or_intror Hr2) E2) as Eff.
    destruct (mrun_Coh env rep sc Hwf Hsc Hf body s1 H1 Hs2 (or_intror Hr2)) as (H2 & _).
    rewrite (mrun_ok_mrun env body s1 s2 E2) in H2.
    cbn [mrun_ok mstep] in E3. unfold mbind in E3.
    pose proof (commit_post env rep sc Hwf Hsc Hf s2 H2) as P. unfold post in P.
    destruct (commit_transaction env s2) as [[u2|e] s3] eqn:Ec; [|discriminate].
    cbn [ret] in E3. injection E3 as <-.
    destruct P as (_ & _ & Hi3 & Tb3 & V3 & _). split; [|auto].
    eapply effects_ext; [| |exact Eff].
    - intros a d. rewrite (view_nobuf env s1) by exact Tb. now rewrite Eh.
    - intros a d. rewrite <- V3. now apply view_nobuf.
  Qed.

  Lemma C06_failed_commit_l rep ops hw faults e s' :
    faithful env ->
    (forall o, In o ops -> op_scoped sc o /\ op_rep env rep o) ->
    let s := mrun env ops (msr_init hw faults) in
    commit_transaction env s = (Exn e, s') ->
    ms_intr s' = ms_intr s /\ (forall a d, view env s' a d = view env s a d) /\
    exists done rest, pending_writes s = done ++ rest /\ ms_log s' = ms_log s ++ done.
  Proof.
    intros Hf Ho s E.
    destruct (mrun_Coh env rep sc Hwf Hsc Hf ops (msr_init hw faults)) as (H & _).
    { apply Coh_init. }
    { intros o Hin. now apply Ho. }
    { right. intros o Hin. now apply Ho. }
    fold s in H. pose proof (commit_post env rep sc Hwf Hsc Hf s H) as P. unfold post in P.
    rewrite E in P. destruct P as (_ & A & B & C). auto.
  Qed.

  Lemma C06_verified_commit_l ops hw faults s' :
    (forall o, In o ops -> op_scoped sc o) ->
    let s := mrun env ops (msr_init hw faults) in
    commit_transaction env s = (Ok tt, s') ->
    forall c m a t, In (c, m) (ms_tbuf s) -> In (a, t) m -> ti_verify t = true ->
      ms_hw s' a (me_dom env a c) = ti_val t.
  Proof.
    intros Hs s E c m a t Hm Ht Hv.
    pose proof (mrun_0 env sc Hwf Hsc ops _ Hs (Buf0_init env sc hw faults)) as B. fold s in B.
    apply (verified_commit_l env sc Hwf Hsc s tt s' B E c a t); [|exact Hv].
    now apply (buf_entry env sc s c m a t B).
  Qed.
End Final.
