(** Lemmas for C67: the property. *)
From Coq Require Import Ascii String Relations ZifyBool.
From Verif Require Import Base M_Text M_Yaml S_Yaml L_Base L_Text L_Yaml L_Yaml2 L_Yaml3 L_Yaml4.

Definition all_proper (fs : ppath -> file) : Prop := forall p v, fs p = FDoc v -> proper_doc v.

Lemma C67_load_l : forall fs n p d s, (forall p v, fs p = FDoc v -> proper_doc v) -> yload fs n p = (inr d, s) ->
  exists bs ns, expands fs n p bs ns /\ dict_of bs d /\ rev (y_opened s) = p :: ns.
Proof.
  intros fs n p d s P H. destruct (load_sound fs P _ _ _ _ _ H) as (bs & ns & A & B & C). exists bs, ns.
  split; [exact A | split; [exact B|]]. rewrite C, rev_app_distr, rev_involutive. reflexivity.
Qed.

Lemma inlines_fun_expands : forall fs,
  (forall n p bs ns, expands fs n p bs ns -> forall m bs' ns', expands fs m p bs' ns' -> bs = bs' /\ ns = ns').
Proof.
  intros fs.
  apply (expands_mut fs (fun n p bs ns _ => forall m bs' ns', expands fs m p bs' ns' -> bs = bs' /\ ns = ns')
           (fun n b l bs ns _ => forall m bs' ns', inlines fs m b l bs' ns' -> bs = bs' /\ ns = ns')).
  - intros n p v F B m bs' ns' E. inversion E as [? ? ? F' B'|? ? l ? ? F' I]; subst; [auto|].
    rewrite F in F'. inversion F'; subst. destruct B as [B|[B|[B|[B|[B|B]]]]]; try discriminate B. inversion B; subst.
    inversion I; auto.
  - intros n p l bs ns F I IH m bs' ns' E. inversion E as [? ? ? F' B'|? ? l' ? ? F' I']; subst.
    + rewrite F in F'. inversion F'; subst. destruct B' as [B|[B|[B|[B|[B|B]]]]]; try discriminate B. inversion B; subst.
      inversion I; auto.
    + rewrite F in F'. inversion F'; subst. eapply IH. exact I'.
  - intros n b m bs' ns' E. inversion E; auto.
  - intros n b k v t bs ns O I IH m bs' ns' E.
    inversion E as [|? ? ? ? ? ? ? O' I'|? ? ? ? ? ? B' I'|? ? ? ? ? ? ? ? ? X' R' E' I']; subst.
    + destruct (IH _ _ _ I') as [-> ->]. auto.
    + destruct O as [O _]. congruence.
    + destruct O as [O _]. congruence.
  - intros n b v t bs ns B I IH m bs' ns' E.
    inversion E as [|? ? ? ? ? ? ? O' I'|? ? ? ? ? ? B' I'|? ? ? ? ? ? ? ? ? X' R' E' I']; subst.
    + destruct O' as [O _]. congruence.
    + eapply IH. exact I'.
    + apply blank_iff in B. destruct x; [congruence | discriminate B].
  - intros n b x q t bs ns bs1 ns1 X R E1 IH1 I IH m bs' ns' E.
    inversion E as [|? ? ? ? ? ? ? O' I'|? ? ? ? ? ? B' I'|? ? ? ? ? ? ? ? ? X' R' E' I']; subst.
    + destruct O' as [O _]. congruence.
    + apply blank_iff in B'. destruct x; [congruence | discriminate B'].
    + apply the_name_iff in R. apply the_name_iff in R'. rewrite R in R'. inversion R'; subst.
      destruct (IH1 _ _ _ E') as [-> ->]. destruct (IH _ _ _ I') as [-> ->]. auto.
Qed.

Lemma C67_succeeds_l : forall fs n k p bs ns, (forall p v, fs p = FDoc v -> proper_doc v) ->
  expands fs k p bs ns -> NoDup ns -> (k <= n)%nat ->
  exists d s, yload fs n p = (inr d, s) /\ dict_of bs d /\ rev (y_opened s) = p :: ns.
Proof.
  intros fs n k p bs ns P E N L. unfold yload. destruct (load fs n p (YSt [] [])) as [r s] eqn:H.
  destruct (load_run fs P n k p bs ns L E _ _ _ H) as [(_ & (d & ->) & _)|(A & _)].
  - exists d, s. split; [reflexivity|]. destruct (C67_load_l fs n p d s P H) as (bs' & ns' & E' & D & O).
    destruct (inlines_fun_expands fs _ _ _ _ E _ _ _ E') as [-> ->]. auto.
  - exfalso. apply A. split; [exact N | intros q _ []].
Qed.
Lemma C67_repeated_refused_l : forall fs n k p bs ns, (forall p v, fs p = FDoc v -> proper_doc v) ->
  expands fs k p bs ns -> ~ NoDup ns -> (k <= n)%nat -> fst (yload fs n p) = inl YError.
Proof.
  intros fs n k p bs ns P E N L. unfold yload. destruct (load fs n p (YSt [] [])) as [r s] eqn:H.
  destruct (load_run fs P n k p bs ns L E _ _ _ H) as [([A _] & _)|(_ & ->)]; [contradiction | reflexivity].
Qed.

(** *** No circle *)
Lemma inlines_includes : forall fs n b l bs ns, inlines fs n b l bs ns ->
  forall x q, In (include, YText x) l -> x <> [] -> refers b x q -> exists bs' ns', expands fs n q bs' ns'.
Proof.
  intros fs n b l bs ns H. induction H as [n b|n b k v t bs ns O H IH|n b v t bs ns B H IH|n b x q t bs ns bs' ns' X R E H IH];
    intros y q0 I Y R0.
  - destruct I.
  - destruct I as [I|I]; [inversion I; subst; destruct O; congruence | eapply IH; eassumption].
  - destruct I as [I|I]; [|eapply IH; eassumption]. inversion I; subst. apply blank_iff in B. destruct y; [congruence | discriminate B].
  - destruct I as [I|I]; [|eapply IH; eassumption]. inversion I; subst. apply the_name_iff in R. apply the_name_iff in R0.
    rewrite R in R0. inversion R0; subst. eexists. eexists. exact E.
Qed.
Lemma expands_includes : forall fs n p bs ns q, expands fs n p bs ns -> includes fs p q ->
  exists m bs' ns', (m < n)%nat /\ expands fs m q bs' ns'.
Proof.
  intros fs n p bs ns q E (l & x & F & I & X & R). inversion E as [m ? v F' B|m ? l' ? ? F' J]; subst.
  - rewrite F in F'. inversion F'; subst. destruct B as [B|[B|[B|[B|[B|B]]]]]; try discriminate B. inversion B; subst. destruct I.
  - rewrite F in F'. inversion F'; subst. destruct (inlines_includes _ _ _ _ _ _ J _ _ I X R) as (bs' & ns' & E').
    exists m, bs', ns'. split; [lia | exact E'].
Qed.
Lemma expands_reach : forall fs p q, clos_trans _ (includes fs) p q -> forall n bs ns, expands fs n p bs ns ->
  exists m bs' ns', (m < n)%nat /\ expands fs m q bs' ns'.
Proof.
  intros fs p q H. induction H as [p q H|p q r A IHA B IHB]; intros n bs ns E.
  - eapply expands_includes; eassumption.
  - destruct (IHA _ _ _ E) as (m & bs1 & ns1 & L1 & E1). destruct (IHB _ _ _ E1) as (m2 & bs2 & ns2 & L2 & E2).
    exists m2, bs2, ns2. split; [lia | exact E2].
Qed.
Lemma no_circle : forall fs n q bs ns, expands fs n q bs ns -> ~ clos_trans _ (includes fs) q q.
Proof.
  intros fs n. induction n as [n IH] using lt_wf_ind. intros q bs ns E C.
  destruct (expands_reach _ _ _ C _ _ _ E) as (m & bs' & ns' & L & E'). exact (IH m L q bs' ns' E' C).
Qed.
Lemma C67_no_circle_l : forall fs n p d s q, (forall p v, fs p = FDoc v -> proper_doc v) ->
  yload fs n p = (inr d, s) -> clos_refl_trans _ (includes fs) p q -> ~ clos_trans _ (includes fs) q q.
Proof.
  intros fs n p d s q P H R. destruct (C67_load_l fs n p d s P H) as (bs & ns & E & _).
  assert (K : exists m bs' ns', expands fs m q bs' ns').
  { apply clos_rt_rt1n in R. destruct R as [|y z A B]; [eauto|]. apply clos_rt1n_rt in B.
    destruct (expands_reach fs p z) with (n := n) (bs := bs) (ns := ns) as (m & bs' & ns' & _ & E'); [|exact E|eauto].
    apply clos_rt_rtn1 in B. revert A. clear -B. induction B as [|y' z' C D IH]; intros A; [apply t_step; exact A|].
    eapply t_trans; [apply IH; exact A | apply t_step; exact C]. }
  destruct K as (m & bs' & ns' & E'). eapply no_circle. exact E'.
Qed.
