(** Lemmas about the shared helpers. *)
From Verif Require Import Base.
From Coq Require Export Permutation Sorted.
From Coq Require Import ZifyBool.

Lemma inb_In x l : inb x l = true <-> In x l.
Proof.
  unfold inb. rewrite existsb_exists. split.
  - intros (y & Hy & E). apply Z.eqb_eq in E. now subst.
  - intros H. exists x. split; [exact H | apply Z.eqb_refl].
Qed.

Lemma inb_false x l : inb x l = false <-> ~ In x l.
Proof. rewrite <- inb_In. destruct (inb x l); split; congruence. Qed.

Lemma subsetb_incl l m : subsetb l m = true <-> incl l m.
Proof.
  unfold subsetb. rewrite forallb_forall. unfold incl.
  split; intros H x Hx; apply inb_In; auto.
Qed.

Lemma minus_In x l m : In x (minus l m) <-> In x l /\ ~ In x m.
Proof.
  unfold minus. rewrite filter_In. rewrite negb_true_iff, inb_false. tauto.
Qed.

Lemma NoDup_minus l m : NoDup l -> NoDup (minus l m).
Proof. apply NoDup_filter. Qed.

Section DedupG.
  Context {A : Type} (eqb : A -> A -> bool).
  Hypothesis eqb_spec : forall x y, eqb x y = true <-> x = y.

  Lemma list_dedup_In x l : In x (list_dedup eqb l) <-> In x l.
  Proof.
    induction l as [|y t IH]; cbn [list_dedup]; [tauto|].
    cbn [In]. rewrite filter_In, IH, negb_true_iff.
    destruct (eqb y x) eqn:E.
    - apply eqb_spec in E. subst. tauto.
    - split; [tauto|]. intros [->|H]; [tauto|].
      right. tauto.
  Qed.

  Lemma NoDup_list_dedup l : NoDup (list_dedup eqb l).
  Proof.
    induction l as [|y t IH]; cbn [list_dedup]; constructor.
    - rewrite filter_In, negb_true_iff. intros [_ E].
      assert (eqb y y = true) by now apply eqb_spec. congruence.
    - now apply NoDup_filter.
  Qed.

  Lemma list_dedup_id l : NoDup l -> list_dedup eqb l = l.
  Proof.
    induction 1 as [|y t Hy Ht IH]; cbn [list_dedup]; [reflexivity|].
    rewrite IH. f_equal. clear IH Ht.
    induction t as [|z t IHt]; cbn [filter]; [reflexivity|].
    destruct (eqb y z) eqn:E; cbn [negb].
    - apply eqb_spec in E. subst. exfalso. apply Hy. now left.
    - f_equal. apply IHt. intros H. apply Hy. now right.
  Qed.
End DedupG.

Lemma dedup_In x l : In x (dedup l) <-> In x l.
Proof. apply list_dedup_In. intros; apply Z.eqb_eq. Qed.

Lemma NoDup_dedup l : NoDup (dedup l).
Proof. apply NoDup_list_dedup. intros; apply Z.eqb_eq. Qed.

Lemma dedup_id l : NoDup l -> dedup l = l.
Proof. apply list_dedup_id. intros; apply Z.eqb_eq. Qed.

Section SortG.
  Context {A : Type} (le : A -> A -> bool).

  Lemma insert_by_perm x l : Permutation (insert_by le x l) (x :: l).
  Proof.
    induction l as [|y t IH]; cbn [insert_by]; [reflexivity|].
    destruct (le x y); [reflexivity|].
    rewrite IH. apply perm_swap.
  Qed.

  Lemma sort_by_perm l : Permutation (sort_by le l) l.
  Proof.
    induction l as [|x t IH]; cbn [sort_by fold_right]; [reflexivity|].
    fold (sort_by le t). rewrite insert_by_perm. now rewrite IH.
  Qed.

  Lemma sort_by_In x l : In x (sort_by le l) <-> In x l.
  Proof.
    split; apply Permutation_in; [|symmetry]; apply sort_by_perm.
  Qed.

  Hypothesis le_total : forall x y, le x y = true \/ le y x = true.
  Hypothesis le_trans : forall x y z, le x y = true -> le y z = true -> le x z = true.

  Definition leP x y := le x y = true.

  Lemma insert_by_sorted x l : StronglySorted leP l -> StronglySorted leP (insert_by le x l).
  Proof.
    induction 1 as [|y t Ht IH Hall]; cbn [insert_by].
    - constructor; [constructor | constructor].
    - destruct (le x y) eqn:E.
      + constructor; [constructor; assumption|].
        constructor; [exact E|].
        eapply Forall_impl; [|exact Hall]. intros z Hz. unfold leP in *. eauto.
      + constructor; [exact IH|].
        apply (Permutation_Forall (Permutation_sym (insert_by_perm x t))).
        constructor; [|exact Hall].
        destruct (le_total x y) as [H|H]; [congruence | exact H].
  Qed.

  Lemma sort_by_sorted l : StronglySorted leP (sort_by le l).
  Proof.
    induction l as [|x t IH]; cbn [sort_by fold_right]; [constructor|].
    now apply insert_by_sorted.
  Qed.
End SortG.

Lemma lexleb_total a b : lexleb a b = true \/ lexleb b a = true.
Proof.
  revert b; induction a as [|x a IH]; intros [|y b]; cbn [lexleb]; auto.
  destruct (Z.ltb_spec x y), (Z.ltb_spec y x); auto.
  assert (x = y) by lia. subst. rewrite Z.eqb_refl. apply IH.
Qed.

Lemma lexleb_trans a b c : lexleb a b = true -> lexleb b c = true -> lexleb a c = true.
Proof.
  revert b c; induction a as [|x a IH]; intros [|y b] [|z c]; cbn [lexleb]; auto; try discriminate.
  destruct (Z.ltb_spec x y); destruct (Z.ltb_spec y z); destruct (Z.eqb_spec x y);
    destruct (Z.eqb_spec y z); destruct (Z.ltb_spec x z); destruct (Z.eqb_spec x z);
    subst; try lia; try discriminate; auto.
  apply IH.
Qed.

Lemma zsort_perm l : Permutation (zsort l) l.
Proof. apply sort_by_perm. Qed.

Lemma zsort_In x l : In x (zsort l) <-> In x l.
Proof. apply sort_by_In. Qed.

Lemma zsort_sorted l : StronglySorted Z.le (zsort l).
Proof.
  assert (H : StronglySorted (leP Z.leb) (zsort l)).
  { apply sort_by_sorted.
    - intros x y. rewrite !Z.leb_le. lia.
    - intros x y z. rewrite !Z.leb_le. lia. }
  induction H as [|x t Ht IH Hall]; constructor; [exact IH|].
  eapply Forall_impl; [|exact Hall]. intros y Hy. now apply Z.leb_le.
Qed.

Section DictL.
  Context {K V : Type} (eqb : K -> K -> bool).
  Hypothesis eqb_spec : forall x y, eqb x y = true <-> x = y.

  Lemma dkeq_refl k : eqb k k = true.
  Proof. now apply eqb_spec. Qed.

  Lemma dget_dset_same (d : list (K * V)) k v : dget eqb (dset eqb d k v) k = Some v.
  Proof.
    induction d as [|[k' v'] t IH]; cbn [dset dget].
    - now rewrite dkeq_refl.
    - destruct (eqb k k') eqn:E; cbn [dget]; rewrite E; auto.
  Qed.

  Lemma dget_dset_other (d : list (K * V)) k k2 v :
    k2 <> k -> dget eqb (dset eqb d k v) k2 = dget eqb d k2.
  Proof.
    intros Hne. assert (E2 : eqb k2 k = false).
    { destruct (eqb k2 k) eqn:E; [|reflexivity]. apply eqb_spec in E. contradiction. }
    induction d as [|[k' v'] t IH]; cbn [dset dget].
    - now rewrite E2.
    - destruct (eqb k k') eqn:E; cbn [dget].
      + apply eqb_spec in E. subst k'. now rewrite E2.
      + destruct (eqb k2 k'); auto.
  Qed.

  Lemma dget_In (d : list (K * V)) k v : dget eqb d k = Some v -> In (k, v) d.
  Proof.
    induction d as [|[k' v'] t IH]; cbn [dget]; [discriminate|].
    destruct (eqb k k') eqn:E.
    - intros [= ->]. apply eqb_spec in E. subst. now left.
    - intros H. right. auto.
  Qed.

  Lemma dget_None (d : list (K * V)) k : dget eqb d k = None <-> ~ In k (map fst d).
  Proof.
    induction d as [|[k' v'] t IH]; cbn [dget map fst In]; [tauto|].
    destruct (eqb k k') eqn:E.
    - apply eqb_spec in E. subst. split; [discriminate | tauto].
    - rewrite IH. split; [|tauto]. intros H [->|H2]; [|tauto].
      rewrite dkeq_refl in E. discriminate.
  Qed.

  Lemma In_dget (d : list (K * V)) k v :
    NoDup (map fst d) -> In (k, v) d -> dget eqb d k = Some v.
  Proof.
    induction d as [|[k' v'] t IH]; cbn [dget map fst In]; [tauto|].
    intros Hnd [H|H]; inversion Hnd as [|? ? Hni Hnd']; subst.
    - inversion H; subst. now rewrite dkeq_refl.
    - destruct (eqb k k') eqn:E; [|auto].
      apply eqb_spec in E. subst. exfalso. apply Hni.
      apply in_map_iff. exists (k', v). auto.
  Qed.

  Lemma dset_keys_In (d : list (K * V)) k v x :
    In x (map fst (dset eqb d k v)) <-> x = k \/ In x (map fst d).
  Proof.
    induction d as [|[k' v'] t IH]; cbn [dset map fst In].
    - intuition.
    - destruct (eqb k k') eqn:E; cbn [map fst In].
      + apply eqb_spec in E. subst. intuition.
      + rewrite IH. intuition.
  Qed.

  Lemma dset_NoDup (d : list (K * V)) k v :
    NoDup (map fst d) -> NoDup (map fst (dset eqb d k v)).
  Proof.
    induction d as [|[k' v'] t IH]; cbn [dset map fst]; intros H.
    - constructor; [intros [] | constructor].
    - inversion H as [|? ? Hni Hnd]; subst.
      destruct (eqb k k') eqn:E; cbn [map fst].
      + constructor; assumption.
      + constructor; [|auto]. rewrite dset_keys_In. intros [->|H2]; [|contradiction].
        rewrite dkeq_refl in E. discriminate.
  Qed.
End DictL.

Lemma scope_eqb_eq a b : scope_eqb a b = true <-> a = b.
Proof. destruct a, b; cbn; split; congruence. Qed.

Lemma Zeqb_spec : forall x y, Z.eqb x y = true <-> x = y.
Proof. intros; apply Z.eqb_eq. Qed.

Lemma NoDup_app_disj {A} (l m : list A) :
  NoDup l -> NoDup m -> (forall x, In x m -> ~ In x l) -> NoDup (l ++ m).
Proof.
  induction 1 as [|x t Hx Ht IH]; cbn [app]; intros Hm Hd; [exact Hm|].
  constructor.
  - rewrite in_app_iff. intros [H|H]; [contradiction|]. apply (Hd x H). now left.
  - apply IH; [exact Hm|]. intros y Hy H. apply (Hd y Hy). now right.
Qed.

Lemma NoDup_app_l {A} (l m : list A) : NoDup (l ++ m) -> NoDup l.
Proof.
  induction l as [|x t IH]; cbn [app]; intros H; [constructor|].
  inversion H as [|? ? Hni Hnd]; subst. constructor; [|auto].
  intros Hx. apply Hni, in_app_iff. now left.
Qed.

Lemma Permutation_filter {A} (f : A -> bool) l m :
  Permutation l m -> Permutation (filter f l) (filter f m).
Proof.
  induction 1; cbn [filter]; auto.
  - destruct (f x); auto.
  - destruct (f x), (f y); auto. constructor.
  - etransitivity; eauto.
Qed.
