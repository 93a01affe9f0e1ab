(** Lemmas for C67: dictionaries, names and values. *)
From Coq Require Import Ascii String Relations ZifyBool.
From Verif Require Import Base M_Text M_Yaml S_Yaml L_Base L_Text.

Lemma key_eqb_eq : forall a b, key_eqb a b = true <-> a = b.
Proof.
  intros [x|x] [y|y]; cbn; try (split; intro; congruence).
  - rewrite str_eqb_eq. split; [intros ->; reflexivity | intros H; inversion H; reflexivity].
  - rewrite Z.eqb_eq. split; [intros ->; reflexivity | intros H; inversion H; reflexivity].
Qed.
Lemma key_eqb_refl : forall a, key_eqb a a = true.
Proof. intros. apply key_eqb_eq. reflexivity. Qed.
Lemma key_eqb_neq : forall a b, a <> b -> key_eqb a b = false.
Proof. intros a b H. destruct (key_eqb a b) eqn:E; [|reflexivity]. apply key_eqb_eq in E. contradiction. Qed.

Lemma path_eqb_eq : forall p q, path_eqb p q = true <-> p = q.
Proof.
  intros [a l] [b m]. unfold path_eqb. cbn [pp_abs pp_parts]. rewrite andb_true_iff, Bool.eqb_true_iff.
  destruct (list_eq_dec (list_eq_dec ascii_dec) l m) as [E|E].
  - split; [intros [-> _]; f_equal; exact E | intros H; inversion H; auto].
  - split; [intros [_ H]; discriminate | intros H; inversion H; subst; contradiction].
Qed.
Lemma path_dec : forall p q : ppath, {p = q} + {p <> q}.
Proof.
  intros p q. destruct (path_eqb p q) eqn:E; [left; apply path_eqb_eq; exact E | right].
  intros H. apply path_eqb_eq in H. congruence.
Qed.
Lemma inc_In : forall q l, existsb (path_eqb q) l = true <-> In q l.
Proof.
  intros. rewrite existsb_exists. split.
  - intros (x & H & E). apply path_eqb_eq in E. subst. exact H.
  - intros H. exists q. split; [exact H | apply path_eqb_eq; reflexivity].
Qed.
Lemma inc_nIn : forall q l, existsb (path_eqb q) l = false <-> ~ In q l.
Proof. intros. rewrite <- inc_In. destruct (existsb _ _); split; congruence. Qed.

(** *** The dictionary of a list *)
Lemma dset_keys : forall (d : ydict) k v,
  map fst (dset key_eqb d k v) = if existsb (key_eqb k) (map fst d) then map fst d else map fst d ++ [k].
Proof.
  induction d as [|[k' v'] t IH]; intros k v; cbn [dset map fst existsb app]; [reflexivity|].
  destruct (key_eqb k k') eqn:E; cbn [orb map fst].
  - reflexivity.
  - rewrite IH. destruct (existsb _ _); reflexivity.
Qed.
Lemma keyin : forall k l, existsb (key_eqb k) l = true <-> In k l.
Proof.
  intros. rewrite existsb_exists. split.
  - intros (x & H & E). apply key_eqb_eq in E. subst. exact H.
  - intros H. exists k. split; [exact H | apply key_eqb_refl].
Qed.

Lemma remove_app : forall (k : ykey) a b, remove ykey_dec k (a ++ b) = remove ykey_dec k a ++ remove ykey_dec k b.
Proof. intros. induction a as [|x a IH]; cbn; [reflexivity|]. destruct (ykey_dec k x); cbn; [exact IH | f_equal; exact IH]. Qed.
Lemma remove_id : forall (k : ykey) a, ~ In k a -> remove ykey_dec k a = a.
Proof. intros. apply notin_remove. assumption. Qed.
Lemma remove_In : forall (k : ykey) x l, In x (remove ykey_dec k l) <-> In x l /\ x <> k.
Proof.
  intros. split; [intros H; apply in_remove in H; exact H | intros [H N]; apply in_in_remove; assumption].
Qed.
Lemma firsts_In : forall l k, In k (firsts l) <-> In k l.
Proof.
  induction l as [|x l IH]; intros k; cbn [firsts In]; [tauto|]. rewrite remove_In, IH.
  destruct (ykey_dec x k) as [E|E]; [tauto|]. split; [intros [H|[H _]]; tauto | intros [H|H]; [tauto|]].
  right. split; [exact H | congruence].
Qed.
Lemma remove_comm : forall (a b : ykey) l, remove ykey_dec a (remove ykey_dec b l) = remove ykey_dec b (remove ykey_dec a l).
Proof. intros. induction l as [|x l IH]; cbn; [reflexivity|]. destruct (ykey_dec b x), (ykey_dec a x); cbn; repeat (destruct (ykey_dec _ _); try congruence); try exact IH; try (f_equal; exact IH). Qed.
Lemma firsts_snoc : forall l k, firsts (l ++ [k]) = if existsb (key_eqb k) l then firsts l else firsts l ++ [k].
Proof.
  induction l as [|x l IH]; intros k; cbn [app firsts existsb]; [reflexivity|]. rewrite IH.
  destruct (key_eqb k x) eqn:E; cbn [orb].
  - apply key_eqb_eq in E. subst x. destruct (existsb (key_eqb k) l); [reflexivity|]. rewrite remove_app. cbn.
    destruct (ykey_dec k k); [|congruence]. rewrite app_nil_r. reflexivity.
  - destruct (existsb (key_eqb k) l); [reflexivity|]. rewrite remove_app. cbn.
    destruct (ykey_dec x k) as [->|N]; [rewrite key_eqb_refl in E; discriminate | reflexivity].
Qed.
Lemma firsts_NoDup : forall l, NoDup (firsts l).
Proof.
  induction l as [|x l IH]; cbn [firsts]; constructor.
  - rewrite remove_In. tauto.
  - clear -IH. induction (firsts l) as [|y t IH']; cbn; [constructor|]. inversion IH; subst.
    destruct (ykey_dec x y); [auto|]. constructor; [rewrite remove_In; tauto | auto].
Qed.
Lemma firsts_id : forall l, NoDup l -> firsts l = l.
Proof. induction 1 as [|x l N H IH]; cbn; [reflexivity|]. rewrite IH, remove_id by exact N. reflexivity. Qed.

Lemma dset_In : forall (d : ydict) k v k' v', NoDup (map fst d) -> In (k', v') (dset key_eqb d k v) ->
  (k' = k /\ v' = v) \/ (k' <> k /\ In (k', v') d).
Proof.
  induction d as [|[a b] t IH]; intros k v k' v' N H; cbn [dset] in H.
  - destruct H as [H|[]]. inversion H; subst. auto.
  - cbn [map fst] in N. inversion N as [|? ? N1 N2]; subst. destruct (key_eqb k a) eqn:E.
    + apply key_eqb_eq in E. subst a. destruct H as [H|H]; [inversion H; subst; auto|]. right. split.
      * intros ->. apply N1. apply in_map_iff. exists (k, v'). auto.
      * right. exact H.
    + destruct H as [H|H].
      * inversion H; subst. right. split; [intros ->; rewrite key_eqb_refl in E; discriminate | left; reflexivity].
      * destruct (IH _ _ _ _ N2 H) as [A|[A B]]; [left; exact A | right; split; [exact A | right; exact B]].
Qed.

Lemma dict_of_nil : dict_of [] [].
Proof. split; [reflexivity | intros k v []]. Qed.
Lemma dict_of_NoDup : forall bs d, dict_of bs d -> NoDup (map fst d).
Proof. intros bs d [H _]. rewrite H. apply firsts_NoDup. Qed.
Lemma dict_of_set : forall bs d k v, dict_of bs d -> dict_of (bs ++ [(k, v)]) (dset key_eqb d k v).
Proof.
  intros bs d k v D. pose proof (dict_of_NoDup _ _ D) as ND. destruct D as [D1 D2]. split.
  - rewrite dset_keys, map_app. cbn [map fst]. rewrite firsts_snoc, <- D1.
    assert (E : existsb (key_eqb k) (map fst d) = existsb (key_eqb k) (map fst bs)).
    { apply eq_true_iff_eq. rewrite !keyin, D1. apply firsts_In. }
    rewrite <- E. destruct (existsb _ (map fst d)); reflexivity.
  - intros k' v' H. destruct (dset_In _ _ _ _ _ ND H) as [[-> ->]|[N H']].
    + exists bs, []. split; [reflexivity | intros []].
    + destruct (D2 _ _ H') as (a & b & E & F). exists a, (b ++ [(k, v)]). subst bs. split.
      * rewrite <- app_assoc. reflexivity.
      * rewrite map_app, in_app_iff. cbn. intuition congruence.
Qed.
Lemma dict_of_sets : forall (l bs d : ydict), dict_of bs d ->
  dict_of (bs ++ l) (fold_left (fun r x => dset key_eqb r (fst x) (snd x)) l d).
Proof.
  induction l as [|[k v] l IH]; intros bs d D; cbn [fold_left fst snd]; [rewrite app_nil_r; exact D|].
  replace (bs ++ (k, v) :: l) with ((bs ++ [(k, v)]) ++ l) by (rewrite <- app_assoc; reflexivity).
  apply IH, dict_of_set, D.
Qed.

Lemma last_value_app : forall a b k v, last_value (a ++ b) k v <->
  last_value b k v \/ (last_value a k v /\ ~ In k (map fst b)).
Proof.
  intros a b k v. split.
  - intros (x & y & E & N). apply app_eq_app in E as (l & [[E1 E2]|[E1 E2]]).
    + destruct l as [|z l].
      * cbn in E2. left. exists [], y. split; [symmetry; exact E2 | exact N].
      * cbn in E2. inversion E2; subst. right. rewrite map_app, in_app_iff in N. split; [exists x, l|]; tauto.
    + left. exists l, y. split; [exact E2 | exact N].
  - intros [(x & y & E & N)|[(x & y & E & N) N']].
    + exists (a ++ x), y. subst b. rewrite app_assoc. auto.
    + exists x, (y ++ b). subst a. rewrite <- app_assoc. split; [reflexivity|]. rewrite map_app, in_app_iff. tauto.
Qed.

(** The dictionary of a dictionary's pairs *)
Lemma dict_of_trans : forall bs0 bs l d, dict_of bs l -> dict_of (bs0 ++ l) d -> dict_of (bs0 ++ bs) d.
Proof.
  intros bs0 bs l d [A1 A2] [B1 B2]. split.
  - rewrite B1. rewrite !map_app. rewrite A1. clear. induction (map fst bs0) as [|x t IH]; cbn [app firsts].
    + apply firsts_id. apply firsts_NoDup.
    + rewrite IH. reflexivity.
  - intros k v H. specialize (B2 _ _ H). apply last_value_app in B2. apply last_value_app. destruct B2 as [C|[C D]].
    + left. apply A2. destruct C as (x & y & E & _). rewrite E, in_app_iff. right. left. reflexivity.
    + right. split; [exact C|]. rewrite A1, firsts_In in D. exact D.
Qed.
Lemma update_dict : forall bs0 bs r d, dict_of bs0 r -> dict_of bs d -> dict_of (bs0 ++ bs) (update r d).
Proof. intros. eapply dict_of_trans; [eassumption|]. apply dict_of_sets. assumption. Qed.

Lemma dict_of_fun : forall bs d d', dict_of bs d -> dict_of bs d' -> d = d'.
Proof.
  intros bs d d' [A1 A2] [B1 B2]. rewrite <- B1 in A1. clear B1.
  assert (U : forall k v w, last_value bs k v -> last_value bs k w -> v = w).
  { intros k v w (a & b & E & N) (a' & b' & E' & N'). subst bs. apply app_eq_app in E' as (l & [[E1 E2]|[E1 E2]]).
    - destruct l as [|z l]; cbn in E2; inversion E2; subst; [reflexivity|]. exfalso. apply N'.
      rewrite map_app, in_app_iff. right. left. reflexivity.
    - destruct l as [|z l]; cbn in E2; inversion E2; subst; [reflexivity|]. exfalso. apply N.
      rewrite map_app, in_app_iff. right. left. reflexivity. }
  revert d' A1 B2. induction d as [|[k v] t IH]; intros [|[k' v'] t'] A1 B2; cbn in A1; try discriminate; [reflexivity|].
  inversion A1; subst. f_equal.
  - f_equal. eapply U; [apply A2; left; reflexivity | apply B2; left; reflexivity].
  - apply IH; [intros; apply A2; right; assumption | assumption | intros; apply B2; right; assumption].
Qed.
Lemma dict_of_id : forall l, NoDup (map fst l) -> dict_of l l.
Proof.
  intros l N. split; [symmetry; apply firsts_id; exact N|]. intros k v H. apply in_split in H as (a & b & ->).
  exists a, b. split; [reflexivity|]. rewrite map_app in N. cbn in N. apply NoDup_remove_2 in N.
  rewrite in_app_iff in N. tauto.
Qed.
Lemma mkdict_id : forall l, NoDup (map fst l) -> mkdict l = l.
Proof.
  intros l N. eapply dict_of_fun; [|apply dict_of_id; exact N]. apply (dict_of_sets l [] []). apply dict_of_nil.
Qed.

(** *** Keys *)
Lemma starts_iff : forall p x, starts p x = true <-> exists r, x = p ++ r.
Proof.
  intros p x. unfold starts. rewrite str_eqb_eq. split.
  - intros H. exists (skipn (length p) x). rewrite H at 2. rewrite firstn_length. 
    assert (L : (length p <= length x)%nat).
    { apply (f_equal (@length ascii)) in H. rewrite firstn_length in H. lia. }
    rewrite H at 1. rewrite <- (firstn_skipn (length p) x) at 1. f_equal.
    + f_equal. lia.
  - intros [r ->]. rewrite firstn_app, firstn_all, Nat.sub_diag. cbn. rewrite app_nil_r. reflexivity.
Qed.
Lemma is_include_iff : forall k, is_include k = true <-> k = include.
Proof.
  intros [s|n]; cbn [is_include]; [|split; intro; discriminate]. rewrite str_eqb_eq. unfold include, inc_name.
  split; [intros ->; reflexivity | intros H; inversion H; reflexivity].
Qed.
Lemma reserved_iff : forall k, reserved k = true <-> exists r, k = KText (s2l "include_"%string ++ r).
Proof.
  intros [s|n]; cbn [reserved].
  - rewrite starts_iff. split; intros [r E]; exists r; [rewrite E; reflexivity | inversion E; reflexivity].
  - split; [discriminate | intros [r E]; discriminate].
Qed.
Lemma ordinary_iff : forall k, ordinary k <-> is_include k = false /\ reserved k = false.
Proof.
  intros k. unfold ordinary. split.
  - intros [A B]. split.
    + destruct (is_include k) eqn:E; [|reflexivity]. apply is_include_iff in E. contradiction.
    + destruct (reserved k) eqn:E; [|reflexivity]. apply reserved_iff in E as [r E]. exfalso. exact (B r E).
  - intros [A B]. split.
    + intros ->. assert (is_include include = true) by (apply is_include_iff; reflexivity). congruence.
    + intros r E. assert (reserved k = true) by (apply reserved_iff; eexists; exact E). congruence.
Qed.
Lemma inc_not_reserved : reserved include = false.
Proof. vm_compute. reflexivity. Qed.
