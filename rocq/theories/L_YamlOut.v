(** Lemmas about the writing of YAML files (C84). *)
From Coq Require Import Ascii String QArith Lia.
From Verif Require Import Base M_Text M_YamlOut S_YamlOut.
Open Scope list_scope.

Lemma copy_in l k y : In (k, y) (flat_map (fun kv : str * yval => match kv with (k, x) => if is_none x then [] else [(k, copy_none x)] end) l) <->
  exists x, In (k, x) l /\ x <> YNone /\ y = copy_none x.
Proof.
  rewrite in_flat_map. split.
  - intros ((k', x) & Hi & Hy). destruct (is_none x) eqn:E; [destruct Hy|]. destruct Hy as [[= -> <-]|[]]. exists x. split; [exact Hi|]. split; [|reflexivity].
    intros ->. discriminate E.
  - intros (x & Hi & Hn & ->). exists (k, x). split; [exact Hi|]. destruct x; [now destruct Hn| | | | |]; now left.
Qed.

Lemma copy_leaf v : not_dict v -> copy_none v = v.
Proof. destruct v; try reflexivity. intros H. now destruct (H l). Qed.

Lemma copy_is_dict v l : copy_none v = YDict l -> exists l', v = YDict l'.
Proof. destruct v; try discriminate. intros _. now exists l0. Qed.

Lemma path_none_dead x p v : at_path x p v -> x = YNone -> p = [] /\ v = YNone.
Proof. intros H ->. inversion H; subst. auto. Qed.

Lemma skip_leaf_l p : forall d v, not_dict v -> keys_only p -> d <> YNone -> at_path (copy_none d) p v <-> at_path d p v /\ v <> YNone.
Proof.
  induction p as [|s p IH]; intros d v Hv Hk Hd.
  - split.
    + intros H. inversion H; subst. destruct d as [| | | | |l]; try (split; [constructor|discriminate]).
      * now destruct Hd.
      * exfalso. eapply Hv. reflexivity.
    + intros (H & _). inversion H; subst. rewrite (copy_leaf v Hv). constructor.
  - inversion Hk as [|? ? (k & ->) Hk']; subst. split.
    + intros H. inversion H as [|l' k' x' p' v' Hi Hp E|]; subst. destruct (copy_is_dict d l' (eq_sym E)) as (l & ->). cbn [copy_none] in E. injection E as E. subst l'.
      apply copy_in in Hi as (x & Hi & Hn & ->). apply (IH x v Hv Hk' Hn) in Hp as (Hp & Hnn). split; [|exact Hnn]. econstructor; eassumption.
    + intros (H & Hn). inversion H as [|l' k' x' p' v' Hi Hp E|]; subst. cbn [copy_none].
      assert (Hx : x' <> YNone) by (intros ->; destruct (path_none_dead _ _ _ Hp eq_refl) as (_ & ->); now apply Hn).
      apply ap_key with (x := copy_none x'); [apply copy_in; now exists x'|]. now apply IH.
Qed.

Lemma copy_keys l ks : keys_with_values l ks ->
  map fst (flat_map (fun kv : str * yval => match kv with (k, x) => if is_none x then [] else [(k, copy_none x)] end) l) = ks.
Proof.
  induction 1 as [|k l ks _ IH|k x l ks Hx _ IH]; cbn [flat_map is_none app map]; [reflexivity|exact IH|].
  destruct x; [now destruct Hx| | | | |]; cbn [is_none app map fst]; now rewrite IH.
Qed.

Lemma skip_dict_l d p l ks : keys_only p -> at_path d p (YDict l) -> keys_with_values l ks ->
  exists l', at_path (copy_none d) p (YDict l') /\ map fst l' = ks.
Proof.
  intros Hk Hp Hks. revert d Hk Hp. induction p as [|s p IH]; intros d Hk Hp.
  - inversion Hp; subst. eexists. split; [cbn [copy_none]; constructor|]. now apply copy_keys.
  - inversion Hk as [|? ? (k & ->) Hk']; subst. inversion Hp as [|l' k' x' p' v' Hi Hp' E|]; subst.
    destruct (IH x' Hk' Hp') as (l'' & Ha & Hm). exists l''. split; [|exact Hm]. cbn [copy_none]. apply ap_key with (x := copy_none x'); [|exact Ha].
    apply copy_in. exists x'. split; [exact Hi|]. split; [|reflexivity]. intros ->. destruct (path_none_dead _ _ _ Hp' eq_refl) as (_ & E). discriminate E.
Qed.

Lemma skip_no_more_l d p l : keys_only p -> at_path (copy_none d) p (YDict l) -> exists l', at_path d p (YDict l').
Proof.
  revert d. induction p as [|s p IH]; intros d Hk Hp.
  - inversion Hp; subst. destruct (copy_is_dict d l) as (l' & ->); [congruence|]. exists l'. constructor.
  - inversion Hk as [|? ? (k & ->) Hk']; subst. inversion Hp as [|l' k' x' p' v' Hi Hp' E|]; subst.
    destruct (copy_is_dict d l' (eq_sym E)) as (l0 & ->). cbn [copy_none] in E. injection E as E. subst l'. apply copy_in in Hi as (x & Hi & _ & ->).
    destruct (IH x Hk' Hp') as (l1 & H). exists l1. econstructor; eassumption.
Qed.

(** ** What is written *)
Lemma rep_at fmt repr reg v p x : at_path v p x -> node_at (represent fmt repr reg v) p (represent fmt repr reg x).
Proof.
  induction 1 as [v|l k x p v Hi _ IH|l n x p v Hn _ IH]; cbn [represent]; [constructor| |].
  - apply np_key with (x := represent fmt repr reg x); [|exact IH]. apply in_map_iff. now exists (k, x).
  - apply np_pos with (x := represent fmt repr reg x); [|exact IH]. now rewrite nth_error_map, Hn.
Qed.

Lemma rep_back fmt repr reg v p y : node_at (represent fmt repr reg v) p y -> exists x, at_path v p x /\ y = represent fmt repr reg x.
Proof.
  revert v. induction p as [|s p IH]; intros v H.
  - inversion H; subst. exists v. split; [constructor|reflexivity].
  - destruct v as [| | | |l|l]; cbn [represent] in H; inversion H; subst.
    + match goal with Hn : nth_error (map _ _) _ = _ |- _ => rewrite nth_error_map in Hn; destruct (nth_error l n) as [z|] eqn:En; [|discriminate Hn]; injection Hn as <- end.
      match goal with Hp : node_at _ p y |- _ => destruct (IH _ Hp) as (w & Hw & ->) end. exists w. split; [|reflexivity]. econstructor; eassumption.
    + match goal with Hi : In _ (map _ _) |- _ => apply in_map_iff in Hi as ((k', z) & [= <- <-] & Hi') end.
      match goal with Hp : node_at _ p y |- _ => destruct (IH _ Hp) as (w & Hw & ->) end. exists w. split; [|reflexivity]. econstructor; eassumption.
Qed.

Definition text_of (fmt : str -> Q -> str) (repr : Q -> str) (reg : option str) (q : Q) : str := match reg with Some f => fmt f q | None => repr q end.

Lemma rep_scalar fmt repr reg v : is_scalar v -> scalar_as (text_of fmt repr reg) v (represent fmt repr reg v).
Proof.
  intros (H1 & H2). destruct v; cbn [represent]; try constructor.
  - now destruct (H2 l).
  - now destruct (H1 l).
Qed.

Lemma reg_step fmt repr reg c : (forall f, formatted c f -> snd (dump fmt repr reg c) = Some f) /\ (unformatted c -> snd (dump fmt repr reg c) = reg).
Proof.
  unfold dump. cbn [snd]. split.
  - intros f (E & Hf). rewrite E. destruct f; [now destruct Hf|reflexivity].
  - intros H. destruct (y_format c) as [[|x f]|] eqn:E; try reflexivity. destruct (H (x :: f)). split; [exact E|discriminate].
Qed.

Lemma reg_none fmt repr cs : Forall unformatted cs -> registered fmt repr cs = None.
Proof.
  unfold registered. intros H. induction cs as [|c cs IH]; [reflexivity|]. inversion H as [|? ? Hc Hcs]; subst. cbn [fold_left].
  rewrite (proj2 (reg_step fmt repr None c) Hc). now apply IH.
Qed.

Lemma reg_last fmt repr a c b f : formatted c f -> Forall unformatted b -> registered fmt repr (a ++ c :: b) = Some f.
Proof.
  unfold registered. intros Hc Hb. rewrite fold_left_app. cbn [fold_left]. rewrite (proj1 (reg_step fmt repr _ c) f Hc).
  induction b as [|x b IH]; [reflexivity|]. inversion Hb as [|? ? Hx Hb']; subst. cbn [fold_left]. rewrite (proj2 (reg_step fmt repr _ x) Hx). now apply IH.
Qed.

Lemma written_eq fmt repr before c : y_skip c = false ->
  written fmt repr before c = represent fmt repr (snd (dump fmt repr (registered fmt repr before) c)) (YDict (y_data c)).
Proof. unfold written, dump. intros ->. reflexivity. Qed.

Lemma written_skip fmt repr before c : y_skip c = true ->
  written fmt repr before c = represent fmt repr (snd (dump fmt repr (registered fmt repr before) c)) (copy_none (YDict (y_data c))).
Proof. unfold written, dump. intros ->. reflexivity. Qed.

Lemma scalar_write fmt repr reg text v d p : (forall q, text q = text_of fmt repr reg q) -> at_path d p v -> is_scalar v ->
  exists n, scalar_as text v n /\ node_at (represent fmt repr reg d) p n.
Proof.
  intros Ht Hp Hs. exists (represent fmt repr reg v). split; [|now apply rep_at]. pose proof (rep_scalar fmt repr reg v Hs) as H. destruct H; try constructor.
  rewrite <- Ht. constructor.
Qed.

Lemma formatted_l fmt repr before c f p v : formatted c f -> y_skip c = false -> at_path (YDict (y_data c)) p v -> is_scalar v ->
  exists n, scalar_as (fmt f) v n /\ node_at (written fmt repr before c) p n.
Proof.
  intros Hf Hk Hp Hs. rewrite (written_eq _ _ _ _ Hk), (proj1 (reg_step fmt repr _ c) f Hf). now apply scalar_write with (v := v).
Qed.

Lemma unformatted_l fmt repr before c p v : Forall unformatted before -> unformatted c -> y_skip c = false -> at_path (YDict (y_data c)) p v -> is_scalar v ->
  exists n, scalar_as repr v n /\ node_at (written fmt repr before c) p n.
Proof.
  intros Hb Hf Hk Hp Hs. rewrite (written_eq _ _ _ _ Hk), (proj2 (reg_step fmt repr _ c) Hf), (reg_none _ _ _ Hb). now apply scalar_write with (v := v).
Qed.

Lemma leftover_l fmt repr a b c d f p v : formatted c f -> Forall unformatted b -> unformatted d -> y_skip d = false -> at_path (YDict (y_data d)) p v -> is_scalar v ->
  exists n, scalar_as (fmt f) v n /\ node_at (written fmt repr (a ++ c :: b) d) p n.
Proof.
  intros Hc Hb Hd Hk Hp Hs. rewrite (written_eq _ _ _ _ Hk), (proj2 (reg_step fmt repr _ d) Hd), (reg_last fmt repr a c b f Hc Hb). now apply scalar_write with (v := v).
Qed.

Lemma nothing_else_l fmt repr before c p n : y_skip c = false -> node_at (written fmt repr before c) p n -> exists v, at_path (YDict (y_data c)) p v.
Proof. intros Hk H. rewrite (written_eq _ _ _ _ Hk) in H. destruct (rep_back _ _ _ _ _ _ H) as (v & Hv & _). now exists v. Qed.

Lemma skip_l fmt repr before c p v : y_skip c = true -> keys_only p -> is_scalar v -> at_path (YDict (y_data c)) p v ->
  (forall text, (exists f, formatted c f /\ text = fmt f) \/ (Forall unformatted before /\ unformatted c /\ text = repr) -> v <> YNone ->
     exists n, scalar_as text v n /\ node_at (written fmt repr before c) p n) /\
  (v = YNone -> (forall u, at_path (YDict (y_data c)) p u -> u = YNone) -> forall n, ~ node_at (written fmt repr before c) p n).
Proof.
  intros Hk Hp Hs Ha. rewrite (written_skip _ _ _ _ Hk). set (reg := snd _). split.
  - intros text Ht Hn. apply (scalar_write fmt repr reg text v (copy_none (YDict (y_data c))) p); [| |exact Hs].
    + intros q. subst reg. destruct Ht as [(f & Hf & ->)|(Hb & Hf & ->)]; [now rewrite (proj1 (reg_step fmt repr _ c) f Hf)|].
      now rewrite (proj2 (reg_step fmt repr _ c) Hf), (reg_none _ _ _ Hb).
    + apply skip_leaf_l; [exact (proj1 Hs)|exact Hp|discriminate|]. now split.
  - intros -> Hu n H. destruct (rep_back _ _ _ _ _ _ H) as (x & Hx & _).
    destruct x as [| | | | |l]; try (apply skip_leaf_l in Hx as (Hx & Hxn); [apply Hu in Hx; congruence|intros ?; discriminate|exact Hp|discriminate]).
    destruct (skip_no_more_l _ _ _ Hp Hx) as (l' & Hl). apply Hu in Hl. discriminate Hl.
Qed.

(** ** Ranges *)
Lemma value_ok_l v lo hi : value_ok v lo hi = true <-> (lo <= v)%Q /\ (v <= hi)%Q.
Proof.
  unfold value_ok. rewrite !Qle_alt, <- (Qcompare_antisym v lo). destruct (v ?= lo)%Q, (v ?= hi)%Q; cbn; split; try discriminate; try tauto; try (intros _; split; discriminate); intros (H1 & H2); congruence.
Qed.

Lemma range_ok_l a b lo hi : limits_make_sense lo hi ->
  (in_limits a b lo hi -> range_ok a b lo hi = Accepted) /\ (~ in_limits a b lo hi -> range_ok a b lo hi = Refused).
Proof.
  intros Hm. assert (Le : forall x y, (x ?= y)%Q = Gt \/ (x <= y)%Q) by (intros x y; rewrite Qle_alt; destruct (x ?= y)%Q; auto; right; discriminate).
  assert (Lt : forall x y, (x ?= y)%Q = Datatypes.Lt -> ~ (y <= x)%Q) by (intros x y H; rewrite <- Qlt_alt in H; now apply Qlt_not_le).
  assert (Gt_ : forall x y, (x ?= y)%Q = Gt -> ~ (x <= y)%Q) by (intros x y H; rewrite Qle_alt; congruence).
  assert (NLt : forall x y, (x ?= y)%Q <> Datatypes.Lt -> (y <= x)%Q) by (intros x y H; apply Qnot_lt_le; now rewrite Qlt_alt).
  assert (NGt : forall x y, (x ?= y)%Q <> Gt -> (x <= y)%Q) by (intros x y H; now rewrite Qle_alt).
  unfold range_ok, in_limits. destruct (a ?= b)%Q eqn:Eab.
  3: { split; [intros (H & _); now destruct (Gt_ a b Eab)|reflexivity]. }
  all: assert (Hab : (a <= b)%Q) by (apply NGt; congruence); clear Eab.
  all: destruct lo as [l|], hi as [h|].
  all: try (destruct (h ?= l)%Q eqn:Ehl; [|exfalso; apply (Lt h l Ehl), Hm; reflexivity|]).
  all: try destruct (a ?= l)%Q eqn:El; try destruct (b ?= h)%Q eqn:Eh.
  all: split; [intros (_ & H1 & H2)|intros Hn]; try reflexivity.
  all: try (exfalso; solve [apply (Lt _ _ El), H1; reflexivity | apply (Gt_ _ _ Eh), H2; reflexivity]).
  all: exfalso; apply Hn; split; [exact Hab|]; split; intros ? [= <-]; first [apply NLt; congruence | apply NGt; congruence].
Qed.

Lemma assert_l a b lo hi : range_ok a b lo hi = Asserts <-> (a <= b)%Q /\ ~ limits_make_sense lo hi.
Proof.
  split.
  - intros H. split; [unfold range_ok in H; rewrite Qle_alt; now destruct (a ?= b)%Q|]. intros Hm. unfold range_ok in H.
    destruct (a ?= b)%Q; try discriminate H; destruct lo as [l|], hi as [h|];
      repeat match type of H with context [match (?x ?= ?y)%Q with _ => _ end] => destruct (x ?= y)%Q eqn:? end; try discriminate H;
      match goal with E : (h ?= l)%Q = Lt |- _ => rewrite <- Qlt_alt in E; now apply (Qlt_not_le _ _ E), Hm end.
  - intros (Hab & Hm). unfold range_ok. rewrite Qle_alt in Hab. destruct lo as [l|], hi as [h|].
    2-4: destruct Hm; intros ? ? E1 E2; discriminate.
    assert (E : (h ?= l)%Q = Lt) by (rewrite <- Qlt_alt; apply Qnot_le_lt; intros H; apply Hm; intros ? ? [= <-] [= <-]; exact H).
    rewrite E. destruct (a ?= b)%Q; [reflexivity|reflexivity|now destruct Hab].
Qed.
