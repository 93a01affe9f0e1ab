(** Lemmas about the global options. *)
From Coq Require Import Ascii String Permutation.
From Verif Require Import Base L_Base M_Text L_Text M_Cmdline S_Cmdline.

Lemma eqb_refl (a : str) : str_eqb a a = true.
Proof. now apply str_eqb_eq. Qed.
Lemma eqb_ne (a b : str) : a <> b -> str_eqb a b = false.
Proof. intros H. destruct (str_eqb a b) eqn:E; [|reflexivity]. apply str_eqb_eq in E. contradiction. Qed.

Lemma in_args_In x l : in_args x l = true <-> In x l.
Proof.
  unfold in_args. rewrite existsb_exists. split.
  - intros (y & Hy & E). apply str_eqb_eq in E. now subst.
  - intros H. exists x. split; [exact H|apply eqb_refl].
Qed.

Lemma dashed_like x : dashed x = true <-> is_option_like x.
Proof.
  unfold dashed, is_option_like. destruct x as [|c t]; [split; [discriminate|now intros (? & ?)]|].
  rewrite Ascii.eqb_eq. split; [intros ->; now exists t|]. intros (u & E). now injection E.
Qed.

Lemma index_mid x a b : ~ In x a -> arg_index x (a ++ x :: b) = Some (length a).
Proof.
  induction a as [|y a IH]; intros H; cbn.
  - now rewrite eqb_refl.
  - rewrite eqb_ne by (intros ->; apply H; now left). rewrite IH; [reflexivity|]. intros Hi. apply H. now right.
Qed.

Lemma remove_mid x a b : ~ In x a -> arg_remove x (a ++ x :: b) = Ok (a ++ b).
Proof.
  induction a as [|y a IH]; intros H; cbn.
  - now rewrite eqb_refl.
  - rewrite eqb_ne by (intros ->; apply H; now left). rewrite IH; [reflexivity|]. intros Hi. apply H. now right.
Qed.

Lemma remove_perm x l l' : arg_remove x l = Ok l' -> Permutation l (x :: l').
Proof.
  revert l'. induction l as [|y l IH]; intros l'; cbn; [discriminate|]. destruct (str_eqb x y) eqn:E.
  - intros H. apply str_eqb_eq in E. subst y. injection H as <-. apply Permutation_refl.
  - destruct (arg_remove x l) as [t|e] eqn:R; cbn; [|discriminate]. intros H. injection H as <-.
    rewrite (IH t eq_refl). apply perm_swap.
Qed.

Lemma remove_absent x l : ~ In x l -> exists e, arg_remove x l = Exn e.
Proof.
  induction l as [|y l IH]; intros H; cbn; [now exists EValue|].
  rewrite eqb_ne by (intros ->; apply H; now left). destruct IH as (e & ->); [intros Hi; apply H; now right|]. now exists e.
Qed.

(** The options of the program. *)
Definition entry (o : goption) : gopt :=
  match o with
  | OHost => GO (s2l "-H"%string) (s2l "--host"%string) (s2l "hostname"%string)
  | OUser => GO (s2l "-U"%string) (s2l "--username"%string) (s2l "username"%string)
  | OKey => GO (s2l "-K"%string) (s2l "--priv-key"%string) (s2l "privkey"%string)
  | OTimeout => GO (s2l "-T"%string) (s2l "--timeout"%string) (s2l "timeout"%string)
  | ODataset => GO (s2l "-D"%string) (s2l "--dataset"%string) (s2l "dataset"%string)
  end.

Lemma ssh_entries : ssh_options = map entry [OHost; OUser; OKey; OTimeout].
Proof. reflexivity. Qed.
Lemma dataset_entry : dataset_option = entry ODataset.
Proof. reflexivity. Qed.
Lemma entry_dest o : go_dest (entry o) = attribute o.
Proof. now destruct o. Qed.
Lemma entry_spell o x : In x (spellings o) <-> x = go_short (entry o) \/ x = go_long (entry o).
Proof. destruct o; cbn [spellings map In entry go_short go_long]; intuition congruence. Qed.

Lemma spell_like o x : In x (spellings o) -> is_option_like x.
Proof.
  intros H. apply entry_spell in H. destruct H as [-> | ->]; destruct o; cbn; eexists; reflexivity.
Qed.

Lemma spell_unique o o' x : In x (spellings o) -> In x (spellings o') -> o = o'.
Proof.
  intros H H'. apply entry_spell in H, H'. destruct o, o'; try reflexivity; exfalso;
    destruct H as [-> | ->], H' as [H' | H']; vm_compute in H'; discriminate H'.
Qed.

Lemma attribute_inj o o' : attribute o = attribute o' -> o = o'.
Proof. destruct o, o'; intros H; try reflexivity; vm_compute in H; discriminate H. Qed.

Lemma goption_dec (a b : goption) : {a = b} + {a <> b}.
Proof. decide equality. Qed.

(** What stays of the typed options when one is taken out. *)
Definition keeps (o : goption) (t : typed) : bool := if goption_dec (ty_opt t) o then false else true.
Definition without (o : goption) (l : list typed) : list typed := filter (keeps o) l.

Lemma on_line_app a b : on_line (a ++ b) = on_line a ++ on_line b.
Proof. unfold on_line. now rewrite flat_map_app. Qed.

Lemma on_line_In x l : In x (on_line l) <-> exists t, In t l /\ (x = ty_as t \/ x = ty_val t).
Proof.
  unfold on_line. rewrite in_flat_map. split; intros (t & Ht & H); exists t; (split; [exact Ht|]); cbn in *; intuition.
Qed.

Lemma proper_sub a b : proper (a ++ b) -> proper a /\ proper b.
Proof.
  intros (N & H). rewrite map_app in N. split; (split; [|intros t Ht; apply H; apply in_or_app; auto]).
  - clear H. induction (map ty_opt a) as [|x l IH]; [constructor|]. cbn in N. apply NoDup_cons_iff in N as (N1 & N2).
    constructor; [|now apply IH]. intros Hx. apply N1. apply in_or_app. now left.
  - clear H. induction (map ty_opt a) as [|x l IH]; [exact N|]. cbn in N. apply NoDup_cons_iff in N as (_ & N2). now apply IH.
Qed.

Lemma without_proper o l : proper l -> proper (without o l).
Proof.
  intros (N & H). split.
  - unfold without. clear H. induction l as [|t l IH]; [constructor|]. cbn [map] in N. apply NoDup_cons_iff in N as (N1 & N2).
    cbn [filter]. destruct (keeps o t); [|now apply IH]. cbn [map]. constructor; [|now apply IH].
    intros Hi. apply N1. apply in_map_iff in Hi as (u & E & Hu). apply filter_In in Hu as (Hu & _). apply in_map_iff. now exists u.
  - intros t Ht. apply filter_In in Ht as (Ht & _). now apply H.
Qed.

Lemma without_vals o l : NoDup (map ty_val l) -> NoDup (map ty_val (without o l)).
Proof.
  unfold without. induction l as [|t l IH]; intros N; [constructor|]. cbn [map] in N. apply NoDup_cons_iff in N as (N1 & N2).
  cbn [filter]. destruct (keeps o t); [|now apply IH]. cbn [map]. constructor; [|now apply IH].
  intros Hi. apply N1. apply in_map_iff in Hi as (u & E & Hu). apply filter_In in Hu as (Hu & _). apply in_map_iff. now exists u.
Qed.

Lemma without_none o l : (forall t, In t l -> ty_opt t <> o) -> without o l = l.
Proof.
  unfold without. induction l as [|t l IH]; intros H; [reflexivity|]. cbn [filter]. unfold keeps at 1.
  destruct (goption_dec (ty_opt t) o) as [E|_]; [exfalso; apply (H t); [now left|exact E]|]. f_equal. apply IH. intros u Hu. apply H. now right.
Qed.

Lemma spelled_In o x l : proper l -> In x (spellings o) -> In x (on_line l) -> exists t, In t l /\ ty_opt t = o /\ ty_as t = x.
Proof.
  intros (_ & H) Hx Hi. apply on_line_In in Hi as (t & Ht & E). exists t. split; [exact Ht|]. destruct (H t Ht) as (Hs & Hv).
  destruct E as [-> | ->]; [split; [now apply (spell_unique _ _ (ty_as t))|reflexivity]|].
  exfalso. apply Hv. now apply (spell_like o).
Qed.

(** One option: nothing happens if it is not there. *)
Lemma check_absent o args l : proper l -> (forall t, In t l -> ty_opt t <> o) -> check_one (entry o) (args, on_line l) = Ok (args, on_line l).
Proof.
  intros Hp Hn. unfold check_one.
  assert (A : forall x, In x (spellings o) -> in_args x (on_line l) = false).
  { intros x Hx. destruct (in_args x (on_line l)) eqn:E; [|reflexivity]. apply in_args_In in E.
    destruct (spelled_In o x l Hp Hx E) as (t & Ht & Eo & _). now contradiction (Hn t Ht). }
  rewrite (A (go_short (entry o))) by (apply entry_spell; now left).
  rewrite (A (go_long (entry o))) by (apply entry_spell; now right). reflexivity.
Qed.

(** One option that is there is taken out with its value. *)
Lemma check_present args l1 t l2 : proper (l1 ++ t :: l2) -> NoDup (map ty_val (l1 ++ t :: l2)) ->
  check_one (entry (ty_opt t)) (args, on_line (l1 ++ t :: l2)) = Ok (dset str_eqb args (attribute (ty_opt t)) (ty_val t), on_line (l1 ++ l2)).
Proof.
  intros Hp Nv. assert (Hp0 := Hp). destruct Hp as (No & H).
  set (o := ty_opt t). set (x := ty_as t). set (v := ty_val t).
  assert (Hu : forall u, In u (l1 ++ t :: l2) -> ty_opt u = o -> u = t).
  { intros u Hi E. rewrite map_app in No. cbn [map] in No. apply NoDup_remove_2 in No. fold o in No.
    apply in_app_or in Hi. destruct Hi as [Hi|[Hi|Hi]]; [| congruence |]; exfalso; apply No; apply in_or_app.
    - left. apply in_map_iff. exists u. now split.
    - right. apply in_map_iff. exists u. now split. }
  destruct (H t ltac:(apply in_or_app; right; now left)) as (Hx & Hv). fold o x in Hx. fold v in Hv.
  assert (El : on_line (l1 ++ t :: l2) = on_line l1 ++ x :: v :: on_line l2) by (rewrite on_line_app; reflexivity).
  assert (Hxin : forall y, In y (spellings o) -> In y (on_line (l1 ++ t :: l2)) -> y = x).
  { intros y Hy Hi. destruct (spelled_In o y _ Hp0 Hy Hi) as (u & Hi2 & Eo & <-). now rewrite (Hu u Hi2 Eo). }
  assert (Hx1 : ~ In x (on_line l1)).
  { intros Hi. destruct (spelled_In o x l1 (proj1 (proper_sub _ _ Hp0)) Hx Hi) as (u & Hi2 & Eo & _).
    rewrite map_app in No. cbn [map] in No. apply NoDup_remove_2 in No. apply No. apply in_or_app. left. apply in_map_iff. now exists u. }
  assert (Hv1 : ~ In v (on_line l1)).
  { intros Hi. apply on_line_In in Hi as (u & Hi & [E|E]).
    - apply Hv. rewrite E. apply (spell_like (ty_opt u)). apply H. apply in_or_app. now left.
    - rewrite map_app in Nv. cbn [map] in Nv. apply NoDup_remove_2 in Nv. apply Nv. apply in_or_app. left. apply in_map_iff.
      exists u. now split. }
  assert (Hvx : v <> x) by (intros E; apply Hv; rewrite E; now apply (spell_like o)).
  unfold check_one.
  assert (Eopt : (if in_args (go_short (entry o)) (on_line (l1 ++ t :: l2)) then Some (go_short (entry o))
                  else if in_args (go_long (entry o)) (on_line (l1 ++ t :: l2)) then Some (go_long (entry o)) else None) = Some x).
  { assert (Hin : In x (on_line (l1 ++ t :: l2))) by (rewrite El; apply in_or_app; right; now left).
    destruct (in_args (go_short (entry o)) _) eqn:E1.
    - apply in_args_In in E1. f_equal. apply Hxin; [apply entry_spell; now left|exact E1].
    - destruct (in_args (go_long (entry o)) _) eqn:E2.
      + apply in_args_In in E2. f_equal. apply Hxin; [apply entry_spell; now right|exact E2].
      + exfalso. apply entry_spell in Hx. apply in_args_In in Hin. destruct Hx as [Hx|Hx]; rewrite Hx in Hin; congruence. }
  rewrite Eopt, El. rewrite (index_mid x) by exact Hx1.
  rewrite nth_error_app2 by lia. replace (S (length (on_line l1)) - length (on_line l1))%nat with 1%nat by lia. cbn [nth_error].
  assert (Ed : dashed v = false) by (destruct (dashed v) eqn:E; [apply dashed_like in E; contradiction|reflexivity]).
  rewrite Ed.
  assert (Er : arg_remove v (on_line l1 ++ x :: v :: on_line l2) = Ok (on_line l1 ++ x :: on_line l2)).
  { change (on_line l1 ++ x :: v :: on_line l2) with (on_line l1 ++ [x] ++ v :: on_line l2). rewrite app_assoc.
    rewrite (remove_mid v); [now rewrite <- app_assoc|]. intros Hi. apply in_app_or in Hi. destruct Hi as [Hi|[Hi|[]]]; [now apply Hv1|now apply Hvx]. }
  rewrite Er. cbn [rbind]. rewrite (remove_mid x) by exact Hx1. cbn [rbind]. rewrite entry_dest, on_line_app. reflexivity.
Qed.

Lemma check_entry o args l : proper l -> NoDup (map ty_val l) -> exists args',
  check_one (entry o) (args, on_line l) = Ok (args', on_line (without o l)) /\
  (forall t, In t l -> ty_opt t = o -> dget str_eqb args' (attribute o) = Some (ty_val t)) /\
  ((forall t, In t l -> ty_opt t <> o) -> args' = args) /\
  (forall a, a <> attribute o -> dget str_eqb args' a = dget str_eqb args a).
Proof.
  intros Hp Nv. destruct (in_dec goption_dec o (map ty_opt l)) as [Hi|Hn].
  - apply in_map_iff in Hi as (t & Eo & Ht). apply in_split in Ht as (l1 & l2 & ->).
    exists (dset str_eqb args (attribute o) (ty_val t)). rewrite <- Eo.
    assert (No := proj1 Hp). rewrite map_app in No. cbn [map] in No. apply NoDup_remove_2 in No.
    assert (Hd : forall u, In u (l1 ++ l2) -> ty_opt u <> ty_opt t).
    { intros u Hu E. apply No. rewrite <- map_app. apply in_map_iff. now exists u. }
    assert (Ew : without (ty_opt t) (l1 ++ t :: l2) = l1 ++ l2).
    { unfold without. rewrite filter_app. cbn [filter]. unfold keeps at 2. destruct (goption_dec (ty_opt t) (ty_opt t)) as [_|C]; [|contradiction].
      change (without (ty_opt t) l1 ++ without (ty_opt t) l2 = l1 ++ l2).
      rewrite !without_none; [reflexivity| |]; intros u Hu; apply Hd; apply in_or_app; auto. }
    rewrite Ew. split; [now apply check_present|]. split; [|split].
    + intros u Hu E. rewrite (dget_dset_same str_eqb str_eqb_eq). apply in_app_or in Hu. destruct Hu as [Hu|[Hu|Hu]].
      * exfalso. apply (Hd u); [apply in_or_app; now left|exact E].
      * now subst u.
      * exfalso. apply (Hd u); [apply in_or_app; now right|exact E].
    + intros Hx. exfalso. apply (Hx t); [apply in_or_app; right; now left|reflexivity].
    + intros a Ha. apply (dget_dset_other str_eqb str_eqb_eq). congruence.
  - assert (Hx : forall t, In t l -> ty_opt t <> o) by (intros t Ht E; apply Hn; apply in_map_iff; now exists t).
    exists args. rewrite (without_none o l Hx), (check_absent o args l Hp Hx). split; [reflexivity|]. split; [|split; [reflexivity|reflexivity]].
    intros t Ht E. now contradiction (Hx t Ht).
Qed.

(** All of the options. *)
Lemma check_all os : forall args l, proper l -> NoDup (map ty_val l) -> NoDup os -> exists args',
  check_unknown_args (map entry os) (args, on_line l) = Ok (args', on_line (filter (fun t => if in_dec goption_dec (ty_opt t) os then false else true) l)) /\
  (forall t, In t l -> In (ty_opt t) os -> value args' (ty_opt t) = Some (ty_val t)) /\
  (forall o, In o os -> (forall t, In t l -> ty_opt t <> o) -> value args' o = value args o) /\
  (forall a, (forall o, In o os -> a <> attribute o) -> dget str_eqb args' a = dget str_eqb args a).
Proof.
  induction os as [|o os IH]; intros args l Hp Nv Nos.
  - exists args. cbn [map check_unknown_args]. split.
    + do 3 f_equal. induction l as [|t l IHl]; [reflexivity|]. cbn [filter]. destruct (in_dec goption_dec (ty_opt t) []) as [[]|_].
      f_equal. apply IHl; [now apply (proper_sub [t] l)|]. cbn [map] in Nv. now apply NoDup_cons_iff in Nv.
    + split; [intros t _ []|]. split; [intros o []|reflexivity].
  - apply NoDup_cons_iff in Nos as (No & Nos). cbn [map check_unknown_args].
    destruct (check_entry o args l Hp Nv) as (a1 & E1 & A1 & A2 & A3). rewrite E1. cbn [rbind].
    destruct (IH a1 (without o l) (without_proper o l Hp) (without_vals o l Nv) Nos) as (a2 & E2 & B1 & B2 & B3).
    exists a2. split; [|split; [|split]].
    + rewrite E2. do 3 f_equal. unfold without. clear. induction l as [|t l IHl]; [reflexivity|]. cbn [filter]. unfold keeps at 1.
      destruct (goption_dec (ty_opt t) o) as [E|E].
      * rewrite IHl. destruct (in_dec goption_dec (ty_opt t) (o :: os)) as [_|C]; [reflexivity|]. exfalso. apply C. now left.
      * cbn [filter]. rewrite IHl. destruct (in_dec goption_dec (ty_opt t) os) as [H|H], (in_dec goption_dec (ty_opt t) (o :: os)) as [H'|H'];
          try reflexivity; exfalso; [apply H'; now right|]. destruct H' as [H'|H']; [now apply E|contradiction].
    + intros t Ht Hi. destruct (goption_dec (ty_opt t) o) as [E|E].
      * unfold value. rewrite B3; [now rewrite E, (A1 t Ht E)|]. rewrite E. intros o' Ho' Ea. apply attribute_inj in Ea. now subst.
      * destruct Hi as [Hi|Hi]; [congruence|]. apply B1; [|exact Hi]. apply filter_In. split; [exact Ht|]. unfold keeps. now destruct (goption_dec (ty_opt t) o).
    + intros o' Hi Hn. destruct (goption_dec o' o) as [-> | E].
      * unfold value. rewrite B3; [now rewrite (A2 Hn)|]. intros o' Ho' Ea. apply attribute_inj in Ea. now subst.
      * destruct Hi as [Hi|Hi]; [congruence|]. rewrite (B2 o' Hi); [|intros t Ht; apply filter_In in Ht as (Ht & _); now apply Hn].
        unfold value. apply A3. intros Ea. apply attribute_inj in Ea. contradiction.
    + intros a Ha. rewrite B3; [|intros o' Ho'; apply Ha; now right]. apply A3. apply Ha. now left.
Qed.

Lemma check_app a b st : check_unknown_args (a ++ b) st = (let? st' := check_unknown_args a st in check_unknown_args b st').
Proof.
  revert st. induction a as [|x a IH]; intros st; [reflexivity|]. cbn [app check_unknown_args].
  destruct (check_one x st) as [st'|e]; cbn [rbind]; [apply IH|reflexivity].
Qed.

Definition all_options : list goption := [OHost; OUser; OKey; OTimeout; ODataset].

Lemma all_options_In o : In o all_options.
Proof. destruct o; cbn; tauto. Qed.

Lemma parse_steps args uargs : uargs <> [] -> parse_args args uargs =
  (let? st := check_unknown_args (map entry all_options) (args, uargs) in
   match snd st with
   | _ :: _ => Exn EError
   | [] => if attr_true (fst st) (s2l "dataset"%string) && negb (is_local (fst st)) then Exn EError else Ok (fst st)
   end).
Proof.
  intros H. destruct uargs as [|u us]; [contradiction|]. unfold parse_args.
  change (map entry all_options) with (ssh_options ++ [dataset_option]). rewrite check_app.
  destruct (check_unknown_args ssh_options (args, u :: us)) as [st|e]; cbn [rbind]; [|reflexivity].
  destruct (check_unknown_args [dataset_option] st) as [(a & r)|e]; cbn [rbind fst snd]; reflexivity.
Qed.

Lemma dataset_true args : attr_true args (s2l "dataset"%string) = true <-> uses_dataset (value args).
Proof.
  unfold attr_true, uses_dataset, value. change (attribute ODataset) with (s2l "dataset"%string).
  destruct (dget str_eqb args (s2l "dataset"%string)) as [[|c d]|]; split; try discriminate.
  - intros (x & E & Hx). congruence.
  - intros _. exists (c :: d). split; [reflexivity|discriminate].
  - reflexivity.
  - intros (x & E & _). discriminate.
Qed.

Lemma local_true args : is_local args = true <-> value args OHost = Some (s2l "localhost"%string).
Proof.
  unfold is_local, value. change (attribute OHost) with (s2l "hostname"%string).
  destruct (dget str_eqb args (s2l "hostname"%string)) as [h|]; [|split; discriminate]. rewrite str_eqb_eq. split; congruence.
Qed.

Lemma clash_dec args : (uses_dataset (value args) /\ is_remote (value args)) <->
  attr_true args (s2l "dataset"%string) && negb (is_local args) = true.
Proof.
  rewrite andb_true_iff, negb_true_iff, dataset_true. unfold is_remote. rewrite <- local_true.
  destruct (is_local args); intuition congruence.
Qed.

Lemma options_applied args l : proper l -> NoDup (map ty_val l) -> exists args',
  applied l (value args) (value args') /\
  (forall a, (forall o, a <> attribute o) -> dget str_eqb args' a = dget str_eqb args a) /\
  (l <> [] -> uses_dataset (value args') -> is_remote (value args') -> parse_args args (on_line l) = Exn EError) /\
  (l = [] \/ ~ (uses_dataset (value args') /\ is_remote (value args')) -> parse_args args (on_line l) = Ok args').
Proof.
  intros Hp Nv. destruct l as [|t l].
  { exists args. split; [|split; [reflexivity|split; [intros H; now contradiction H|reflexivity]]].
    intros o. split; [intros t []|reflexivity]. }
  set (l' := t :: l) in *. assert (Hne : on_line l' <> []) by discriminate.
  assert (Nall : NoDup all_options) by (unfold all_options; repeat (constructor; [cbn; intuition discriminate|]); constructor).
  destruct (check_all all_options args l' Hp Nv Nall) as (args' & E & A1 & A2 & A3).
  assert (Ef : filter (fun t => if in_dec goption_dec (ty_opt t) all_options then false else true) l' = []).
  { clearbody l'. clear. induction l' as [|t l IH]; [reflexivity|]. cbn [filter]. destruct (in_dec goption_dec (ty_opt t) all_options) as [_|C]; [exact IH|].
    exfalso. apply C. apply all_options_In. }
  rewrite Ef in E. exists args'. split; [|split].
  - intros o. split.
    + intros u Hu Eo. rewrite <- Eo. apply A1; [exact Hu|apply all_options_In].
    + intros Hn. apply A2; [apply all_options_In|exact Hn].
  - intros a Ha. apply A3. intros o _. apply Ha.
  - rewrite (parse_steps args _ Hne), E. cbn [rbind fst snd on_line flat_map]. split.
    + intros _ Hd Hr. now rewrite (proj1 (clash_dec args') (conj Hd Hr)).
    + intros [H|H]; [discriminate|]. destruct (attr_true args' _ && negb (is_local args')) eqn:C; [|reflexivity].
      apply clash_dec in C. contradiction.
Qed.

(** Nothing that is on the command line is lost, whatever it is. *)
Lemma check_one_perm o args u args' u' : check_one (entry o) (args, u) = Ok (args', u') ->
  (args' = args /\ u' = u /\ (forall x, In x (spellings o) -> ~ In x u)) \/
  (exists x v, In x (spellings o) /\ ~ is_option_like v /\ Permutation u (x :: v :: u') /\ args' = dset str_eqb args (attribute o) v).
Proof.
  assert (K : forall x, In x (spellings o) ->
    match arg_index x u with
    | None => Exn EValue
    | Some i => match nth_error u (S i) with
                | None => Exn EError
                | Some val => if dashed val then Exn EError
                              else let? u1 := arg_remove val u in let? u2 := arg_remove x u1 in Ok (dset str_eqb args (go_dest (entry o)) val, u2)
                end
    end = Ok (args', u') ->
    exists v, ~ is_option_like v /\ Permutation u (x :: v :: u') /\ args' = dset str_eqb args (attribute o) v).
  { intros x Hx H. destruct (arg_index x u) as [i|]; [|discriminate]. destruct (nth_error u (S i)) as [v|]; [|discriminate].
    destruct (dashed v) eqn:Ed; [discriminate|]. destruct (arg_remove v u) as [u1|] eqn:R1; cbn [rbind] in H; [|discriminate].
    destruct (arg_remove x u1) as [u2|] eqn:R2; cbn [rbind] in H; [|discriminate].
    exists v. rewrite entry_dest in H. assert (args' = dset str_eqb args (attribute o) v) by congruence. assert (u' = u2) by congruence. subst u'.
    split; [intros C; apply dashed_like in C; congruence|]. split; [|assumption].
    rewrite (remove_perm v u u1 R1), (remove_perm x u1 u2 R2). apply perm_swap. }
  unfold check_one. destruct (in_args (go_short (entry o)) u) eqn:E1; [|destruct (in_args (go_long (entry o)) u) eqn:E2].
  - intros H. right. assert (Hx : In (go_short (entry o)) (spellings o)) by (apply entry_spell; now left).
    destruct (K _ Hx H) as (v & Hv). exists (go_short (entry o)), v. split; [exact Hx|exact Hv].
  - intros H. right. assert (Hx : In (go_long (entry o)) (spellings o)) by (apply entry_spell; now right).
    destruct (K _ Hx H) as (v & Hv). exists (go_long (entry o)), v. split; [exact Hx|exact Hv].
  - intros H. assert (args' = args) by congruence. assert (u' = u) by congruence. left. split; [assumption|]. split; [assumption|].
    intros x Hx Hi. apply entry_spell in Hx. apply in_args_In in Hi. destruct Hx as [-> | ->]; congruence.
Qed.

Lemma check_perm os : forall args u args' u', NoDup os -> check_unknown_args (map entry os) (args, u) = Ok (args', u') ->
  exists l, proper l /\ (forall t, In t l -> In (ty_opt t) os) /\ Permutation u (on_line l ++ u') /\ applied l (value args) (value args') /\
    (forall o x, In o os -> (forall t, In t l -> ty_opt t <> o) -> In x (spellings o) -> ~ In x u) /\
    (forall a, (forall o, a <> attribute o) -> dget str_eqb args' a = dget str_eqb args a).
Proof.
  induction os as [|o os IH]; intros args u args' u' Nos H.
  - cbn in H. assert (args' = args) by congruence. assert (u' = u) by congruence. subst. exists []. split; [split; [constructor|intros t []]|].
    split; [intros t []|]. split; [apply Permutation_refl|]. split; [intros o; split; [intros t []|reflexivity]|]. split; [intros o x []|reflexivity].
  - apply NoDup_cons_iff in Nos as (No & Nos). cbn [map check_unknown_args] in H.
    destruct (check_one (entry o) (args, u)) as [(a1, u1)|e] eqn:E1; cbn [rbind] in H; [|discriminate].
    destruct (IH a1 u1 args' u' Nos H) as (l & Hp & Hin & Hperm & Ha & Hno & Hfr).
    assert (Hno_l : forall t, In t l -> ty_opt t <> o) by (intros t Ht E; apply No; rewrite <- E; now apply Hin).
    destruct (check_one_perm o args u a1 u1 E1) as [(-> & -> & Habs)|(x & v & Hx & Hv & P & Ea)].
    + exists l. split; [exact Hp|]. split; [intros t Ht; right; now apply Hin|]. split; [exact Hperm|]. split; [exact Ha|]. split; [|exact Hfr].
      intros o' y [<- |Ho'] Hn Hy; [now apply Habs|]. now apply (Hno o').
    + exists (TY o x v :: l). split; [|split; [|split; [|split; [|split]]]].
      * destruct Hp as (N & Hp). split; [cbn [map]; constructor; [|exact N]|].
        -- intros Hi. apply in_map_iff in Hi as (t & E & Ht). now apply (Hno_l t).
        -- intros t [<- |Ht]; [now split|now apply Hp].
      * intros t [<- |Ht]; [now left|]. right. now apply Hin.
      * rewrite P. cbn [on_line flat_map app ty_as ty_val]. do 2 apply perm_skip. exact Hperm.
      * intros o'. destruct (Ha o') as (B1 & B2). split.
        -- intros t [<- |Ht] E; [|now apply B1]. cbn [ty_opt ty_val] in *. subst o'. rewrite (B2 Hno_l). unfold value. rewrite Ea.
           apply (dget_dset_same str_eqb str_eqb_eq).
        -- intros Hn. rewrite B2 by (intros t Ht; apply Hn; now right). unfold value. rewrite Ea. apply (dget_dset_other str_eqb str_eqb_eq).
           intros E. apply (Hn (TY o x v)); [now left|]. cbn. apply attribute_inj. congruence.
      * intros o' y [<- |Ho'] Hn Hy Hi; [apply (Hn (TY o x v)); [now left|reflexivity]|].
        assert (Hn' : forall t, In t l -> ty_opt t <> o') by (intros t Ht; apply Hn; now right).
        apply (Hno o' y Ho' Hn' Hy). assert (Hi' := Permutation_in _ P Hi). destruct Hi' as [Hi'|[Hi'|Hi']]; [| |exact Hi'].
        -- exfalso. subst y. apply (Hn (TY o x v)); [now left|]. cbn. now apply (spell_unique _ _ x).
        -- exfalso. subst y. apply Hv. now apply (spell_like o').
      * intros a Hxa. rewrite (Hfr a Hxa), Ea. apply (dget_dset_other str_eqb str_eqb_eq). intros E. now apply (Hxa o).
Qed.

Lemma nothing_lost args uargs args' : parse_args args uargs = Ok args' ->
  exists l, proper l /\ Permutation uargs (on_line l) /\ applied l (value args) (value args') /\
    (forall a, (forall o, a <> attribute o) -> dget str_eqb args' a = dget str_eqb args a).
Proof.
  intros H. destruct uargs as [|u us].
  - cbn in H. injection H as <-. exists []. split; [split; [constructor|intros t []]|]. split; [apply Permutation_refl|]. split; [|reflexivity].
    intros o; split; [intros t []|reflexivity].
  - rewrite parse_steps in H by discriminate.
    destruct (check_unknown_args (map entry all_options) (args, u :: us)) as [(a, r)|e] eqn:E; cbn [rbind fst snd] in H; [|discriminate].
    assert (Nall : NoDup all_options) by (unfold all_options; repeat (constructor; [cbn; intuition discriminate|]); constructor).
    destruct (check_perm all_options args (u :: us) a r Nall E) as (l & Hp & _ & P & Ha & _ & Hfr).
    destruct r; [|discriminate]. destruct (attr_true a _ && _); [discriminate|]. injection H as <-.
    exists l. rewrite app_nil_r in P. now repeat (split; [assumption|]).
Qed.

Lemma unknown_refused args uargs x args' : In x uargs -> is_option_like x -> (forall o, ~ In x (spellings o)) -> parse_args args uargs <> Ok args'.
Proof.
  intros Hi Hl Hx H. destruct (nothing_lost args uargs args' H) as (l & (_ & Hp) & P & _).
  assert (Hi' := Permutation_in _ P Hi). apply on_line_In in Hi' as (t & Ht & [E|E]).
  - apply (Hx (ty_opt t)). rewrite E. now apply Hp.
  - destruct (Hp t Ht) as (_ & Hv). apply Hv. now rewrite <- E.
Qed.

Lemma on_line_length l : length (on_line l) = (2 * length l)%nat.
Proof. unfold on_line. induction l as [|t l IH]; [reflexivity|]. cbn [flat_map app length]. rewrite IH. lia. Qed.

(** The words that spell one option. *)
Lemma twice_refused args a x b y c o args' : In x (spellings o) -> In y (spellings o) ->
  parse_args args (a ++ x :: b ++ y :: c) <> Ok args'.
Proof.
  intros Hx Hy H. destruct (nothing_lost _ _ _ H) as (l & (N & Hp) & P & _).
  assert (D : forall z, {In z (spellings o)} + {~ In z (spellings o)}) by (intros z; apply (in_dec (list_eq_dec ascii_dec))).
  set (f := fun z : str => if D z then true else false).
  assert (Hf : length (filter f (on_line l)) = length (filter f (a ++ x :: b ++ y :: c))).
  { assert (PF : forall m m' : list str, Permutation m m' -> length (filter f m) = length (filter f m')).
    { intros m m' Q. induction Q; cbn [filter]; [reflexivity| | |congruence].
      - match goal with |- context [f ?p] => destruct (f p) end; cbn [length]; congruence.
      - match goal with |- context [f ?p] => destruct (f p) end; match goal with |- context [f ?p] => destruct (f p) end; reflexivity. }
    symmetry. now apply PF. }
  rewrite filter_app in Hf. cbn [filter] in Hf. rewrite filter_app in Hf. cbn [filter] in Hf.
  assert (Fx : f x = true) by (unfold f; now destruct (D x)). assert (Fy : f y = true) by (unfold f; now destruct (D y)).
  rewrite Fx, Fy in Hf. rewrite app_length in Hf. cbn [length] in Hf. rewrite app_length in Hf. cbn [length] in Hf.
  assert (Hle : (length (filter f (on_line l)) <= length (filter (fun t => if goption_dec (ty_opt t) o then true else false) l))%nat).
  { clear Hf P H N. induction l as [|t l IH]; [cbn; lia|]. cbn [on_line flat_map app filter]. change (flat_map _ l) with (on_line l).
    destruct (Hp t (or_introl eq_refl)) as (S1 & S2).
    assert (F2 : f (ty_val t) = false) by (unfold f; destruct (D (ty_val t)) as [C|_]; [exfalso; apply S2; now apply (spell_like o)|reflexivity]).
    rewrite F2. assert (IH' : (length (filter f (on_line l)) <= length (filter (fun t => if goption_dec (ty_opt t) o then true else false) l))%nat)
      by (apply IH; intros u Hu; apply Hp; now right).
    unfold f at 1. destruct (D (ty_as t)) as [C|C], (goption_dec (ty_opt t) o) as [E|E]; cbn [length]; try lia.
    exfalso. apply E. now apply (spell_unique _ _ (ty_as t)). }
  assert (Hone : (length (filter (fun t => if goption_dec (ty_opt t) o then true else false) l) <= 1)%nat).
  { clear - N. induction l as [|t l IH]; [cbn; lia|]. cbn [map] in N. apply NoDup_cons_iff in N as (N1 & N2). cbn [filter].
    destruct (goption_dec (ty_opt t) o) as [E|E]; [|now apply IH]. cbn [length].
    assert (filter (fun t => if goption_dec (ty_opt t) o then true else false) l = []); [|rewrite H; cbn; lia].
    clear IH N2. induction l as [|u l IHl]; [reflexivity|]. cbn [filter]. destruct (goption_dec (ty_opt u) o) as [E'|E'].
    - exfalso. apply N1. left. congruence.
    - apply IHl. intros Hi. apply N1. now right. }
  lia.
Qed.

(** Where the command runs. *)
Lemma emul_prefix h : startswith (s2l "emulation"%string) h = true <-> exists t, h = s2l "emulation"%string ++ t.
Proof.
  unfold startswith. rewrite str_eqb_eq. split.
  - intros E. exists (skipn (length (s2l "emulation"%string)) h). rewrite E at 1. symmetry. apply firstn_skipn.
  - intros (t & ->). rewrite firstn_app, Nat.sub_diag, firstn_all. cbn [firstn]. now rewrite app_nil_r.
Qed.

Lemma runs_on args : value args OHost <> None -> (forall t, value args OHost <> Some (s2l "emulation"%string ++ t)) ->
  exists t, main_target args = Ok t /\ says_run (value args) t.
Proof.
  intros Hh He. unfold main_target. destruct (attr_true args (s2l "dataset"%string)) eqn:Ed.
  - apply dataset_true in Ed. destruct Ed as (d & E & Hd). change (dget str_eqb args (s2l "dataset"%string)) with (value args ODataset).
    rewrite E. exists (TDataset d). split; [reflexivity|now constructor].
  - assert (Hn : ~ uses_dataset (value args)) by (intros C; apply dataset_true in C; congruence).
    change (dget str_eqb args (s2l "hostname"%string)) with (value args OHost).
    destruct (value args OHost) as [h|] eqn:E; [|contradiction]. unfold get_pman.
    destruct (is_local args) eqn:El.
    + apply local_true in El. rewrite E in El. injection El as ->. rewrite eqb_refl. exists TLocal. split; [reflexivity|now constructor].
    + assert (Hl : h <> s2l "localhost"%string) by (intros ->; apply local_true in E; congruence).
      rewrite (eqb_ne h) by exact Hl.
      destruct (startswith (s2l "emulation"%string) h) eqn:Es.
      { apply emul_prefix in Es. destruct Es as (t & ->). now contradiction (He t). }
      exists (TSSH h (value args OUser) (value args OKey) (value args OTimeout)). split; [reflexivity|now constructor].
Qed.

Lemma says_run_unique v t t' : says_run v t -> says_run v t' -> t = t'.
Proof.
  intros H H'. destruct H, H'; try reflexivity; try congruence; exfalso; match goal with H : ~ uses_dataset v |- _ => apply H; eexists; split; eassumption end.
Qed.
