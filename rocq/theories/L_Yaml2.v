(** Lemmas for C67: values, names of files and the loop. *)
From Coq Require Import Ascii String Relations ZifyBool.
From Verif Require Import Base M_Text M_Yaml S_Yaml L_Base L_Text L_Yaml.

Section YInd.
  Variable P : yval -> Prop.
  Hypothesis HN : P YNull.
  Hypothesis HB : forall b, P (YBool b).
  Hypothesis HZ : forall n, P (YNum n).
  Hypothesis HT : forall s, P (YText s).
  Hypothesis HS : forall l, Forall P l -> P (YSeq l).
  Hypothesis HM : forall l, Forall (fun x => P (snd x)) l -> P (YMap l).
  Fixpoint yval_nest (v : yval) : P v :=
    match v with
    | YNull => HN
    | YBool b => HB b
    | YNum n => HZ n
    | YText s => HT s
    | YSeq l => HS l ((fix go (l : list yval) : Forall P l :=
                         match l with [] => Forall_nil _ | x :: t => Forall_cons x (yval_nest x) (go t) end) l)
    | YMap l => HM l ((fix go (l : ydict) : Forall (fun x => P (snd x)) l :=
                         match l with [] => Forall_nil _ | x :: t => Forall_cons x (yval_nest (snd x)) (go t) end) l)
    end.
End YInd.

Fixpoint go_seq (l : list yval) : option (list yval) :=
  match l with
  | [] => Some []
  | x :: t => match construct x, go_seq t with Some x', Some t' => Some (x' :: t') | _, _ => None end
  end.
Fixpoint go_map (l : ydict) : option ydict :=
  match l with
  | [] => Some []
  | (k, x) :: t => match construct x, go_map t with Some x', Some t' => Some ((k, x') :: t') | _, _ => None end
  end.
Lemma construct_seq : forall l, construct (YSeq l) = option_map YSeq (go_seq l).
Proof. reflexivity. Qed.
Lemma construct_map : forall l, construct (YMap l) =
  match go_map l with Some l' => option_map (fun r => YMap (mkdict r)) (rename 0 l') | None => None end.
Proof. reflexivity. Qed.

Lemma rename_ordinary : forall l i, Forall (fun x => ordinary (fst x)) l -> rename i l = Some l.
Proof.
  induction l as [|[k v] t IH]; intros i H; cbn [rename]; [reflexivity|]. inversion H as [|? ? A B]; subst.
  apply ordinary_iff in A as [A1 A2]. cbn [fst] in A1, A2. rewrite A1, A2, IH by exact B. reflexivity.
Qed.

Lemma go_map_id : forall l, Forall (fun x => construct (snd x) = Some (snd x)) l -> go_map l = Some l.
Proof.
  induction l as [|[k v] t IH]; intros H; cbn [go_map]; [reflexivity|]. inversion H as [|? ? A B]; subst.
  cbn [snd] in A. rewrite A, IH by exact B. reflexivity.
Qed.
Lemma go_seq_id : forall l, Forall (fun x => construct x = Some x) l -> go_seq l = Some l.
Proof.
  induction l as [|v t IH]; intros H; cbn [go_seq]; [reflexivity|]. inversion H as [|? ? A B]; subst.
  rewrite A, IH by exact B. reflexivity.
Qed.

Lemma construct_proper : forall v, proper v -> construct v = Some v.
Proof.
  induction v as [| | | |l IH|l IH] using yval_nest; intros H; try reflexivity.
  - rewrite construct_seq, go_seq_id; [reflexivity|]. inversion H as [| | | |? A|]; subst.
    rewrite Forall_forall in *. intros x X. apply IH; [exact X | apply A; exact X].
  - inversion H as [| | | | |? A B C]; subst. rewrite construct_map, go_map_id.
    + rewrite rename_ordinary by exact B. cbn. rewrite mkdict_id by exact A. reflexivity.
    + rewrite Forall_forall in *. intros x X. apply IH; [exact X | apply C; exact X].
Qed.

Lemma go_map_keys : forall l l', go_map l = Some l' -> map fst l' = map fst l.
Proof.
  induction l as [|[k v] t IH]; intros l' H; cbn [go_map] in H; [inversion H; reflexivity|].
  destruct (construct v); [|discriminate]. destruct (go_map t) eqn:E; [|discriminate]. inversion H; subst.
  cbn. f_equal. apply IH. reflexivity.
Qed.
Lemma rename_reserved : forall l i k, In k (map fst l) -> reserved k = true -> rename i l = None.
Proof.
  induction l as [|[k v] t IH]; intros i k0 H R; [destruct H|]. cbn [rename map fst] in *. destruct H as [->|H].
  - destruct (is_include k0) eqn:E.
    + apply is_include_iff in E. subst. rewrite inc_not_reserved in R. discriminate.
    + rewrite R. reflexivity.
  - destruct (is_include k); [rewrite (IH _ k0 H R); reflexivity|]. destruct (reserved k); [reflexivity|].
    rewrite (IH _ k0 H R). reflexivity.
Qed.
Lemma construct_reserved : forall v, deep_reserved v -> construct v = None.
Proof.
  induction 1 as [l r v H|l k v H D IH|l v H D IH].
  - rewrite construct_map. destruct (go_map l) as [l'|] eqn:E; [|reflexivity].
    rewrite (rename_reserved l' 0 (KText (s2l "include_"%string ++ r))); [reflexivity| |].
    + rewrite (go_map_keys _ _ E). apply in_map_iff. eexists. split; [|exact H]. reflexivity.
    + apply reserved_iff. eexists. reflexivity.
  - rewrite construct_map. assert (E : go_map l = None); [|rewrite E; reflexivity].
    clear D. induction l as [|[k' v'] t IHt]; [destruct H|]. cbn [go_map]. destruct H as [H|H].
    + inversion H; subst. rewrite IH. reflexivity.
    + rewrite (IHt H). destruct (construct v'); reflexivity.
  - rewrite construct_seq. assert (E : go_seq l = None); [|rewrite E; reflexivity].
    clear D. induction l as [|v' t IHt]; [destruct H|]. cbn [go_seq]. destruct H as [H|H].
    + subst. rewrite IH. reflexivity.
    + rewrite (IHt H). destruct (construct v'); reflexivity.
Qed.

(** *** The keys of a document after the renaming are different *)
Lemma rename_keys : forall l i l', rename i l = Some l' ->
  forall k, In k (map fst l') -> (In k (map fst l) /\ ordinary k) \/ exists j, i <= j /\ k = KText (inc_pref ++ dec j).
Proof.
  induction l as [|[k v] t IH]; intros i l' H k0 K; cbn [rename] in H.
  - inversion H; subst. destruct K.
  - destruct (is_include k) eqn:I.
    + destruct (rename (i + 1) t) as [t'|] eqn:E; [|discriminate]. inversion H; subst. destruct K as [K|K].
      * right. exists i. split; [lia | symmetry; exact K].
      * destruct (IH _ _ E _ K) as [[A B]|(j & J & A)]; [left; split; [right; exact A | exact B]|].
        right. exists j. split; [lia | exact A].
    + destruct (reserved k) eqn:R; [discriminate|]. destruct (rename i t) as [t'|] eqn:E; [|discriminate].
      inversion H; subst. destruct K as [K|K].
      * left. cbn [fst] in K. subst k0. split; [left; reflexivity | apply ordinary_iff; auto].
      * destruct (IH _ _ E _ K) as [[A B]|(j & J & A)]; [left; split; [right; exact A | exact B]|].
        right. exists j. auto.
Qed.

Lemma dec_one : forall a b, 0 <= a -> 0 <= b -> dec a = dec b -> a = b.
Proof.
  intros a b Ha Hb E. destruct (dec_numeral a Ha) as (_ & _ & H1 & _). destruct (dec_numeral b Hb) as (_ & _ & H2 & _).
  congruence.
Qed.

Definition once (l : ydict) : Prop := forall a k v b w c, l = a ++ (k, v) :: b ++ (k, w) :: c -> k = include.
Lemma once_tail : forall x l, once (x :: l) -> once l.
Proof. intros x l H a k v b w c E. apply (H (x :: a) k v b w c). rewrite E. reflexivity. Qed.

Lemma rename_NoDup : forall l i l', 0 <= i -> once l -> rename i l = Some l' -> NoDup (map fst l').
Proof.
  induction l as [|[k v] t IH]; intros i l' P O H; cbn [rename] in H.
  - inversion H; subst. constructor.
  - destruct (is_include k) eqn:I.
    + destruct (rename (i + 1) t) as [t'|] eqn:E; [|discriminate]. inversion H; subst. cbn [map fst]. constructor.
      * intros K. destruct (rename_keys _ _ _ E _ K) as [[A B]|(j & J & A)].
        -- destruct B as [_ B]. exact (B (dec i) eq_refl).
        -- injection A as A. apply dec_one in A; lia.
      * eapply IH; [|eapply once_tail; exact O|exact E]. lia.
    + destruct (reserved k) eqn:R; [discriminate|]. destruct (rename i t) as [t'|] eqn:E; [|discriminate].
      inversion H; subst. cbn [map fst]. constructor.
      * intros K. destruct (rename_keys _ _ _ E _ K) as [[A B]|(j & J & A)].
        -- apply in_map_iff in A as ([k' w] & A1 & A2). cbn in A1. subst k'. apply in_split in A2 as (b & c & A2).
           destruct B as [B _]. apply B. apply (O [] k v b w c). rewrite A2. reflexivity.
        -- assert (reserved k = true) by (apply reserved_iff; exists (dec j); exact A). congruence.
      * eapply IH; [|eapply once_tail; exact O|exact E]. lia.
Qed.

(** *** Names of files *)
Lemma pieces_split : forall l cur,
  pieces cur l = filter (fun c => negb (str_eqb c [] || str_eqb c (s2l "."%string)))
                        (match split_on "/"%char l with x :: r => (cur ++ x) :: r | [] => [cur] end).
Proof.
  induction l as [|c t IH]; intros cur; cbn [pieces split_on].
  - rewrite app_nil_r. cbn [filter]. destruct (str_eqb cur [] || _); reflexivity.
  - rewrite (Ascii.eqb_sym c). destruct (Ascii.eqb "/"%char c) eqn:E.
    + rewrite IH. cbn [filter]. rewrite app_nil_r. destruct (str_eqb cur [] || _) eqn:F; cbn [negb app].
      * destruct (split_on _ t); reflexivity.
      * f_equal. destruct (split_on _ t); reflexivity.
    + rewrite IH. destruct (split_on _ t) as [|x r] eqn:F.
      * reflexivity.
      * rewrite <- app_assoc. reflexivity.
Qed.
Lemma mkpath_parts : forall t, pp_parts (mkpath t) = pieces [] t.
Proof.
  intros t. cbn [mkpath pp_parts]. rewrite pieces_split. f_equal.
  destruct (split_on "/"%char t) as [|x r] eqn:E; [|reflexivity]. exfalso. revert E. clear.
  destruct t as [|c t]; cbn [split_on]; [discriminate|].
  destruct (Ascii.eqb "/"%char c); [discriminate|]. destruct (split_on "/"%char t); discriminate.
Qed.

(** The name that the loop works out *)
Definition the_name (path : option ppath) (txt : str) : option ppath :=
  let q := mkpath txt in if pp_abs q then Some q else option_map (fun p => pjoin (pparent p) q) path.
Lemma abs_slash : forall t, pp_abs (mkpath t) = true <-> exists u, t = "/"%char :: u.
Proof.
  intros t. cbn [mkpath pp_abs]. destruct t as [|c u]; [split; [discriminate | intros [u E]; discriminate]|].
  split.
  - intros H. exists u. destruct c as [[] [] [] [] [] [] [] []]; try discriminate H; reflexivity.
  - intros [w E]. inversion E; subst. reflexivity.
Qed.
Lemma the_name_iff : forall b t q, the_name b t = Some q <-> refers b t q.
Proof.
  intros b t q. unfold the_name. cbv zeta. destruct (pp_abs (mkpath t)) eqn:A.
  - pose proof (proj1 (abs_slash t) A) as [u ->].
    assert (Q : mkpath ("/"%char :: u) = PP true (pieces [] ("/"%char :: u))) by (rewrite <- mkpath_parts; reflexivity).
    rewrite Q. split.
    + intros H. assert (q = PP true (pieces [] ("/"%char :: u))) as -> by congruence. apply ref_abs.
    + intros H. inversion H as [? ? E|? ? ? ? N|? ? N]; subst.
      * reflexivity.
      * exfalso. exact (N u eq_refl).
      * exfalso. exact (N u eq_refl).
  - assert (N : forall u, t <> "/"%char :: u).
    { intros u E. assert (pp_abs (mkpath t) = true) by (apply abs_slash; eexists; exact E). congruence. }
    split.
    + intros H. destruct b as [[a parts]|]; cbn [option_map] in H; [|discriminate]. injection H as <-.
      unfold pjoin, pparent. cbn [pp_abs pp_parts]. rewrite mkpath_parts.
      destruct (list_eq_dec (list_eq_dec ascii_dec) parts []) as [->|Q].
      * cbn. apply ref_top. exact N.
      * destruct (exists_last Q) as (dir & f & ->). rewrite removelast_last. apply ref_rel. exact N.
    + intros H. inversion H as [? u E|a dir f u M|a u M]; subst.
      * exfalso. exact (N _ eq_refl).
      * cbn [option_map]. unfold pjoin, pparent. cbn [pp_abs pp_parts]. rewrite removelast_last, mkpath_parts. reflexivity.
      * cbn [option_map]. unfold pjoin, pparent. cbn [pp_abs pp_parts]. rewrite mkpath_parts. reflexivity.
Qed.

Lemma blank_iff : forall v, blank v <-> ytruthy v = false.
Proof.
  intros v. unfold blank. split.
  - intros [-> | [-> | [-> | [-> | [-> | ->]]]]]; reflexivity.
  - destruct v as [|[]|n|[|]|[|]|[|]]; cbn; intros H; try discriminate; auto 10.
    right. right. left. f_equal. lia.
Qed.
