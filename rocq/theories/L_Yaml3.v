(** Lemmas for C67: what a successful load means, and when a load succeeds. *)
From Coq Require Import Ascii String Relations ZifyBool.
From Verif Require Import Base M_Text M_Yaml S_Yaml L_Base L_Text L_Yaml L_Yaml2.

Scheme expands_mut := Induction for expands Sort Prop
with inlines_mut := Induction for inlines Sort Prop.

Lemma renamed_reserved : forall i, reserved (KText (inc_pref ++ dec i)) = true.
Proof. intros. apply reserved_iff. exists (dec i). reflexivity. Qed.

Lemma rename_nil : forall i l, rename i l = Some [] <-> l = [].
Proof.
  intros i [|[k v] t]; cbn [rename]; [tauto|]. split; [|discriminate].
  destruct (is_include k); [destruct (rename _ t); discriminate|]. destruct (reserved k); [discriminate|].
  destruct (rename _ t); discriminate.
Qed.

Lemma parse_map : forall l, proper_doc (YMap l) ->
  parse (FDoc (YMap l)) = match rename 0 l with Some l' => inr (YMap l') | None => inl YError end.
Proof.
  intros l P. destruct (P l eq_refl) as [O F]. unfold parse. rewrite construct_map, go_map_id.
  - destruct (rename 0 l) as [l'|] eqn:E; [|reflexivity]. cbn [option_map]. rewrite mkdict_id; [reflexivity|].
    apply (rename_NoDup l 0 l'); [lia | exact O | exact E].
  - rewrite Forall_forall in *. intros x X. apply construct_proper, F, X.
Qed.
Lemma parse_blank : forall v v', construct v = Some v' -> (ytruthy v' = false <-> ytruthy v = false).
Proof.
  intros v v' H. destruct v as [|b|n|s|l|l].
  1-4: inversion H; tauto.
  - rewrite construct_seq in H. destruct (go_seq l) as [l'|] eqn:E; [|discriminate]. inversion H; subst.
    destruct l as [|x t]; cbn [go_seq] in E; [inversion E; tauto|]. destruct (construct x); [|discriminate].
    destruct (go_seq t); [|discriminate]. inversion E; subst. cbn. tauto.
  - rewrite construct_map in H. destruct (go_map l) as [l'|] eqn:E; [|discriminate].
    destruct (rename 0 l') as [r|] eqn:R; [|discriminate]. inversion H; subst. cbn [ytruthy].
    destruct l as [|[k x] t].
    + cbn in E. inversion E; subst. cbn in R. inversion R; subst. cbn. tauto.
    + cbn [go_map] in E. destruct (construct x); [|discriminate]. destruct (go_map t); [|discriminate]. inversion E; subst.
      assert (mkdict r <> []).
      { destruct r as [|[k' w] r']; [apply rename_nil in R; discriminate|]. intros Q.
        pose proof (dict_of_sets ((k', w) :: r') [] [] dict_of_nil) as [D _].
        change (fold_left _ _ []) with (mkdict ((k', w) :: r')) in D.
        rewrite Q in D. cbn in D. discriminate. }
      destruct (mkdict r); [congruence|]. tauto.
Qed.
(** A document that is not a mapping *)
Lemma construct_kind : forall v l, construct v = Some (YMap l) -> exists m, v = YMap m.
Proof.
  intros [| | | |m|m] l H; try discriminate.
  - rewrite construct_seq in H. destruct (go_seq m); discriminate.
  - eexists. reflexivity.
Qed.

Section Sound.
  Variable fs : ppath -> file.
  Hypothesis Hp : forall p v, fs p = FDoc v -> proper_doc v.

  Lemma items_sound : forall n ld,
    (forall q s d s', ld q s = (inr d, s') ->
       exists bs ns, expands fs n q bs ns /\ dict_of bs d /\ y_opened s' = rev ns ++ q :: y_opened s) ->
    forall l i l1 path r s d s' bs0, rename i l = Some l1 -> dict_of bs0 r -> items ld path l1 r s = (inr d, s') ->
    exists bs ns, inlines fs n path l bs ns /\ dict_of (bs0 ++ bs) d /\ y_opened s' = rev ns ++ y_opened s.
  Proof.
    intros n ld Hl. induction l as [|[k v] t IH]; intros i l1 path r s d s' bs0 R D H.
    - cbn in R. inversion R; subst. cbn in H. inversion H; subst. exists [], []. rewrite app_nil_r.
      split; [constructor | split; [exact D | reflexivity]].
    - cbn [rename] in R. destruct (is_include k) eqn:I.
      + apply is_include_iff in I. subst k. destruct (rename (i + 1) t) as [t1|] eqn:E; [|discriminate].
        cbn [option_map] in R.
        assert (l1 = (KText (inc_pref ++ dec i), v) :: t1) as -> by congruence. cbn [items] in H. rewrite renamed_reserved in H. cbn [negb] in H.
        destruct (ytruthy v) eqn:T; cbn [negb] in H.
        * destruct v as [| | |x| |]; try discriminate H. cbv zeta in H.
          change (if pp_abs (mkpath x) then Some (mkpath x)
                  else option_map (fun p => pjoin (pparent p) (mkpath x)) path) with (the_name path x) in H.
          destruct (the_name path x) as [q|] eqn:Q; [|discriminate]. destruct (existsb _ _) eqn:X; [discriminate|].
          destruct (ld q _) as [[e|d1] s1] eqn:L; [discriminate|].
          destruct (Hl _ _ _ _ L) as (bs & ns & A & B & C). cbn [y_opened] in C.
          destruct (IH _ _ _ _ _ _ _ (bs0 ++ bs) E (update_dict _ _ _ _ D B) H) as (bs' & ns' & A' & B' & C').
          exists (bs ++ bs'), (q :: ns ++ ns'). split; [|split].
          -- apply in_file; [destruct x; [discriminate T | discriminate] | apply the_name_iff; exact Q | exact A | exact A'].
          -- rewrite app_assoc. exact B'.
          -- rewrite C', C. cbn [rev]. rewrite rev_app_distr, <- !app_assoc. reflexivity.
        * destruct (IH _ _ _ _ _ _ _ _ E D H) as (bs & ns & A & B & C). exists bs, ns. split; [|auto].
          apply in_blank; [apply blank_iff; exact T | exact A].
      + destruct (reserved k) eqn:S; [discriminate|]. destruct (rename i t) as [t1|] eqn:E; [|discriminate].
        cbn [option_map] in R. inversion R; subst. cbn [items] in H. rewrite S in H. cbn [negb] in H.
        destruct (IH _ _ _ _ _ _ _ _ E (dict_of_set _ _ k v D) H) as (bs & ns & A & B & C).
        exists ((k, v) :: bs), ns. split; [|split; [|exact C]].
        * apply in_key; [apply ordinary_iff; auto | exact A].
        * rewrite <- app_assoc in B. exact B.
  Qed.

  Lemma loaded_sound : forall n ld path f s d s', (forall v, f = FDoc v -> proper_doc v) ->
    (forall q s d s', ld q s = (inr d, s') ->
       exists bs ns, expands fs n q bs ns /\ dict_of bs d /\ y_opened s' = rev ns ++ q :: y_opened s) ->
    loaded ld path f s = (inr d, s') ->
    exists bs ns, dict_of bs d /\ y_opened s' = rev ns ++ y_opened s /\
      ((exists v, f = FDoc v /\ blank v /\ bs = [] /\ ns = []) \/ (exists l, f = FDoc (YMap l) /\ inlines fs n path l bs ns)).
  Proof.
    intros n ld path f s d s' Pf Hl H. unfold loaded in H. destruct f as [| |v]; try discriminate H.
    destruct (parse (FDoc v)) as [e|v'] eqn:P; [discriminate|]. cbn in P.
    destruct (construct v) as [w|] eqn:C; [|discriminate]. inversion P; subst w.
    destruct (ytruthy v') eqn:T; cbn [negb] in H.
    - destruct v' as [| | | | |l']; try discriminate H. destruct (construct_kind _ _ C) as [l ->].
      pose proof (parse_map l (Pf _ eq_refl)) as Q. unfold parse in Q. rewrite C in Q.
      destruct (rename 0 l) as [l1|] eqn:R; [|discriminate]. inversion Q; subst l1.
      destruct (items_sound n ld Hl _ _ _ _ _ _ _ _ [] R dict_of_nil H) as (bs & ns & A & B & D).
      exists bs, ns. split; [exact B | split; [exact D | right]]. eexists. split; [reflexivity | exact A].
    - inversion H; subst. exists [], []. split; [apply dict_of_nil | split; [reflexivity | left]]. exists v.
      split; [reflexivity | split; [|auto]]. apply blank_iff. apply (parse_blank _ _ C). exact T.
  Qed.

  Lemma load_sound : forall n q s d s', load fs n q s = (inr d, s') ->
    exists bs ns, expands fs n q bs ns /\ dict_of bs d /\ y_opened s' = rev ns ++ q :: y_opened s.
  Proof.
    induction n as [|n IH]; intros q s d s' H; [discriminate|]. cbn [load] in H.
    destruct (loaded_sound n _ _ _ _ _ _ (Hp q) IH H) as (bs & ns & A & B & [(v & C & D & -> & ->)|(l & C & D)]).
    - exists [], []. split; [eapply exp_blank; eassumption | split; [exact A | exact B]].
    - exists bs, ns. split; [eapply exp_doc; eassumption | split; [exact A | exact B]].
  Qed.
End Sound.

(** *** Nothing is opened twice *)
Lemma NoDup_snoc : forall (m : list ppath) q, NoDup m -> ~ In q m -> NoDup (m ++ [q]).
Proof.
  intros m q N H. induction N as [|x m A B IH]; cbn; [constructor; [intros []|constructor]|]. constructor.
  - rewrite in_app_iff. cbn. intros [C|[C|[]]]; [contradiction|]. apply H. left. symmetry. exact C.
  - apply IH. intros C. apply H. right. exact C.
Qed.
Section Once.
  Variable fs : ppath -> file.

  Definition fresh (m : list ppath) (s s' : yst) : Prop :=
    NoDup m /\ incl (y_inc s) (y_inc s') /\ forall q, In q m -> In q (y_inc s') /\ ~ In q (y_inc s).

  Lemma items_once : forall ld,
    (forall q s r s', ld q s = (r, s') -> exists m, (y_opened s' = y_opened s /\ m = [] \/ y_opened s' = m ++ q :: y_opened s) /\ fresh m s s') ->
    forall l path r0 s r s', items ld path l r0 s = (r, s') -> exists m, y_opened s' = m ++ y_opened s /\ fresh m s s'.
  Proof.
    intros ld Hl. induction l as [|[k v] t IH]; intros path r0 s r s' H; cbn [items] in H.
    1: { inversion H; subst. exists []. split; [reflexivity|]. split; [constructor | split; [apply incl_refl | intros q []]]. }
    assert (Triv : exists m, y_opened s = m ++ y_opened s /\ fresh m s s).
    { exists []. split; [reflexivity|]. split; [constructor | split; [apply incl_refl | intros q []]]. }
    destruct (reserved k); cbn [negb] in H; [|eapply IH; exact H].
    destruct (ytruthy v); cbn [negb] in H; [|eapply IH; exact H].
    destruct v as [| | |x| |]; try (inversion H; subst; exact Triv). cbv zeta in H.
    destruct (if pp_abs (mkpath x) then _ else _) as [q|]; [|inversion H; subst; exact Triv].
    destruct (existsb _ _) eqn:X; [inversion H; subst; exact Triv|]. apply inc_nIn in X.
    destruct (ld q _) as [r1 s1] eqn:L. destruct (Hl _ _ _ _ L) as (m & O & N1 & N2 & N3). cbn [y_inc y_opened] in *.
    assert (F : exists m1, y_opened s1 = m1 ++ y_opened s /\ fresh m1 s s1).
    { destruct O as [[O ->]|O].
      - exists []. split; [exact O|]. split; [constructor | split; [|intros ? []]]. intros z Z. apply N2. right. exact Z.
      - exists (m ++ [q]). split; [rewrite O, <- app_assoc; reflexivity|]. split; [|split].
        + apply NoDup_snoc; [exact N1|]. intros Q. destruct (N3 _ Q) as [_ Q1]. apply Q1. left. reflexivity.
        + intros z Z. apply N2. right. exact Z.
        + intros z Z. apply in_app_iff in Z as [Z|[<-|[]]].
          * destruct (N3 _ Z) as [A B]. split; [exact A | intros C; apply B; right; exact C].
          * split; [apply N2; left; reflexivity | exact X]. }
    destruct r1 as [e|d].
    - inversion H; subst. exact F.
    - destruct F as (m1 & F1 & F2 & F3 & F4). destruct (IH _ _ _ _ _ H) as (m2 & G1 & G2 & G3 & G4).
      exists (m2 ++ m1). split; [rewrite G1, F1, app_assoc; reflexivity|]. split; [|split].
      + clear -G2 F2 G4 F4. induction m2 as [|z m2 IH]; [exact F2|]. cbn. inversion G2; subst. constructor.
        * rewrite in_app_iff. intros [C|C]; [contradiction|]. destruct (G4 z (or_introl eq_refl)) as [_ N]. apply N. apply (F4 z C).
        * apply IH; [assumption | intros q Q; apply G4; right; exact Q].
      + eapply incl_tran; eassumption.
      + intros z Z. apply in_app_iff in Z as [Z|Z].
        * destruct (G4 _ Z) as [A B]. split; [exact A | intros C; apply B, F3, C].
        * destruct (F4 _ Z) as [A B]. split; [apply G3; exact A | exact B].
  Qed.
End Once.
