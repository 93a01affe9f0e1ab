(** Lemmas for C67: each file once, no endless loading, and when a load succeeds. *)
From Coq Require Import Ascii String Relations ZifyBool.
From Verif Require Import Base M_Text M_Yaml S_Yaml L_Base L_Text L_Yaml L_Yaml2 L_Yaml3.

Lemma loaded_once : forall ld,
  (forall q s r s', ld q s = (r, s') -> exists m, (y_opened s' = y_opened s /\ m = [] \/ y_opened s' = m ++ q :: y_opened s) /\ fresh m s s') ->
  forall path f s r s', loaded ld path f s = (r, s') -> exists m, y_opened s' = m ++ y_opened s /\ fresh m s s'.
Proof.
  intros ld Hl path f s r s' H. unfold loaded in H.
  assert (Triv : exists m, y_opened s = m ++ y_opened s /\ fresh m s s).
  { exists []. split; [reflexivity|]. split; [constructor | split; [apply incl_refl | intros q []]]. }
  destruct (parse f) as [e|v]; [inversion H; subst; exact Triv|].
  destruct (negb (ytruthy v)); [inversion H; subst; exact Triv|].
  destruct v; try (inversion H; subst; exact Triv). eapply items_once; eassumption.
Qed.
Lemma load_once : forall fs n q s r s', load fs n q s = (r, s') ->
  exists m, (y_opened s' = y_opened s /\ m = [] \/ y_opened s' = m ++ q :: y_opened s) /\ fresh m s s'.
Proof.
  induction n as [|n IH]; intros q s r s' H; cbn [load] in H.
  - inversion H; subst. exists []. split; [left; auto|]. split; [constructor | split; [apply incl_refl | intros ? []]].
  - destruct (loaded_once _ IH _ _ _ _ _ H) as (m & A & B). exists m. split; [right; exact A | exact B].
Qed.
Lemma C67_once_l : forall fs n p r s, yload fs n p = (r, s) ->
  exists m, (y_opened s = [] \/ y_opened s = m ++ [p]) /\ NoDup m.
Proof.
  intros fs n p r s H. destruct (load_once _ _ _ _ _ _ H) as (m & A & (B & _)). exists m. split; [|exact B].
  destruct A as [[A _]|A]; [left | right]; exact A.
Qed.

(** *** No endless loading *)
Section Depth.
  Variable fs : ppath -> file.
  Variable L : list ppath.
  Hypothesis HL : forall p, ~ In p L -> fs p = FNone.

  Definition left_ (s : yst) : nat := length (filter (fun q => negb (existsb (path_eqb q) (y_inc s))) L).

  Lemma left_incl : forall s s', incl (y_inc s) (y_inc s') -> (left_ s' <= left_ s)%nat.
  Proof.
    intros s s' H. unfold left_. clear HL. induction L as [|q t IH]; cbn [filter]; [lia|].
    destruct (existsb (path_eqb q) (y_inc s)) eqn:A; cbn [negb].
    - apply inc_In in A. apply H in A. apply inc_In in A. rewrite A. exact IH.
    - destruct (existsb (path_eqb q) (y_inc s')) eqn:B; cbn [negb length]; lia.
  Qed.
  Lemma left_take : forall q i o, ~ In q i -> In q L -> (left_ (YSt (q :: i) o) < left_ (YSt i o))%nat.
  Proof.
    intros q i o N H. unfold left_. cbn [y_inc]. clear HL. induction L as [|x t IH]; [destruct H|].
    assert (T : (length (filter (fun q0 => negb (existsb (path_eqb q0) (q :: i))) t) <=
                 length (filter (fun q0 => negb (existsb (path_eqb q0) i)) t))%nat).
    { clear. induction t as [|y t IH]; cbn [filter]; [lia|]. cbn [existsb] in *.
      destruct (existsb (path_eqb y) i); [rewrite orb_true_r; cbn [negb]; exact IH|]. rewrite orb_false_r.
      destruct (path_eqb y q); cbn [negb length]; lia. }
    cbn [filter]. destruct H as [->|H].
    - assert (A : existsb (path_eqb q) (q :: i) = true) by (apply inc_In; left; reflexivity). rewrite A.
      apply inc_nIn in N. rewrite N. cbn [negb length]. lia.
    - specialize (IH H). cbn [existsb] in *. destruct (existsb (path_eqb x) i).
      + rewrite orb_true_r. cbn [negb]. exact IH.
      + rewrite orb_false_r. destruct (path_eqb x q); cbn [negb length]; lia.
  Qed.

  Definition good (ld : ppath -> yst -> yres ydict * yst) (n : nat) : Prop :=
    forall q s r s', ld q s = (r, s') -> incl (y_inc s) (y_inc s') /\
      ((left_ s + 2 <= n)%nat \/ (1 <= n)%nat /\ ~ In q L -> r <> inl YDeep).

  Lemma items_deep : forall ld n, good ld n ->
    forall l path r0 s r s', items ld path l r0 s = (r, s') ->
      incl (y_inc s) (y_inc s') /\ ((left_ s + 1 <= n)%nat -> r <> inl YDeep).
  Proof.
    intros ld n G. induction l as [|[k v] t IH]; intros path r0 s r s' H; cbn [items] in H.
    1: { inversion H; subst. split; [apply incl_refl | discriminate]. }
    destruct (reserved k); cbn [negb] in H; [|eapply IH; exact H].
    destruct (ytruthy v); cbn [negb] in H; [|eapply IH; exact H].
    destruct v as [| | |x| |]; try (inversion H; subst; split; [apply incl_refl | discriminate]). cbv zeta in H.
    destruct (if pp_abs (mkpath x) then _ else _) as [q|]; [|inversion H; subst; split; [apply incl_refl | discriminate]].
    destruct (existsb _ _) eqn:X; [inversion H; subst; split; [apply incl_refl | discriminate]|]. apply inc_nIn in X.
    destruct (ld q _) as [r1 s1] eqn:E. destruct (G _ _ _ _ E) as [G1 G2]. cbn [y_inc] in G1.
    assert (I1 : incl (y_inc s) (y_inc s1)) by (intros z Z; apply G1; right; exact Z).
    assert (D1 : (left_ s + 1 <= n)%nat -> r1 <> inl YDeep).
    { intros Hn. apply G2. destruct (in_dec path_dec q L) as [Q|Q]; [left | right; split; [lia | exact Q]].
      pose proof (left_take q (y_inc s) (y_opened s) X Q). destruct s as [i o]. cbn [y_inc y_opened] in *. lia. }
    destruct r1 as [e|d].
    - inversion H; subst. split; [exact I1|]. intros Hn Q. apply (D1 Hn). inversion Q. reflexivity.
    - destruct (IH _ _ _ _ _ H) as [A B]. split; [eapply incl_tran; eassumption|]. intros Hn. apply B.
      pose proof (left_incl _ _ I1). lia.
  Qed.
  Lemma loaded_deep : forall ld n, good ld n -> forall path f s r s', loaded ld path f s = (r, s') ->
    incl (y_inc s) (y_inc s') /\ ((left_ s + 1 <= n)%nat \/ f = FNone -> r <> inl YDeep).
  Proof.
    intros ld n G path f s r s' H. unfold loaded in H. destruct (parse f) as [e|v] eqn:P.
    - inversion H; subst. split; [apply incl_refl|]. intros _ Q. inversion Q; subst. destruct f as [| |w]; try discriminate P.
      cbn in P. destruct (construct w); discriminate.
    - destruct (negb (ytruthy v)); [inversion H; subst; split; [apply incl_refl | discriminate]|].
      destruct v; try (inversion H; subst; split; [apply incl_refl | discriminate]).
      destruct (items_deep _ _ G _ _ _ _ _ _ H) as [A B]. split; [exact A|]. intros [C| ->]; [auto|]. discriminate P.
  Qed.
  Lemma load_deep : forall n, good (load fs n) n.
  Proof.
    induction n as [|n IH]; intros q s r s' H; cbn [load] in H.
    - inversion H; subst. split; [apply incl_refl|]. intros [Q|[Q _]]; lia.
    - destruct (loaded_deep _ _ IH _ _ _ _ _ H) as [A B]. split; [exact A|]. intros Q. apply B.
      destruct Q as [Q|[_ Q]]; [left | right; apply HL; exact Q].
      destruct s as [i o]. unfold left_ in *. cbn [y_inc] in *. lia.
  Qed.
  Lemma C67_terminates_l : forall n p, (length L + 2 <= n)%nat -> fst (yload fs n p) <> inl YDeep.
  Proof.
    intros n p Hn. unfold yload. destruct (load fs n p (YSt [] [])) as [r s'] eqn:E. destruct (load_deep _ _ _ _ _ E) as [_ B].
    apply B. left. unfold left_. cbn [y_inc existsb negb].
    assert (Q : length (filter (fun _ : ppath => true) L) = length L) by (clear; induction L; cbn; congruence). lia.
  Qed.
End Depth.

(** *** When a load succeeds *)
Definition apart (ns inc : list ppath) : Prop := NoDup ns /\ forall q, In q ns -> ~ In q inc.

Lemma inlines_rename : forall fs n b l bs ns, inlines fs n b l bs ns -> forall i, exists l1, rename i l = Some l1.
Proof.
  intros fs n b l bs ns H. induction H as [n b|n b k v t bs ns O H IH|n b v t bs ns B H IH|n b x q t bs ns bs' ns' X R E H IH];
    intros i; cbn [rename].
  - eexists. reflexivity.
  - apply ordinary_iff in O as [O1 O2]. rewrite O1, O2. destruct (IH i) as [l1 ->]. eexists. reflexivity.
  - rewrite (proj2 (is_include_iff include) eq_refl). destruct (IH (i + 1)) as [l1 ->]. eexists. reflexivity.
  - rewrite (proj2 (is_include_iff include) eq_refl). destruct (IH (i + 1)) as [l1 ->]. eexists. reflexivity.
Qed.

Lemma apart_app : forall a b inc, apart (a ++ b) inc <-> apart a inc /\ apart b (rev a ++ inc).
Proof.
  intros a b inc. unfold apart. split.
  - intros [N D]. assert (A : NoDup a /\ NoDup b /\ forall q, In q b -> ~ In q a).
    { clear D. induction a as [|x a IH]; cbn in N; [split; [constructor | split; [exact N | intros ? ? []]]|].
      inversion N as [|? ? N1 N2]; subst. destruct (IH N2) as (A & B & C). rewrite in_app_iff in N1. split; [|split].
      - constructor; tauto.
      - exact B.
      - intros q Q [->|Q']; [tauto | exact (C q Q Q')]. }
    destruct A as (A & B & C). split; split; try assumption.
    + intros q Q. apply D. apply in_app_iff. left. exact Q.
    + intros q Q. rewrite in_app_iff, <- in_rev. intros [R|R]; [exact (C q Q R)|]. apply (D q); [apply in_app_iff; right; exact Q | exact R].
  - intros [[A1 A2] [B1 B2]]. split.
    + clear A2. induction A1 as [|x a N A IH]; [exact B1|]. cbn. constructor.
      * rewrite in_app_iff. intros [C|C]; [contradiction|]. apply (B2 x C). rewrite in_app_iff, <- in_rev. left. left. reflexivity.
      * apply IH. intros q Q R. apply (B2 q Q). rewrite in_app_iff, <- in_rev in *. destruct R as [R|R]; [left; right; exact R | right; exact R].
    + intros q Q. apply in_app_iff in Q as [Q|Q]; [apply A2; exact Q|]. intros R. apply (B2 q Q). apply in_app_iff. right. exact R.
Qed.

Section Complete.
  Variable fs : ppath -> file.
  Hypothesis Hp : forall p v, fs p = FDoc v -> proper_doc v.

  Definition outcome (r : yres ydict) (s s' : yst) (ns : list ppath) : Prop :=
    (apart ns (y_inc s) /\ (exists d, r = inr d) /\ y_inc s' = rev ns ++ y_inc s) \/
    (~ apart ns (y_inc s) /\ r = inl YError).

  Lemma items_run : forall n b l bs ns, inlines fs n b l bs ns ->
    forall d, (forall m q bs ns, (m <= n)%nat -> expands fs m q bs ns -> forall s r s', load fs d q s = (r, s') -> outcome r s s' ns) ->
    forall i l1 r0 s r s', rename i l = Some l1 -> items (load fs d) b l1 r0 s = (r, s') -> outcome r s s' ns.
  Proof.
    intros n b l bs ns H d Hl.
    induction H as [n b|n b k v t bs ns O H IH|n b v t bs ns B H IH|n b x q t bs ns bs' ns' X R E H IH];
      intros i l1 r0 s r s' Rn I; cbn [rename] in Rn.
    - inversion Rn; subst. cbn in I. inversion I; subst. left. split; [split; [constructor | intros ? []]|].
      split; [eexists; reflexivity | reflexivity].
    - apply ordinary_iff in O as [O1 O2]. rewrite O1, O2 in Rn. destruct (rename i t) as [t1|] eqn:Q; [|discriminate].
      cbn [option_map] in Rn. inversion Rn; subst. cbn [items] in I. rewrite O2 in I. cbn [negb] in I.
      eapply IH; [exact Hl | exact Q | exact I].
    - rewrite (proj2 (is_include_iff include) eq_refl) in Rn. destruct (rename (i + 1) t) as [t1|] eqn:Q; [|discriminate].
      cbn [option_map] in Rn. assert (l1 = (KText (inc_pref ++ dec i), v) :: t1) as -> by congruence.
      cbn [items] in I. rewrite renamed_reserved in I. cbn [negb] in I. apply blank_iff in B. rewrite B in I. cbn [negb] in I.
      eapply IH; [exact Hl | exact Q | exact I].
    - rewrite (proj2 (is_include_iff include) eq_refl) in Rn. destruct (rename (i + 1) t) as [t1|] eqn:Q; [|discriminate].
      cbn [option_map] in Rn. assert (l1 = (KText (inc_pref ++ dec i), YText x) :: t1) as -> by congruence.
      cbn [items] in I. rewrite renamed_reserved in I. cbn [negb] in I.
      assert (T : ytruthy (YText x) = true) by (destruct x; [congruence | reflexivity]). rewrite T in I. cbn [negb] in I. cbv zeta in I.
      change (if pp_abs (mkpath x) then Some (mkpath x)
              else option_map (fun p => pjoin (pparent p) (mkpath x)) b) with (the_name b x) in I.
      rewrite (proj2 (the_name_iff b x q) R) in I. change (q :: ns ++ ns') with ([q] ++ ns ++ ns').
      destruct (existsb (path_eqb q) (y_inc s)) eqn:Z.
      + inversion I; subst. right. split; [|reflexivity]. intros A. apply apart_app in A as [[_ A] _].
        apply (A q); [left; reflexivity | apply inc_In; exact Z].
      + apply inc_nIn in Z. destruct (load fs d q _) as [r1 s1] eqn:L1.
        assert (A1 : apart [q] (y_inc s)).
        { split; [constructor; [intros []|constructor]|]. intros q' [<-|[]]. exact Z. }
        destruct (Hl n q bs ns (le_n n) E _ _ _ L1) as [(A & (d1 & ->) & S1)|(A & ->)]; cbn [y_inc] in A.
        * cbn [y_inc] in S1. destruct (IH Hl _ _ _ _ _ _ Q I) as [(A' & D & S2)|(A' & ->)].
          -- left. rewrite S1 in A', S2. split; [|split; [exact D|]].
             ++ apply apart_app. split; [exact A1|]. apply apart_app. split; [exact A | exact A'].
             ++ rewrite S2. cbn [app rev]. rewrite rev_app_distr, <- !app_assoc. reflexivity.
          -- right. split; [|reflexivity]. intros C. apply A'. rewrite S1. apply apart_app in C as [_ C].
             apply apart_app in C as [_ C]. exact C.
        * inversion I; subst. right. split; [|reflexivity]. intros C. apply A. apply apart_app in C as [_ C].
          apply apart_app in C as [C _]. exact C.
  Qed.

  Lemma loaded_run : forall n b l bs ns, proper_doc (YMap l) -> inlines fs n b l bs ns ->
    forall d, (forall m q bs ns, (m <= n)%nat -> expands fs m q bs ns -> forall s r s', load fs d q s = (r, s') -> outcome r s s' ns) ->
    forall s r s', loaded (load fs d) b (FDoc (YMap l)) s = (r, s') -> outcome r s s' ns.
  Proof.
    intros n b l bs ns P H d Hl s r s' E. unfold loaded in E. rewrite parse_map in E by exact P.
    destruct (inlines_rename _ _ _ _ _ _ H 0) as [l1 R]. rewrite R in E. destruct l1 as [|x l1].
    - apply rename_nil in R. subst l. cbn in E. inversion E; subst. inversion H; subst. left.
      split; [split; [constructor | intros ? []]|]. split; [eexists; reflexivity | reflexivity].
    - cbn [ytruthy negb] in E. eapply items_run; eassumption.
  Qed.

  Lemma load_run : forall d n q bs ns, (n <= d)%nat -> expands fs n q bs ns ->
    forall s r s', load fs d q s = (r, s') -> outcome r s s' ns.
  Proof.
    induction d as [|d IH]; intros n q bs ns L E s r s' H.
    - assert (n = O) by lia. subst. inversion E.
    - cbn [load] in H. inversion E as [m p v F B|m p l bs1 ns1 F I]; subst.
      + rewrite F in H. unfold loaded in H. assert (C : parse (FDoc v) = inr v).
        { destruct B as [-> | [-> | [-> | [-> | [-> | ->]]]]]; reflexivity. }
        rewrite C in H. apply blank_iff in B. rewrite B in H. cbn [negb] in H. inversion H; subst. left.
        split; [split; [constructor | intros ? []]|]. split; [eexists; reflexivity | reflexivity].
      + rewrite F in H. pose proof (loaded_run _ _ _ _ _ (Hp _ _ F) I d) as K.
        refine (_ (K _ _ _ _ H)); [intros O; exact O|]. intros m' q' bs' ns' L' E'. apply (IH m' q' bs' ns'); [lia | exact E'].
  Qed.
End Complete.
