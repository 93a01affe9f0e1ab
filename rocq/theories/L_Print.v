(** The aggregate dictionary of properties is a partition of what was read. *)
From Coq Require Import Ascii String ZifyBool.
From Verif Require Import Base L_Base L_Monad M_CPUInfo S_CPUInfo M_Text M_Props M_OpTarget M_Print S_Print.

Lemma pnum_dec (a b : pnum) : {a = b} + {a <> b}.
Proof. decide equality; apply Z.eq_dec. Qed.

Definition kcount (l : list Z) (x : Z) : nat := count_occ Z.eq_dec l x.

(** How many times a number is there. *)
Definition occ (sn : rsname) (n : nums) (k : pnum) : nat :=
  match sn, n, k with
  | RCPU, NList l, NumCPU c => kcount l c
  | RPkg, NList l, NumPkg p => kcount l p
  | RDie, NDict d, NumDie p x => match dget Z.eqb d p with Some l => kcount l x | None => 0%nat end
  | _, _, _ => 0%nat
  end.

Definition good (sn : rsname) (n : nums) : Prop :=
  match sn, n with
  | RDie, NDict d => d <> [] /\ NoDup (map fst d) /\ forall p l, In (p, l) d -> l <> []
  | RCPU, NList l | RPkg, NList l => l <> []
  | _, _ => False
  end.

Lemma good_holds sn n k : good sn n -> (holds sn n k <-> (0 < occ sn n k)%nat).
Proof.
  intros G. destruct sn, n as [l|d], k as [c|p x|p]; cbn [holds occ good] in *; try (split; [intros []|lia]); try (destruct G; fail);
    try (unfold kcount; rewrite (count_occ_In Z.eq_dec); lia).
  destruct G as (_ & ND & _). split.
  - intros (l & I & J). rewrite (In_dget _ Zeqb_spec _ _ _ ND I). now apply (count_occ_In Z.eq_dec).
  - destruct (dget Z.eqb d p) as [l|] eqn:E; [|lia]. intros H. exists l. split; [now apply (dget_In _ Zeqb_spec) in E|].
    now apply (count_occ_In Z.eq_dec).
Qed.

Lemma good_once sn n : good sn n -> (forall k, (occ sn n k <= 1)%nat) -> each_once sn n.
Proof.
  intros G H. destruct sn, n as [l|d]; cbn [good each_once] in *; try (destruct G; fail).
  - split; [exact G|]. apply (NoDup_count_occ Z.eq_dec). intros x. exact (H (NumCPU x)).
  - destruct G as (D & ND & L). split; [exact D|]. split; [exact ND|]. intros p l I. split; [exact (L _ _ I)|].
    apply (NoDup_count_occ Z.eq_dec). intros x. generalize (H (NumDie p x)). cbn [occ].
    now rewrite (In_dget _ Zeqb_spec _ _ _ ND I).
  - split; [exact G|]. apply (NoDup_count_occ Z.eq_dec). intros x. exact (H (NumPkg x)).
Qed.

Lemma good_some sn n : good sn n -> exists k, holds sn n k.
Proof.
  intros G. destruct sn, n as [l|d]; cbn [good] in G; try (destruct G; fail).
  - destruct l as [|x l]; [now elim G|]. exists (NumCPU x). cbn. now left.
  - destruct G as (D & _ & L). destruct d as [|[p l] d]; [now elim D|]. specialize (L p l (or_introl eq_refl)).
    destruct l as [|x l]; [now elim L|]. exists (NumDie p x). exists (x :: l). split; now left.
  - destruct l as [|x l]; [now elim G|]. exists (NumPkg x). cbn. now left.
Qed.

Definition occo (sn : rsname) (o : option nums) (k : pnum) : nat :=
  match o with Some n => occ sn n k | None => 0%nat end.
Definition goodo (sn : rsname) (o : option nums) : Prop := match o with Some n => good sn n | None => True end.
Definition one (k k' : pnum) : nat := if pnum_dec k k' then 1%nat else 0%nat.

Lemma count_snoc l x y : kcount (l ++ [x]) y = (kcount l y + if Z.eq_dec x y then 1 else 0)%nat.
Proof. unfold kcount. rewrite count_occ_app. cbn. destruct (Z.eq_dec x y); lia. Qed.

Lemma add_num_ok o k n : goodo (num_sname k) o -> add_num o k = Ok n ->
  good (num_sname k) n /\ forall k', occ (num_sname k) n k' = (occo (num_sname k) o k' + one k k')%nat.
Proof.
  intros G H. destruct o as [[l|d]|], k as [c|p x|p]; cbn [goodo num_sname good add_num] in *; try discriminate; try (destruct G; fail);
    injection H as <-; cbn [good].
  - split; [now destruct l|]. intros [c'|p' x'|p']; cbn [occ occo]; unfold one; destruct (pnum_dec _ _) as [E|N]; try discriminate; try lia.
    + injection E as ->. rewrite count_snoc. destruct (Z.eq_dec c' c'); [lia|contradiction].
    + rewrite count_snoc. destruct (Z.eq_dec c c'); [subst; now elim N|lia].
  - split; [now destruct l|]. intros [c'|p' x'|p']; cbn [occ occo]; unfold one; destruct (pnum_dec _ _) as [E|N]; try discriminate; try lia.
    + injection E as ->. rewrite count_snoc. destruct (Z.eq_dec p' p'); [lia|contradiction].
    + rewrite count_snoc. destruct (Z.eq_dec p p'); [subst; now elim N|lia].
  - destruct G as (D & ND & L). split.
    + split; [|split].
      * intros E. pose proof (f_equal (fun q => dget Z.eqb q p) E) as Q. cbn beta in Q. rewrite (dget_dset_same _ Zeqb_spec) in Q. discriminate.
      * now apply (dset_NoDup _ Zeqb_spec).
      * intros q l I. apply (In_dget _ Zeqb_spec) in I; [|now apply (dset_NoDup _ Zeqb_spec)].
        destruct (Z.eq_dec q p) as [-> |N].
        -- rewrite (dget_dset_same _ Zeqb_spec) in I. injection I as <-. destruct (dget Z.eqb d p); [now destruct l|discriminate].
        -- rewrite (dget_dset_other _ Zeqb_spec) in I by (intros Q; congruence). apply (L q). now apply (dget_In _ Zeqb_spec).
    + intros [c'|p' x'|p']; cbn [occ occo]; unfold one; destruct (pnum_dec _ _) as [E|N]; try discriminate; try lia.
      * injection E as -> ->. rewrite (dget_dset_same _ Zeqb_spec). destruct (dget Z.eqb d p').
        -- rewrite count_snoc. destruct (Z.eq_dec x' x'); [lia|contradiction].
        -- unfold kcount. cbn. destruct (Z.eq_dec x' x'); [lia|contradiction].
      * destruct (Z.eq_dec p' p) as [-> |N'].
        -- rewrite (dget_dset_same _ Zeqb_spec). destruct (dget Z.eqb d p).
           ++ rewrite count_snoc. destruct (Z.eq_dec x x'); [subst; now elim N|lia].
           ++ unfold kcount. cbn. destruct (Z.eq_dec x x'); [subst; now elim N|lia].
        -- rewrite (dget_dset_other _ Zeqb_spec) by (intros Q; congruence). lia.
  - split; [discriminate|]. intros [c'|p' x'|p']; cbn [occ occo]; unfold one, kcount; destruct (pnum_dec _ _) as [E|N]; try discriminate; try lia; cbn.
    + injection E as ->. destruct (Z.eq_dec c' c'); [lia|contradiction].
    + destruct (Z.eq_dec c c'); [subst; now elim N|lia].
  - split.
    + split; [discriminate|]. split; [repeat constructor; intros []|]. intros q l [E|[]]. now injection E as <- <-.
    + intros [c'|p' x'|p']; cbn [occ occo dget]; unfold one, kcount; destruct (pnum_dec _ _) as [E|N]; try discriminate; try lia.
      * injection E as -> ->. rewrite Z.eqb_refl. cbn. destruct (Z.eq_dec x' x'); [lia|contradiction].
      * destruct (Z.eqb_spec p' p) as [-> |]; [|lia]. cbn. destruct (Z.eq_dec x x'); [subst; now elim N|lia].
  - split; [discriminate|]. intros [c'|p' x'|p']; cbn [occ occo]; unfold one, kcount; destruct (pnum_dec _ _) as [E|N]; try discriminate; try lia; cbn.
    + injection E as ->. destruct (Z.eq_dec p' p'); [lia|contradiction].
    + destruct (Z.eq_dec p p'); [subst; now elim N|lia].
Qed.

Section Agg.
  Context {V : Type}.
  Variable veqb : V -> V -> bool.
  Hypothesis veqb_spec : forall x y, veqb x y = true <-> x = y.

  Lemma oveqb_spec : forall x y, oveqb veqb x y = true <-> x = y.
  Proof.
    intros [x|] [y|]; cbn [oveqb]; try (split; congruence). rewrite veqb_spec. split; congruence.
  Qed.
  Lemma ov_dec (x y : option V) : {x = y} + {x <> y}.
  Proof. destruct (oveqb veqb x y) eqn:E; [left|right]; [now apply oveqb_spec|]. intros H. apply oveqb_spec in H. congruence. Qed.

  Definition occ_at (a : @aggr V) (m p : Z) (v : option V) (k : pnum) : nat :=
    match dget Z.eqb a m with
    | None => 0%nat
    | Some d => match dget Z.eqb d p with
                | None => 0%nat
                | Some (sn, vals) => match dget (oveqb veqb) vals v with None => 0%nat | Some n => occ sn n k end
                end
    end.

  Definition wfv (sn : rsname) (vals : list (option V * nums)) : Prop :=
    vals <> [] /\ NoDup (map fst vals) /\ forall v n, dget (oveqb veqb) vals v = Some n -> good sn n.
  Definition wfd (d : list (Z * @pinfo V)) : Prop :=
    d <> [] /\ NoDup (map fst d) /\ forall p sn vals, dget Z.eqb d p = Some (sn, vals) -> wfv sn vals.
  Definition wfa (a : @aggr V) : Prop :=
    NoDup (map fst a) /\ forall m d, dget Z.eqb a m = Some d -> wfd d.

  Lemma dset_not_nil {K W} (eqb : K -> K -> bool) (d : list (K * W)) k w : dset eqb d k w <> [].
  Proof. destruct d as [|[k' w'] t]; cbn [dset]; [discriminate|]. destruct (eqb k k'); discriminate. Qed.

  Definition kept_b (skip : bool) (v : option V) : bool := negb (skip && match v with None => true | _ => false end).
  Lemma kept_b_spec skip v : kept_b skip v = true <-> shown skip v.
  Proof. unfold kept_b, shown. destruct skip, v; cbn; split; try congruence; intros H; now elim H. Qed.

  Definition contrib (skip : bool) (it : @pitem V) (m : Z) (v : option V) (k : pnum) : nat :=
    if kept_b skip v then
      if Z.eq_dec (snd it) m then if ov_dec (snd (fst it)) v then one (fst (fst it)) k else 0%nat else 0%nat
    else 0%nat.
  Fixpoint total (skip : bool) (items : list (@pitem V)) (m : Z) (v : option V) (k : pnum) : nat :=
    match items with [] => 0%nat | it :: t => (contrib skip it m v k + total skip t m v k)%nat end.

  Lemma total_pos skip items m v k : (0 < total skip items m v k)%nat <-> In (k, v, m) items /\ shown skip v.
  Proof.
    induction items as [|[[k' v'] m'] t IH]; cbn [total In]; [split; [lia|intros [[] _]]|].
    unfold contrib. cbn [fst snd]. pose proof (kept_b_spec skip v) as K. destruct (kept_b skip v).
    - unfold one. destruct (Z.eq_dec m' m) as [-> |Nm]; [destruct (ov_dec v' v) as [-> |Nv]; [destruct (pnum_dec k' k) as [-> |Nk]|]|].
      + split; [intros _; split; [now left|now apply K]|lia].
      + rewrite <- Nat.add_lt_cases || idtac. split.
        * intros H. assert (0 < total skip t m v k)%nat as H' by lia. apply IH in H'. destruct H' as (H1 & H2). split; [now right|exact H2].
        * intros ([E|I] & Sh); [congruence|]. assert (0 < total skip t m v k)%nat by (apply IH; now split). lia.
      + split.
        * intros H. assert (0 < total skip t m v k)%nat as H' by lia. apply IH in H'. destruct H' as (H1 & H2). split; [now right|exact H2].
        * intros ([E|I] & Sh); [congruence|]. assert (0 < total skip t m v k)%nat by (apply IH; now split). lia.
      + split.
        * intros H. assert (0 < total skip t m v k)%nat as H' by lia. apply IH in H'. destruct H' as (H1 & H2). split; [now right|exact H2].
        * intros ([E|I] & Sh); [congruence|]. assert (0 < total skip t m v k)%nat by (apply IH; now split). lia.
    - split; [|intros [_ Sh]; apply K in Sh; discriminate]. intros H. assert (0 < total skip t m v k)%nat as H' by lia. apply IH in H'.
      destruct H' as (H1 & H2). apply K in H2. discriminate.
  Qed.

  Lemma total_le1 skip items m v k : read_once items -> (total skip items m v k <= 1)%nat.
  Proof.
    unfold read_once. induction items as [|[[k' v'] m'] t IH]; cbn [total map]; intros ND; [lia|]. inversion ND as [|? ? Ni ND']; subst.
    specialize (IH ND'). destruct (Nat.eq_dec (total skip t m v k) 0) as [E|N].
    - rewrite E. unfold contrib, one. destruct (kept_b skip v); [|lia]. destruct (Z.eq_dec _ _); [|lia].
      destruct (ov_dec _ _); [|lia]. destruct (pnum_dec _ _); lia.
    - assert (0 < total skip t m v k)%nat as P by lia. apply total_pos in P. destruct P as (I & _).
      assert (contrib skip (k', v', m') m v k = 0%nat) as ->; [|lia]. unfold contrib, one. cbn [fst snd].
      destruct (kept_b skip v); [|reflexivity]. destruct (Z.eq_dec _ _); [|reflexivity].
      destruct (ov_dec _ _); [|reflexivity]. destruct (pnum_dec k' k) as [-> |]; [|reflexivity].
      elim Ni. cbn [fst]. apply (in_map (fun it => fst (fst it))) in I. exact I.
  Qed.

  (** The property under all the mechanisms. *)
  Definition only (pname : Z) (a : @aggr V) : Prop := forall m d, dget Z.eqb a m = Some d -> map fst d = [pname].

  Lemma wfd_dset d p sn vals : (d = [] \/ wfd d) -> wfv sn vals -> wfd (dset Z.eqb d p (sn, vals)).
  Proof.
    intros Hd Hv. split; [apply dset_not_nil|]. split.
    - apply (dset_NoDup _ Zeqb_spec). destruct Hd as [-> |(_ & H & _)]; [constructor|exact H].
    - intros p' sn' vals' E. destruct (Z.eq_dec p' p) as [-> |N].
      + rewrite (dget_dset_same _ Zeqb_spec) in E. injection E as <- <-. exact Hv.
      + rewrite (dget_dset_other _ Zeqb_spec) in E by exact N. destruct Hd as [-> |(_ & _ & H)]; [discriminate|exact (H _ _ _ E)].
  Qed.

  Lemma wfa_dset a m d : wfa a -> wfd d -> wfa (dset Z.eqb a m d).
  Proof.
    intros (ND & Ha) Hd. split; [now apply (dset_NoDup _ Zeqb_spec)|]. intros m' d' E. destruct (Z.eq_dec m' m) as [-> |N].
    - rewrite (dget_dset_same _ Zeqb_spec) in E. injection E as <-. exact Hd.
    - rewrite (dget_dset_other _ Zeqb_spec) in E by exact N. exact (Ha _ _ E).
  Qed.

  Lemma add_item_ok pname skip ap it ap' : wfa ap -> only pname ap -> add_item veqb pname skip ap it = Ok ap' ->
    wfa ap' /\ only pname ap' /\ forall m v k, occ_at ap' m pname v k = (occ_at ap m pname v k + contrib skip it m v k)%nat.
  Proof.
    intros W O. destruct it as [[num val] mname]. unfold add_item.
    destruct (skip && match val with None => true | _ => false end) eqn:Sk.
    { intros [= <-]. split; [exact W|]. split; [exact O|]. intros m v k. unfold contrib. cbn [fst snd].
      destruct (ov_dec val v) as [-> |]; [|destruct (kept_b skip v), (Z.eq_dec mname m); lia].
      unfold kept_b. rewrite Sk. cbn [negb]. lia. }
    set (md := match dget Z.eqb ap mname with Some md => md | None => [] end).
    assert (md = [] \/ wfd md) as Wm.
    { unfold md. destruct (dget Z.eqb ap mname) as [d|] eqn:E; [right; exact (proj2 W _ _ E)|now left]. }
    assert (md = [] \/ map fst md = [pname]) as Om.
    { unfold md. destruct (dget Z.eqb ap mname) as [d|] eqn:E; [right; exact (O _ _ E)|now left]. }
    destruct (match dget Z.eqb md pname with Some pi => pi | None => (num_sname num, []) end) as [sname vals] eqn:Ev.
    destruct (add_num (dget (oveqb veqb) vals val) num) as [ns|e] eqn:En; cbn [rbind]; [|discriminate].
    destruct (rsname_eqb (num_sname num) sname) eqn:Es; [|discriminate]. intros [= <-].
    assert (sname = num_sname num) as -> by (destruct (num_sname num), sname; try discriminate; reflexivity).
    assert (vals = [] \/ wfv (num_sname num) vals) as Wv.
    { destruct (dget Z.eqb md pname) as [[sn vs]|] eqn:Ep.
      - injection Ev as -> ->. right. destruct Wm as [-> |Wm]; [discriminate|]. exact (proj2 (proj2 Wm) _ _ _ Ep).
      - injection Ev as <-. now left. }
    assert (goodo (num_sname num) (dget (oveqb veqb) vals val)) as Go.
    { destruct (dget (oveqb veqb) vals val) as [n|] eqn:E; [|exact I]. cbn [goodo]. destruct Wv as [-> |Wv]; [discriminate|].
      exact (proj2 (proj2 Wv) _ _ E). }
    destruct (add_num_ok _ _ _ Go En) as (Gn & Oc).
    assert (wfv (num_sname num) (dset (oveqb veqb) vals val ns)) as Wv'.
    { split; [apply dset_not_nil|]. split.
      - apply (dset_NoDup _ oveqb_spec). destruct Wv as [-> |Wv]; [constructor|exact (proj1 (proj2 Wv))].
      - intros v n E. destruct (ov_dec v val) as [-> |N].
        + rewrite (dget_dset_same _ oveqb_spec) in E. injection E as <-. exact Gn.
        + rewrite (dget_dset_other _ oveqb_spec) in E by exact N. destruct Wv as [-> |Wv]; [discriminate|exact (proj2 (proj2 Wv) _ _ E)]. }
    split; [|split].
    - apply wfa_dset; [exact W|]. now apply wfd_dset.
    - intros m d E. destruct (Z.eq_dec m mname) as [-> |N].
      + rewrite (dget_dset_same _ Zeqb_spec) in E. injection E as <-. destruct Om as [-> |Om]; [reflexivity|].
        destruct md as [|[p1 x1] [|? ?]]; try discriminate. cbn in Om. injection Om as ->. cbn [dset]. now rewrite Z.eqb_refl.
      + rewrite (dget_dset_other _ Zeqb_spec) in E by exact N. exact (O _ _ E).
    - intros m v k. unfold occ_at, contrib. cbn [fst snd]. destruct (Z.eq_dec mname m) as [-> |N].
      + rewrite (dget_dset_same _ Zeqb_spec). rewrite (dget_dset_same _ Zeqb_spec).
        assert ((match dget Z.eqb ap m with
                 | Some d => match dget Z.eqb d pname with
                             | Some (sn, vals0) => match dget (oveqb veqb) vals0 v with Some n => occ sn n k | None => 0%nat end
                             | None => 0%nat
                             end
                 | None => 0%nat
                 end) = occo (num_sname num) (dget (oveqb veqb) vals v) k) as ->.
        { unfold md in Ev. destruct (dget Z.eqb ap m) as [d|] eqn:Ea.
          - destruct (dget Z.eqb d pname) as [[sn vs]|] eqn:Ed.
            + injection Ev as <- <-. reflexivity.
            + injection Ev as <-. reflexivity.
          - cbn [dget] in Ev. injection Ev as <-. reflexivity. }
        destruct (ov_dec val v) as [-> |Nv].
        * rewrite (dget_dset_same _ oveqb_spec). rewrite Oc. unfold kept_b. rewrite Sk. reflexivity.
        * rewrite (dget_dset_other _ oveqb_spec) by congruence. unfold occo. destruct (kept_b skip v), (dget (oveqb veqb) vals v); lia.
      + rewrite (dget_dset_other _ Zeqb_spec) by congruence. destruct (kept_b skip v); lia.
  Qed.

  Lemma add_items_ok pname skip items : forall ap ap', wfa ap -> only pname ap -> add_items veqb pname skip ap items = Ok ap' ->
    wfa ap' /\ only pname ap' /\ forall m v k, occ_at ap' m pname v k = (occ_at ap m pname v k + total skip items m v k)%nat.
  Proof.
    induction items as [|it t IH]; cbn [add_items total]; intros ap ap' W O.
    - intros [= <-]. split; [exact W|]. split; [exact O|]. intros; lia.
    - destruct (add_item veqb pname skip ap it) as [a1|] eqn:E; cbn [rbind]; [|discriminate]. intros H.
      destruct (add_item_ok _ _ _ _ _ W O E) as (W1 & O1 & C1). destruct (IH _ _ W1 O1 H) as (W2 & O2 & C2).
      split; [exact W2|]. split; [exact O2|]. intros m v k. rewrite C2, C1. lia.
  Qed.

  Lemma wfa_nil : wfa [].
  Proof. split; [constructor|discriminate]. Qed.
  Lemma only_nil p : only p [].
  Proof. intros m d E. discriminate. Qed.

  (** Merging. *)
  Lemma merge_gen pname t : NoDup (map fst t) -> (forall m d, dget Z.eqb t m = Some d -> wfd d) -> only pname t -> forall a, wfa a ->
    wfa (merge a t) /\ forall m p v k, occ_at (merge a t) m p v k =
      if Z.eq_dec p pname then (if in_dec Z.eq_dec m (map fst t) then occ_at t m pname v k else occ_at a m pname v k) else occ_at a m p v k.
  Proof.
    induction t as [|[m1 d1] t IH]; intros NDt Wt Ot a Wa.
    - split; [exact Wa|]. intros m p v k. cbn [merge fold_left map in_dec]. destruct (Z.eq_dec p pname) as [-> |]; reflexivity.
    - cbn [map fst] in NDt. inversion NDt as [|? ? Ni NDt']; subst.
      assert (dget Z.eqb ((m1, d1) :: t) m1 = Some d1) as G1 by (cbn [dget]; now rewrite Z.eqb_refl).
      pose proof (Ot _ _ G1) as O1. pose proof (Wt _ _ G1) as W1.
      destruct d1 as [|[p1 [sn1 vals1]] [|? ?]]; try discriminate. cbn in O1. injection O1 as ->.
      assert (forall m d, dget Z.eqb t m = Some d -> dget Z.eqb ((m1, [(pname, (sn1, vals1))]) :: t) m = Some d) as Gt.
      { intros m d E. cbn [dget]. destruct (Z.eqb_spec m m1) as [-> |]; [|exact E].
        apply (dget_In _ Zeqb_spec) in E. elim Ni. now apply (in_map fst) in E. }
      set (a1 := dset Z.eqb a m1 (dset Z.eqb (match dget Z.eqb a m1 with Some d => d | None => [] end) pname (sn1, vals1))).
      assert (wfv sn1 vals1) as Wv. { apply (proj2 (proj2 W1) pname). cbn [dget]. now rewrite Z.eqb_refl. }
      assert (wfa a1) as Wa1.
      { unfold a1. apply wfa_dset; [exact Wa|]. apply wfd_dset; [|exact Wv].
        destruct (dget Z.eqb a m1) as [d|] eqn:E; [right; exact (proj2 Wa _ _ E)|now left]. }
      destruct (IH NDt' (fun m d E => Wt _ _ (Gt _ _ E)) (fun m d E => Ot _ _ (Gt _ _ E)) a1 Wa1) as (R1 & R2).
      change (merge a ((m1, [(pname, (sn1, vals1))]) :: t)) with (merge a1 t). split; [exact R1|].
      intros m p v k. rewrite R2. destruct (Z.eq_dec p pname) as [-> |Np].
      + cbn [map fst]. destruct (in_dec Z.eq_dec m (map fst t)) as [I|N]; destruct (in_dec Z.eq_dec m (m1 :: map fst t)) as [I'|N'].
        * unfold occ_at. cbn [dget]. destruct (Z.eqb_spec m m1) as [-> |]; [contradiction|reflexivity].
        * elim N'. now right.
        * destruct I' as [<- |I']; [|contradiction]. unfold occ_at, a1. rewrite (dget_dset_same _ Zeqb_spec), (dget_dset_same _ Zeqb_spec).
          cbn [dget]. rewrite Z.eqb_refl. cbn [dget]. rewrite Z.eqb_refl. reflexivity.
        * unfold occ_at, a1. rewrite (dget_dset_other _ Zeqb_spec); [reflexivity|]. intros ->. apply N'. now left.
      + unfold occ_at, a1. destruct (Z.eq_dec m m1) as [-> |Nm].
        * rewrite (dget_dset_same _ Zeqb_spec), (dget_dset_other _ Zeqb_spec) by exact Np. destruct (dget Z.eqb a m1); reflexivity.
        * rewrite (dget_dset_other _ Zeqb_spec) by exact Nm. reflexivity.
  Qed.

  Lemma merge_ok pname ap : wfa ap -> only pname ap -> forall a, wfa a -> (forall m v k, occ_at a m pname v k = 0%nat) ->
    wfa (merge a ap) /\ forall m p v k, occ_at (merge a ap) m p v k = if Z.eq_dec p pname then occ_at ap m pname v k else occ_at a m p v k.
  Proof.
    intros (ND & W) O a Wa Z0. destruct (merge_gen pname ap ND W O a Wa) as (R1 & R2). split; [exact R1|].
    intros m p v k. rewrite R2. destruct (Z.eq_dec p pname) as [-> |]; [|reflexivity].
    destruct (in_dec Z.eq_dec m (map fst ap)) as [I|N]; [reflexivity|]. rewrite Z0. unfold occ_at.
    assert (dget Z.eqb ap m = None) as -> by (now apply (dget_None _ Zeqb_spec)). reflexivity.
  Qed.

  Lemma occ_listed a m p v k : wfa a -> (listed a m p v k <-> (0 < occ_at a m p v k)%nat).
  Proof.
    intros (ND & W). split.
    - intros (d & sn & vals & n & I1 & I2 & I3 & H). unfold occ_at. pose proof (In_dget _ Zeqb_spec _ _ _ ND I1) as E1. rewrite E1.
      destruct (W _ _ E1) as (_ & ND2 & W2). pose proof (In_dget _ Zeqb_spec _ _ _ ND2 I2) as E2. rewrite E2.
      destruct (W2 _ _ _ E2) as (_ & ND3 & W3). pose proof (In_dget _ oveqb_spec _ _ _ ND3 I3) as E3. rewrite E3.
      now apply (good_holds sn n k (W3 _ _ E3)).
    - unfold occ_at. destruct (dget Z.eqb a m) as [d|] eqn:E1; [|lia]. destruct (W _ _ E1) as (_ & ND2 & W2).
      destruct (dget Z.eqb d p) as [[sn vals]|] eqn:E2; [|lia]. destruct (W2 _ _ _ E2) as (_ & ND3 & W3).
      destruct (dget (oveqb veqb) vals v) as [n|] eqn:E3; [|lia]. intros H. exists d, sn, vals, n.
      split; [exact (dget_In _ Zeqb_spec _ _ _ E1)|]. split; [exact (dget_In _ Zeqb_spec _ _ _ E2)|].
      split; [exact (dget_In _ oveqb_spec _ _ _ E3)|]. now apply (good_holds sn n k (W3 _ _ E3)).
  Qed.

  Lemma wfa_no_repeats a : wfa a -> no_repeats a.
  Proof.
    intros (ND & W). split; [exact ND|]. intros m d I1. pose proof (In_dget _ Zeqb_spec _ _ _ ND I1) as E1.
    destruct (W _ _ E1) as (D & ND2 & W2). split; [exact D|]. split; [exact ND2|]. intros p sn vals I2.
    pose proof (In_dget _ Zeqb_spec _ _ _ ND2 I2) as E2. destruct (W2 _ _ _ E2) as (D3 & ND3 & W3). split; [exact D3|].
    split; [exact ND3|]. intros v n I3. pose proof (In_dget _ oveqb_spec _ _ _ ND3 I3) as E3. exact (good_some _ _ (W3 _ _ E3)).
  Qed.

  Section Run.
    Context {S : Type}.
    Variable rd : Z -> bool -> M S (list (@pitem V)).
    Variable props : list (Z * pdesc).

    Definition tot_of (skip : bool) (l : list (Z * list (@pitem V))) (m p : Z) (v : option V) (k : pnum) : nat :=
      match dget Z.eqb l p with Some items => total skip items m v k | None => 0%nat end.

    Lemma build_pname_ok pname skip ov s ap s' : build_pname veqb rd pname skip ov s = (Ok ap, s') ->
      exists items, rd pname ov s = (Ok items, s') /\ wfa ap /\ only pname ap /\ forall m v k, occ_at ap m pname v k = total skip items m v k.
    Proof.
      unfold build_pname, mbind, lift. destruct (rd pname ov s) as [[items|e] s1]; [|discriminate].
      destruct (add_items veqb pname skip [] items) as [a|e] eqn:E; [|discriminate]. intros [= <- <-]. exists items. split; [reflexivity|].
      destruct (add_items_ok _ _ _ _ _ wfa_nil (only_nil pname) E) as (W & O & C). split; [exact W|]. split; [exact O|]. exact C.
    Qed.

    Lemma build_loop_ok skip_ro skip pnames : NoDup pnames -> forall a s a' s',
      wfa a -> (forall m p v k, In p pnames -> occ_at a m p v k = 0%nat) ->
      build_loop veqb rd props pnames skip_ro skip a s = (Ok a', s') ->
      exists l, reading rd props skip_ro pnames s l s' /\ wfa a' /\ incl (map fst l) pnames /\ NoDup (map fst l) /\
        forall m p v k, occ_at a' m p v k = (occ_at a m p v k + tot_of skip l m p v k)%nat.
    Proof.
      induction pnames as [|p rest IH]; intros ND a s a' s' W Z0; cbn [build_loop].
      - intros [= <- <-]. exists []. split; [constructor|]. split; [exact W|]. split; [intros x []|]. split; [constructor|].
        intros. cbn. lia.
      - inversion ND as [|? ? Ni ND']; subst. destruct (dget Z.eqb props p) as [d|] eqn:Ed; [|discriminate].
        destruct (skip_ro && negb (pd_writable d)) eqn:Es.
        + intros H. apply andb_prop in Es. destruct Es as (-> & Es). apply negb_true_iff in Es.
          destruct (IH ND' a s a' s' W (fun m p' v k I => Z0 m p' v k (or_intror I)) H) as (l & R & W' & In' & NDl & C).
          exists l. split; [now apply (rd_skip rd props true p d)|]. split; [exact W'|]. split; [intros x I; right; exact (In' x I)|].
          split; [exact NDl|exact C].
        + assert (skip_ro = true -> pd_writable d = true) as Hw.
          { intros ->. cbn in Es. now apply negb_false_iff in Es. }
          assert (forall items s1 ap s2, (rd p false s = (Ok items, s2) \/ (rd p false s = (Exn EUsePerCPU, s1) /\ rd p true s1 = (Ok items, s2))) ->
                    wfa ap -> only p ap -> (forall m v k, occ_at ap m p v k = total skip items m v k) ->
                    build_loop veqb rd props rest skip_ro skip (merge a ap) s2 = (Ok a', s') ->
                    exists l, reading rd props skip_ro (p :: rest) s l s' /\ wfa a' /\ incl (map fst l) (p :: rest) /\ NoDup (map fst l) /\
                      forall m p' v k, occ_at a' m p' v k = (occ_at a m p' v k + tot_of skip l m p' v k)%nat) as Go.
          { intros items s1 ap s2 Hr Wp Op Cp H.
            destruct (merge_ok p ap Wp Op a W (fun m v k => Z0 m p v k (or_introl eq_refl))) as (Wm & Cm).
            assert (forall m p' v k, In p' rest -> occ_at (merge a ap) m p' v k = 0%nat) as Z1.
            { intros m p' v k I. rewrite Cm. destruct (Z.eq_dec p' p) as [-> |]; [contradiction|]. apply Z0. now right. }
            destruct (IH ND' _ _ _ _ Wm Z1 H) as (l & R & W' & In' & NDl & C). exists ((p, items) :: l).
            split; [destruct Hr as [Hr|(Hr1 & Hr2)]; [now apply (rd_first rd props skip_ro p d rest s items s2)|
                                                      now apply (rd_again rd props skip_ro p d rest s s1 items s2)]|].
            split; [exact W'|]. split; [intros x [<- |I]; [now left|right; exact (In' x I)]|].
            split; [cbn [map fst]; constructor; [intros I; exact (Ni (In' _ I))|exact NDl]|].
            intros m p' v k. rewrite C, Cm. unfold tot_of. cbn [dget]. destruct (Z.eqb_spec p' p) as [-> |Np].
            - destruct (Z.eq_dec p p); [|contradiction]. rewrite Cp, Z0 by (now left).
              assert (dget Z.eqb l p = None) as ->; [|lia]. apply (dget_None _ Zeqb_spec). intros I. exact (Ni (In' _ I)).
            - destruct (Z.eq_dec p' p); [contradiction|]. reflexivity. }
          unfold mbind. destruct (build_pname veqb rd p skip false s) as [[ap|e] s1] eqn:E1.
          * intros H. destruct (build_pname_ok _ _ _ _ _ _ E1) as (items & Hr & Wp & Op & Cp).
            exact (Go items s ap s1 (or_introl Hr) Wp Op Cp H).
          * destruct e; try discriminate. destruct (build_pname veqb rd p skip true s1) as [[ap|e] s2] eqn:E2; [|discriminate].
            intros H. destruct (build_pname_ok _ _ _ _ _ _ E2) as (items & Hr & Wp & Op & Cp).
            assert (rd p false s = (Exn EUsePerCPU, s1)) as Hr1.
            { revert E1. unfold build_pname, mbind, lift. destruct (rd p false s) as [[it|e] s3]; [|congruence].
              intros E1. exfalso. injection E1 as E1 _. revert E1. clear. generalize (@nil (Z * list (Z * @pinfo V))).
              induction it as [|[[num val] mname] t IH]; intros ap0; cbn [add_items]; [discriminate|].
              destruct (add_item veqb p skip ap0 (num, val, mname)) as [a1|e] eqn:E; cbn [rbind]; [apply IH|].
              intros [= ->]. revert E. unfold add_item. destruct (skip && _); [discriminate|].
              destruct (match dget Z.eqb _ p with Some pi => pi | None => _ end) as [sn vs].
              destruct (add_num (dget (oveqb veqb) vs val) num) as [ns|e] eqn:En; cbn [rbind].
              - destruct (rsname_eqb _ _); discriminate.
              - intros [= ->]. destruct (dget (oveqb veqb) vs val) as [[?|?]|], num; discriminate. }
            exact (Go items s1 ap s2 (or_intror (conj Hr1 Hr)) Wp Op Cp H).
    Qed.

    (** The main statement. *)
    Lemma build_partition skip_ro skip pnames s a s' : NoDup pnames ->
      build_loop veqb rd props pnames skip_ro skip [] s = (Ok a, s') ->
      exists l, reading rd props skip_ro pnames s l s' /\ no_repeats a /\
        (forall m p v k, listed a m p v k <-> exists items, In (p, items) l /\ In (k, v, m) items /\ shown skip v) /\
        (forall p items, In (p, items) l -> read_once items ->
           (forall m d sn vals v n, In (m, d) a -> In (p, (sn, vals)) d -> In (v, n) vals -> each_once sn n) /\
           (forall m v m' v' k, listed a m p v k -> listed a m' p v' k -> m = m' /\ v = v')).
    Proof.
      intros ND H. destruct (build_loop_ok skip_ro skip pnames ND [] s a s' wfa_nil (fun _ _ _ _ _ => eq_refl) H) as (l & R & W & Inc & NDl & C).
      exists l. split; [exact R|]. split; [now apply wfa_no_repeats|].
      assert (forall m p v k, listed a m p v k <-> exists items, In (p, items) l /\ In (k, v, m) items /\ shown skip v) as L.
      { intros m p v k. rewrite (occ_listed a m p v k W), C. cbn [occ_at dget]. unfold tot_of. split.
        - destruct (dget Z.eqb l p) as [items|] eqn:E; [|cbn; lia]. intros P. assert (0 < total skip items m v k)%nat as P' by (cbn in P; lia).
          apply total_pos in P'. exists items. split; [exact (dget_In _ Zeqb_spec _ _ _ E)|exact P'].
        - intros (items & I & J). rewrite (In_dget _ Zeqb_spec _ _ _ NDl I). apply total_pos in J. cbn. lia. }
      split; [exact L|]. intros p items I RO. split.
      - intros m d sn vals v n I1 I2 I3. destruct W as (NDa & Wd). pose proof (In_dget _ Zeqb_spec _ _ _ NDa I1) as E1.
        destruct (Wd _ _ E1) as (_ & ND2 & W2). pose proof (In_dget _ Zeqb_spec _ _ _ ND2 I2) as E2.
        destruct (W2 _ _ _ E2) as (_ & ND3 & W3). pose proof (In_dget _ oveqb_spec _ _ _ ND3 I3) as E3.
        apply good_once; [exact (W3 _ _ E3)|]. intros k. generalize (C m p v k). unfold occ_at at 1. rewrite E1, E2, E3. intros ->.
        cbn [occ_at dget]. unfold tot_of. rewrite (In_dget _ Zeqb_spec _ _ _ NDl I). cbn. now apply total_le1.
      - intros m v m' v' k H1 H2. apply L in H1, H2. destruct H1 as (i1 & I1 & J1 & _), H2 as (i2 & I2 & J2 & _).
        pose proof (In_dget _ Zeqb_spec _ _ _ NDl I) as E. pose proof (In_dget _ Zeqb_spec _ _ _ NDl I1) as E1.
        pose proof (In_dget _ Zeqb_spec _ _ _ NDl I2) as E2. assert (i1 = items) as -> by congruence. assert (i2 = items) as -> by congruence.
        clear - RO J1 J2. unfold read_once in RO. induction items as [|it t IH]; [destruct J1|]. cbn [map] in RO. inversion RO as [|? ? Ni ND]; subst.
        destruct J1 as [-> |J1], J2 as [E2|J2].
        + injection E2 as <- <-. now split.
        + elim Ni. apply (in_map (fun it => fst (fst it))) in J2. exact J2.
        + subst it. elim Ni. apply (in_map (fun it => fst (fst it))) in J1. exact J1.
        + exact (IH ND J1 J2).
    Qed.
  End Run.
End Agg.
