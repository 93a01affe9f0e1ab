(** Lemmas about closing objects (C76). *)
From Coq Require Import Ascii String.
From Verif Require Import Base M_Text M_Close S_Close L_Text.
Open Scope list_scope.
Open Scope Z_scope.

(** ** Attributes *)

Lemma eqb_refl (a : str) : str_eqb a a = true.
Proof. apply str_eqb_eq. reflexivity. Qed.

Lemma eqb_neq (a b : str) : a <> b -> str_eqb a b = false.
Proof. intros H. destruct (str_eqb a b) eqn:E; [|reflexivity]. apply str_eqb_eq in E. congruence. Qed.

Lemma str_dec (a b : str) : {a = b} + {a <> b}.
Proof. apply (list_eq_dec ascii_dec). Qed.

Lemma get_set_same d a v : getattr (setattr d a v) a = Some v.
Proof.
  unfold getattr, setattr. induction d as [|[b x] t IH]; cbn [dset dget].
  - rewrite eqb_refl. reflexivity.
  - destruct (str_eqb a b) eqn:E; cbn [dget]; rewrite E; [reflexivity|exact IH].
Qed.

Lemma get_set_other d a b v : b <> a -> getattr (setattr d a v) b = getattr d b.
Proof.
  intros N. unfold getattr, setattr. induction d as [|[c x] t IH]; cbn [dset dget].
  - rewrite (eqb_neq _ _ N). reflexivity.
  - destruct (str_eqb a c) eqn:E; cbn [dget].
    + apply str_eqb_eq in E. subst c. rewrite !(eqb_neq _ _ N). reflexivity.
    + destruct (str_eqb b c); [reflexivity|exact IH].
Qed.

Lemma keys_set d a v w : getattr d a = Some w -> map fst (setattr d a v) = map fst d.
Proof.
  unfold getattr, setattr. induction d as [|[c x] t IH]; cbn [dset dget]; [discriminate|].
  destruct (str_eqb a c) eqn:E; intros H; [reflexivity|]. cbn [map fst]. rewrite (IH H). reflexivity.
Qed.

Lemma dget_in {V} (d : list (str * V)) a v : dget str_eqb d a = Some v -> In (a, v) d.
Proof.
  induction d as [|[c x] t IH]; cbn [dget]; [discriminate|].
  destruct (str_eqb a c) eqn:E; intros H.
  - apply str_eqb_eq in E. injection H as ->. subst. left. reflexivity.
  - right. auto.
Qed.

Lemma in_dget {V} (d : list (str * V)) a v : NoDup (map fst d) -> In (a, v) d -> dget str_eqb d a = Some v.
Proof.
  induction d as [|[c x] t IH]; intros N Hi; [contradiction|]. cbn [map fst] in N. inversion N as [|? ? N1 N2]; subst.
  cbn [dget]. destruct Hi as [Hi|Hi].
  - injection Hi as -> ->. rewrite eqb_refl. reflexivity.
  - rewrite (eqb_neq a c); [apply IH; assumption|]. intros ->. apply N1. apply in_map_iff. exists (c, v). split; [reflexivity|exact Hi].
Qed.

Lemma dget_none {V} (d : list (str * V)) a : ~ In a (map fst d) -> dget str_eqb d a = None.
Proof.
  induction d as [|[c x] t IH]; intros N; [reflexivity|]. cbn [dget]. cbn [map fst] in N.
  rewrite (eqb_neq a c); [apply IH; intros Hi; apply N; right; exact Hi|]. intros ->. apply N. left. reflexivity.
Qed.

(** ** Picking *)

Definition picks {A} (f : A -> option Z) (l : list A) : list Z := flat_map (fun a => match f a with Some i => [i] | None => [] end) l.

Lemma picks_app {A} (f : A -> option Z) l1 l2 : picks f (l1 ++ l2) = picks f l1 ++ picks f l2.
Proof. apply flat_map_app. Qed.

Lemma picks_ext {A} (f g : A -> option Z) l : (forall a, In a l -> f a = g a) -> picks f l = picks g l.
Proof.
  induction l as [|a t IH]; intros H; [reflexivity|]. cbn [picks flat_map]. rewrite (H a (or_introl eq_refl)).
  f_equal. apply IH. intros b Hb. apply H. right. exact Hb.
Qed.

Lemma picks_none {A} (f : A -> option Z) l : (forall a, In a l -> f a = None) -> picks f l = [].
Proof.
  induction l as [|a t IH]; intros H; [reflexivity|]. cbn [picks flat_map]. rewrite (H a (or_introl eq_refl)).
  apply IH. intros b Hb. apply H. right. exact Hb.
Qed.

Lemma in_picks {A} (f : A -> option Z) l i : In i (picks f l) <-> exists a, In a l /\ f a = Some i.
Proof.
  unfold picks. rewrite in_flat_map. split; intros (a & Ha & Hi); exists a; (split; [exact Ha|]).
  - destruct (f a); [|contradiction]. destruct Hi as [->|[]]. reflexivity.
  - rewrite Hi. left. reflexivity.
Qed.

Lemma nodup_picks {A} (f : A -> option Z) l :
  NoDup l -> (forall a b i, In a l -> In b l -> f a = Some i -> f b = Some i -> a = b) -> NoDup (picks f l).
Proof.
  induction l as [|a t IH]; intros N H; [constructor|]. inversion N as [|? ? N1 N2]; subst.
  cbn [picks flat_map].
  assert (Nt : NoDup (picks f t)). { apply IH; [exact N2|]. intros x y i Hx Hy. apply H; right; assumption. }
  destruct (f a) as [i|] eqn:E; [|exact Nt]. cbn [app]. constructor; [|exact Nt].
  intros Hi. apply in_picks in Hi as (b & Hb & Eb). assert (a = b); [|subst; contradiction].
  apply (H a b i); [left; reflexivity|right; exact Hb|exact E|exact Eb].
Qed.

Section Close.
  Context {W : Type}.
  Variable cl : Z -> M W unit.

  Lemma closes_app l1 l2 w w1 r w' : closes cl l1 w (Ok tt) w1 -> closes cl l2 w1 r w' -> closes cl (l1 ++ l2) w r w'.
  Proof.
    intros H. remember (Ok tt) as ok eqn:Eok. revert Eok l2 r w'.
    induction H as [w0|i l w0 w2 r0 w3 E H IH|i w0 e w2 E]; intros Eok l2 r w' H2; cbn [app].
    - exact H2.
    - econstructor; [exact E|]. apply IH; assumption.
    - discriminate.
  Qed.

  (** What close() would be called for. *)
  Definition will (d : attrs) (a : str) : option Z :=
    match getattr d a with
    | Some (AObj i true) => match getattr d (close_name a) with None | Some (ABool true) => Some i | _ => None end
    | _ => None
    end.

  Definition cleared (o : option aval) : option aval :=
    match o with Some v => if truthy_val v then Some ANone else Some v | None => None end.

  Definition unit_res {A} (r : res A) : res unit := match r with Ok _ => Ok tt | Exn e => Exn e end.

  Lemma close_attr_run a nm d w r d' w' : close_attr cl a nm (d, w) = (r, (d', w')) ->
    match will d a with
    | Some i => match cl i w with
                | (Ok _, w1) => (exists n, r = Ok n) /\ w' = w1 /\ d' = setattr d a ANone
                | (Exn e, w1) => r = Exn e /\ w' = w1 /\ d' = d
                end
    | None => (exists n, r = Ok n) /\ w' = w /\
              (d' = d /\ getattr d a = cleared (getattr d a) \/ d' = setattr d a ANone /\ cleared (getattr d a) = Some ANone)
    end.
  Proof.
    unfold close_attr, will, mbind, gets, ret, modify, call_close, in_world. cbv zeta beta iota. cbn [fst snd].
    destruct (getattr d a) as [v|] eqn:Ea.
    2:{ intros H. injection H as <- <- <-. eauto 6. }
    destruct v as [|b|i c]; cbv beta iota; cbn [fst snd truthy_val negb cleared].
    - intros H. injection H as <- <- <-. eauto 6.
    - destruct b; cbn [negb fst snd].
      + destruct (getattr d (close_name a)) as [[|[] |? ?]|]; intros H; cbn -[getattr close_name setattr] in H; injection H as <- <- <-; eauto 6.
      + intros H. injection H as <- <- <-. eauto 6.
    - destruct c.
      + destruct (getattr d (close_name a)) as [[|[] |? ?]|]; cbn [fst snd];
          try (destruct (cl i w) as [[[]|e] w1]; cbn [fst snd]); intros H; cbn -[getattr close_name setattr] in H; injection H as <- <- <-; eauto 6.
      + destruct (getattr d (close_name a)) as [[|[] |? ?]|]; intros H; cbn -[getattr close_name setattr] in H; injection H as <- <- <-; eauto 6.
  Qed.

  Lemma will_obj d a i : will d a = Some i -> getattr d a = Some (AObj i true).
  Proof.
    unfold will. destruct (getattr d a) as [[| |j []]|]; try discriminate.
    destruct (getattr d (close_name a)) as [[|[] |? ?]|]; intros H; congruence.
  Qed.

  Lemma will_falsy d a : (forall v, getattr d a = Some v -> truthy_val v = false) -> will d a = None.
  Proof.
    unfold will. intros H. destruct (getattr d a) as [[| |j []]|]; try reflexivity. specialize (H _ eq_refl). discriminate.
  Qed.

  Lemma cleared_falsy o v : cleared o = Some v -> truthy_val v = false.
  Proof.
    destruct o as [x|]; cbn [cleared]; [|discriminate]. destruct (truthy_val x) eqn:E; intros H; injection H as <-; [reflexivity|exact E].
  Qed.

  Lemma will_ext d d' a : getattr d' a = getattr d a -> getattr d' (close_name a) = getattr d (close_name a) -> will d' a = will d a.
  Proof. unfold will. intros -> ->. reflexivity. Qed.

  (** What is known after closing the attributes [L] (and some others that are not closed but cleared). *)
  Definition after (L U : list str) (d : attrs) (w : W) (r : res unit) (d' : attrs) (w' : W) : Prop :=
    exists order rest,
      picks (will d) L = order ++ rest /\ closes cl order w r w' /\
      map fst d' = map fst d /\
      (forall x, ~ In x L -> ~ In x U -> getattr d' x = getattr d x) /\
      (forall x, getattr d' x = getattr d x \/ getattr d' x = cleared (getattr d x)) /\
      (r = Ok tt -> rest = [] /\ forall a, In a L \/ In a U -> getattr d' a = cleared (getattr d a)) /\
      (forall e, r = Exn e -> exists o i, order = o ++ [i] /\ picks (will d') L = i :: rest).

  Lemma close_attrs_run L : forall nm d w r d' w',
    NoDup L -> (forall a b, In a L -> In b L -> close_name a <> b) ->
    close_attrs cl L nm (d, w) = (r, (d', w')) -> after L [] d w (unit_res r) d' w'.
  Proof.
    induction L as [|a t IH]; intros nm d w r d' w' N HF E.
    - cbn in E. injection E as <- <- <-. exists [], []. split; [reflexivity|]. split; [constructor|]. split; [reflexivity|].
      split; [reflexivity|]. split; [left; reflexivity|]. split; [|discriminate]. intros _. split; [reflexivity|]. intros x [[]|[]].
    - inversion N as [|? ? N1 N2]; subst. cbn [close_attrs] in E. unfold mbind in E.
      destruct (close_attr cl a nm (d, w)) as [r1 [d1 w1]] eqn:E1.
      apply close_attr_run in E1.
      assert (Hself : close_name a <> a) by (apply HF; left; reflexivity).
      (* a is skipped, cleared or closed *)
      assert (Hstep : (exists e i, r1 = Exn e /\ will d a = Some i /\ cl i w = (Exn e, w1) /\ d1 = d) \/
                      (exists n, r1 = Ok n /\ closes cl (picks (will d) [a]) w (Ok tt) w1 /\ map fst d1 = map fst d /\
                         (forall x, x <> a -> getattr d1 x = getattr d x) /\ getattr d1 a = cleared (getattr d a))).
      { destruct (will d a) as [i|] eqn:Ew.
        - pose proof (will_obj _ _ _ Ew) as Eo. destruct (cl i w) as [[[]|e] w2] eqn:Ec.
          + right. destruct E1 as ((n & ->) & -> & ->). exists n. split; [reflexivity|].
            cbn [picks flat_map]. rewrite Ew. cbn [app].
            split; [econstructor; [exact Ec|constructor]|]. split; [eapply keys_set; exact Eo|].
            split; [intros x Hx; apply get_set_other; exact Hx|]. rewrite get_set_same, Eo. reflexivity.
          + left. destruct E1 as (-> & -> & ->). exists e, i. auto.
        - right. destruct E1 as ((n & ->) & -> & Hd). exists n. split; [reflexivity|].
          cbn [picks flat_map]. rewrite Ew. cbn [app]. split; [constructor|].
          destruct Hd as [[-> Hc]|[-> Hc]].
          + split; [reflexivity|]. split; [reflexivity|exact Hc].
          + split; [|split; [intros x Hx; apply get_set_other; exact Hx|rewrite get_set_same; symmetry; exact Hc]].
            destruct (getattr d a) as [v|] eqn:Eg; [|discriminate]. eapply keys_set. exact Eg. }
      destruct Hstep as [(e & i & -> & Ew & Ec & ->)|(n & -> & Hc & Hk & Ho & Ha)].
      + injection E as <- <- <-. exists [i], (picks (will d) t).
        split; [cbn [picks flat_map]; rewrite Ew; reflexivity|].
        split; [constructor; exact Ec|]. split; [reflexivity|]. split; [reflexivity|].
        split; [left; reflexivity|]. split; [discriminate|]. intros e' _. exists [], i. split; [reflexivity|].
        cbn [picks flat_map]. rewrite Ew. reflexivity.
      + apply (IH n) in E; [|exact N2|intros x y Hx Hy; apply HF; right; assumption].
        destruct E as (order & rest & Hp & Hcl & Hkeys & Hfr & Hor & Hok & Hex).
        assert (Hwt : picks (will d1) t = picks (will d) t).
        { apply picks_ext. intros b Hb. apply will_ext; apply Ho.
          - intros ->. contradiction.
          - intros E'. apply (HF b a); [right; exact Hb|left; reflexivity|exact E']. }
        exists (picks (will d) [a] ++ order), rest.
        split; [change (a :: t) with ([a] ++ t); rewrite picks_app, <- app_assoc, <- Hp, Hwt; reflexivity|].
        split; [eapply closes_app; eassumption|].
        split; [congruence|].
        split; [intros x Hx _; rewrite Hfr; [apply Ho; intros ->; apply Hx; left; reflexivity| |intros []]; intros Hi; apply Hx; right; exact Hi|].
        assert (Ha' : getattr d' a = getattr d1 a) by (apply Hfr; [exact N1|intros []]).
        split.
        { intros x. destruct (str_dec x a) as [->|Nx]; [right; congruence|]. rewrite <- (Ho x Nx). apply Hor. }
        split.
        { intros Hr. destruct (Hok Hr) as (-> & Hall). split; [reflexivity|].
          intros x [[<-|Hx]|[]]; [congruence|]. rewrite (Hall x (or_introl Hx)). rewrite Ho; [reflexivity|]. intros ->. contradiction. }
        intros e He. destruct (Hex e He) as (o & i & -> & Hi). exists (picks (will d) [a] ++ o), i.
        split; [apply app_assoc|].
        cbn [picks flat_map]. rewrite (will_falsy d' a); [exact Hi|].
        intros v Hv. rewrite Ha', Ha in Hv. eapply cleared_falsy. exact Hv.
  Qed.

  Lemma unref_run nm u d (w : W) : getattr d u <> None ->
    exists d', unref_attr nm u (d, w) = (Ok tt, (d', w)) /\ map fst d' = map fst d /\
      (forall x, x <> u -> getattr d' x = getattr d x) /\ getattr d' u = cleared (getattr d u).
  Proof.
    intros H. unfold unref_attr, mbind, gets, modify, ret. cbn [fst snd].
    destruct (getattr d u) as [v|] eqn:E; [|congruence]. cbn [cleared]. destruct (truthy_val v).
    - eexists. split; [reflexivity|]. split; [eapply keys_set; exact E|]. split; [intros x Hx; apply get_set_other; exact Hx|apply get_set_same].
    - eexists. split; [reflexivity|]. split; [reflexivity|]. split; [reflexivity|exact E].
  Qed.

  Lemma cleared_twice o : cleared (cleared o) = cleared o.
  Proof. destruct o as [v|]; [|reflexivity]. cbn [cleared]. destruct (truthy_val v) eqn:E; cbn [cleared truthy_val]; [reflexivity|]. rewrite E. reflexivity. Qed.

  Lemma unrefs_run nm U : forall d (w : W), (forall u, In u U -> getattr d u <> None) ->
    exists d', mfor U (unref_attr nm) (d, w) = (Ok tt, (d', w)) /\ map fst d' = map fst d /\
      (forall x, ~ In x U -> getattr d' x = getattr d x) /\ (forall x, In x U -> getattr d' x = cleared (getattr d x)).
  Proof.
    induction U as [|u t IH]; intros d w H; cbn [mfor].
    - exists d. split; [reflexivity|]. split; [reflexivity|]. split; [reflexivity|]. intros x [].
    - destruct (unref_run nm u d w (H u (or_introl eq_refl))) as (d1 & E1 & K1 & O1 & C1).
      assert (Hc : forall x, getattr d x <> None -> getattr d1 x <> None).
      { intros x Hx. destruct (str_dec x u) as [->|Nx]; [|rewrite O1; assumption]. rewrite C1.
        destruct (getattr d u) as [v|]; [|congruence]. cbn [cleared]. destruct (truthy_val v); discriminate. }
      destruct (IH d1 w) as (d2 & E2 & K2 & O2 & C2).
      { intros x Hx. apply Hc. apply H. right. exact Hx. }
      exists d2. unfold mbind. rewrite E1. split; [exact E2|]. split; [congruence|]. split.
      + intros x Hx. rewrite O2; [apply O1; intros ->; apply Hx; left; reflexivity|]. intros Hi. apply Hx. right. exact Hi.
      + intros x Hx. destruct (in_dec str_dec x t) as [Hi|Hi].
        * rewrite (C2 x Hi). destruct (str_dec x u) as [->|Nx]; [rewrite C1; apply cleared_twice|rewrite (O1 x Nx); reflexivity].
        * rewrite (O2 x Hi). destruct Hx as [<-|Hx]; [exact C1|contradiction].
  Qed.

  (** The calls can be made. *)
  Record safe (L U : list str) (d : attrs) : Prop := {
    sf_once : NoDup L;
    sf_flags : forall a b, In a L -> In b L -> close_name a <> b;
    sf_there : forall u, In u U -> getattr d u <> None;
    sf_apart : forall u, In u U -> ~ In u L;
    sf_unflag : forall a u, In a L -> In u U -> close_name a <> u }.

  Lemma cleared_or_there d d' x : (getattr d' x = getattr d x \/ getattr d' x = cleared (getattr d x)) -> getattr d x <> None -> getattr d' x <> None.
  Proof.
    intros [-> | ->] H; [exact H|]. destruct (getattr d x) as [v|]; [|congruence]. cbn [cleared]. destruct (truthy_val v); discriminate.
  Qed.

  Lemma close_run L U d w r d' w' : safe L U d -> close cl L U (d, w) = (r, (d', w')) -> after L U d w r d' w'.
  Proof.
    intros S E. unfold close, mbind in E. destruct (close_attrs cl L None (d, w)) as [r1 [d1 w1]] eqn:E1.
    apply close_attrs_run in E1; [|apply S|apply S].
    destruct E1 as (order & rest & Hp & Hcl & Hkeys & Hfr & Hor & Hok & Hex).
    destruct r1 as [n|e]; cbn [unit_res] in *.
    - destruct (unrefs_run n U d1 w1) as (d2 & E2 & K2 & O2 & C2).
      { intros u Hu. eapply cleared_or_there; [apply Hor|]. apply (sf_there _ _ _ S). exact Hu. }
      rewrite E2 in E. injection E as <- <- <-. exists order, rest.
      split; [exact Hp|]. split; [exact Hcl|]. split; [congruence|].
      destruct (Hok eq_refl) as (Hrest & Hall).
      split; [intros x Hx Hu; rewrite O2; [apply Hfr; [exact Hx|intros []]|exact Hu]|].
      split.
      { intros x. destruct (in_dec str_dec x U) as [Hi|Hi].
        - rewrite (C2 x Hi). destruct (Hor x) as [-> | ->]; [right; reflexivity|right; apply cleared_twice].
        - rewrite (O2 x Hi). apply Hor. }
      split; [|discriminate]. intros _. split; [exact Hrest|]. intros a [Ha|Ha].
      + rewrite O2; [apply Hall; left; exact Ha|]. intros Hu. apply (sf_apart _ _ _ S a Hu Ha).
      + rewrite (C2 a Ha). rewrite Hfr; [reflexivity|apply (sf_apart _ _ _ S a Ha)|intros []].
    - injection E as <- <- <-. exists order, rest.
      split; [exact Hp|]. split; [exact Hcl|]. split; [exact Hkeys|].
      split; [intros x Hx _; apply Hfr; [exact Hx|intros []]|]. split; [exact Hor|]. split; [discriminate|exact Hex].
  Qed.

  Definition all_closed (calls : list (list str * list str)) : list str := concat (map fst calls).
  Definition all_unref (calls : list (list str * list str)) : list str := concat (map snd calls).

  Lemma nodup_app_l (A : Type) (l1 l2 : list A) : NoDup (l1 ++ l2) -> NoDup l1 /\ NoDup l2 /\ forall x, In x l1 -> ~ In x l2.
  Proof.
    induction l1 as [|a t IH]; cbn [app]; intros N; [split; [constructor|]; split; [exact N|intros x []]|].
    inversion N as [|? ? N1 N2]; subst. destruct (IH N2) as (A1 & A2 & A3).
    split; [constructor; [intros Hi; apply N1; apply in_app_iff; left; exact Hi|exact A1]|]. split; [exact A2|].
    intros x [<-|Hx] Hi; [apply N1; apply in_app_iff; right; exact Hi|]. exact (A3 x Hx Hi).
  Qed.

  Lemma object_run calls : forall d w r d' w',
    safe (all_closed calls) (all_unref calls) d -> close_object cl calls (d, w) = (r, (d', w')) ->
    after (all_closed calls) (all_unref calls) d w r d' w'.
  Proof.
    induction calls as [|[L U] t IH]; intros d w r d' w' S E.
    - cbn in E. injection E as <- <- <-. exists [], []. split; [reflexivity|]. split; [constructor|]. split; [reflexivity|].
      split; [reflexivity|]. split; [left; reflexivity|]. split; [|discriminate]. intros _. split; [reflexivity|]. intros x [[]|[]].
    - unfold all_closed, all_unref in *. cbn [map concat fst snd] in *. fold (all_closed t) (all_unref t) in *.
      destruct S as [S1 S2 S3 S4 S5]. destruct (nodup_app_l _ _ _ S1) as (N1 & N2 & N12).
      unfold close_object in E. cbn [mfor fst snd] in E. unfold mbind in E.
      destruct (close cl L U (d, w)) as [r1 [d1 w1]] eqn:E1.
      apply close_run in E1.
      2:{ constructor; [exact N1| | | |].
          - intros a b Ha Hb. apply S2; apply in_app_iff; left; assumption.
          - intros u Hu. apply S3. apply in_app_iff. left. exact Hu.
          - intros u Hu Hl. apply (S4 u); apply in_app_iff; left; assumption.
          - intros a u Ha Hu. apply S5; apply in_app_iff; left; assumption. }
      destruct E1 as (o1 & rest1 & Hp1 & Hcl1 & Hk1 & Hfr1 & Hor1 & Hok1 & Hex1).
      assert (Hwt : picks (will d1) (all_closed t) = picks (will d) (all_closed t)).
      { apply picks_ext. intros b Hb. assert (Hb2 : In b (L ++ all_closed t)) by (apply in_app_iff; right; exact Hb).
        apply will_ext; apply Hfr1.
        - intros Hl. exact (N12 b Hl Hb).
        - intros Hu. apply (S4 b); [apply in_app_iff; left; exact Hu|exact Hb2].
        - intros Hl. apply (S2 b (close_name b)); [exact Hb2|apply in_app_iff; left; exact Hl|reflexivity].
        - intros Hu. apply (S5 b (close_name b)); [exact Hb2|apply in_app_iff; left; exact Hu|reflexivity]. }
      destruct r1 as [[]|e].
      + fold (close_object cl t) in E. apply IH in E.
        2:{ constructor; [exact N2| | | |].
            - intros a b Ha Hb. apply S2; apply in_app_iff; right; assumption.
            - intros u Hu. eapply cleared_or_there; [apply Hor1|]. apply S3. apply in_app_iff. right. exact Hu.
            - intros u Hu Hl. apply (S4 u); apply in_app_iff; right; assumption.
            - intros a u Ha Hu. apply S5; apply in_app_iff; right; assumption. }
        destruct E as (o2 & rest2 & Hp2 & Hcl2 & Hk2 & Hfr2 & Hor2 & Hok2 & Hex2).
        destruct (Hok1 eq_refl) as (-> & Hall1). rewrite app_nil_r in Hp1.
        assert (Hboth : forall x, In x L \/ In x U -> getattr d' x = cleared (getattr d x)).
        { intros x Hx. destruct (Hor2 x) as [-> | ->]; rewrite (Hall1 x Hx); [reflexivity|apply cleared_twice]. }
        exists (o1 ++ o2), rest2.
        split; [rewrite picks_app, Hp1, <- app_assoc, <- Hp2, Hwt; reflexivity|].
        split; [eapply closes_app; eassumption|]. split; [congruence|].
        split.
        { intros x Hx Hu. rewrite Hfr2; [apply Hfr1| |]; intros Hi; solve [apply Hx; apply in_app_iff; auto | apply Hu; apply in_app_iff; auto]. }
        split.
        { intros x. destruct (Hor2 x) as [-> | ->]; [apply Hor1|]. right. destruct (Hor1 x) as [-> | ->]; [reflexivity|apply cleared_twice]. }
        split.
        { intros Hr. destruct (Hok2 Hr) as (-> & Hall2). split; [reflexivity|]. intros x Hx.
          destruct (in_dec str_dec x L) as [Hl|Hl]; [apply Hboth; left; exact Hl|].
          destruct (in_dec str_dec x U) as [Hu|Hu]; [apply Hboth; right; exact Hu|].
          rewrite Hall2; [rewrite Hfr1; [reflexivity|exact Hl|exact Hu]|].
          destruct Hx as [Hx|Hx]; apply in_app_iff in Hx; destruct Hx as [Hx|Hx]; try contradiction; [left|right]; exact Hx. }
        intros e He. destruct (Hex2 e He) as (o & i & -> & Hi). exists (o1 ++ o), i. split; [apply app_assoc|].
        rewrite picks_app, Hi. rewrite (picks_none (will d') L); [reflexivity|].
        intros a Ha. apply will_falsy. intros v Hv. rewrite (Hboth a (or_introl Ha)) in Hv. eapply cleared_falsy. exact Hv.
      + injection E as <- <- <-. destruct (Hex1 e eq_refl) as (o & i & -> & Hi).
        exists (o ++ [i]), (rest1 ++ picks (will d) (all_closed t)).
        split; [rewrite picks_app, Hp1; symmetry; apply app_assoc|]. split; [exact Hcl1|]. split; [exact Hk1|].
        split; [intros x Hx Hu; apply Hfr1; intros Hx'; solve [apply Hx; apply in_app_iff; auto | apply Hu; apply in_app_iff; auto]|].
        split; [exact Hor1|]. split; [discriminate|]. intros e' _. exists o, i. split; [reflexivity|].
        rewrite picks_app, Hi, Hwt. reflexivity.
  Qed.
End Close.
