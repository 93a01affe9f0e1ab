(** Lemmas about the aggregation of C-state information. *)
From Coq Require Import Ascii String ZifyBool Permutation Sorted.
From Verif Require Import Base M_CPUInfo S_CPUInfo M_Text S_Text M_Human M_CPUIdle S_CPUIdle M_CSave S_CSave
  L_Base L_Monad L_CPUInfo L_Text L_CPUIdle4.

Lemma cval_eqb_spec : forall a b, cval_eqb a b = true <-> a = b.
Proof.
  intros [x|x] [y|y]; cbn [cval_eqb]; [rewrite Z.eqb_eq|split; discriminate|split; discriminate|rewrite str_eqb_spec]; split; congruence.
Qed.

Lemma cval_dec (a b : cval) : {a = b} + {a <> b}.
Proof. destruct (cval_eqb a b) eqn:E; [left; now apply cval_eqb_spec|right]. intros ->. rewrite (proj2 (cval_eqb_spec b b) eq_refl) in E. discriminate. Qed.

(** The CPUs of a value. *)
Definition look (d : list (str * kinfo)) (f : str) (v : cval) : list Z :=
  match dget str_eqb d f with
  | None => []
  | Some k => match dget cval_eqb k v with None => [] | Some l => l end
  end.

Definition wfd (d : list (str * kinfo)) : Prop :=
  NoDup (map fst d) /\ forall f k, In (f, k) d -> NoDup (map fst k) /\ k <> [] /\ forall v l, In (v, l) k -> l <> [].

Lemma dset_ne {K V} (eqb : K -> K -> bool) (d : list (K * V)) k v : dset eqb d k v <> [].
Proof. destruct d as [|(k', v') t]; cbn [dset]; [discriminate|]. destruct (eqb k k'); discriminate. Qed.

Lemma dset_In {K V} (eqb : K -> K -> bool) (Hs : forall a b, eqb a b = true <-> a = b) (d : list (K * V)) k v k' v' :
  In (k', v') (dset eqb d k v) -> (k' = k /\ v' = v) \/ In (k', v') d.
Proof.
  induction d as [|(a, b) t IH]; cbn [dset In].
  - intros [[= <- <-]|[]]. now left.
  - destruct (eqb k a) eqn:E; cbn [In].
    + apply Hs in E. subst a. intros [[= <- <-]|H]; [now left|right; now right].
    + intros [H|H]; [right; now left|]. destruct (IH H) as [A|A]; [now left|right; now right].
Qed.

Lemma dset_In' {K V} (eqb : K -> K -> bool) (Hs : forall a b, eqb a b = true <-> a = b) (d : list (K * V)) k v k' v' :
  NoDup (map fst d) -> In (k', v') (dset eqb d k v) -> (k' = k /\ v' = v) \/ (k' <> k /\ In (k', v') d).
Proof.
  intros Hn H. assert (Hn' := dset_NoDup _ Hs d k v Hn). apply (In_dget _ Hs) in H; [|exact Hn'].
  destruct (eqb k' k) eqn:E.
  - apply Hs in E. subst k'. rewrite (dget_dset_same _ Hs) in H. injection H as ->. now left.
  - right. assert (Hk : k' <> k) by (intros ->; rewrite (proj2 (Hs k k) eq_refl) in E; discriminate). split; [exact Hk|].
    rewrite (dget_dset_other _ Hs) in H by exact Hk. now apply (dget_In _ Hs).
Qed.

Lemma look_add d f v c f' v' : look (add_val d f v c) f' v' =
  look d f' v' ++ (if (str_eqb f f' && cval_eqb v v')%bool then [c] else []).
Proof.
  unfold add_val, look. destruct (str_dec f' f) as [->|Hf].
  - rewrite (proj2 (str_eqb_spec f f) eq_refl). cbn [andb].
    assert (Hnew : forall k w, dget str_eqb (dset str_eqb d f k) f = Some w -> w = k).
    { intros k w. rewrite (dget_dset_same _ str_eqb_spec). congruence. } clear Hnew.
    destruct (cval_dec v' v) as [->|Hv].
    + rewrite (proj2 (cval_eqb_spec v v) eq_refl).
      destruct (dget str_eqb d f) as [k|] eqn:Ed.
      * destruct (dget cval_eqb k v) as [l|] eqn:Ek; rewrite (dget_dset_same _ str_eqb_spec), (dget_dset_same _ cval_eqb_spec); reflexivity.
      * rewrite (dget_dset_same _ str_eqb_spec). cbn [dget]. rewrite (proj2 (cval_eqb_spec v v) eq_refl). reflexivity.
    + assert (Ev : cval_eqb v v' = false) by (destruct (cval_eqb v v') eqn:E; [apply cval_eqb_spec in E; congruence|reflexivity]).
      assert (Ev' : cval_eqb v' v = false) by (destruct (cval_eqb v' v) eqn:E; [apply cval_eqb_spec in E; congruence|reflexivity]).
      rewrite Ev, app_nil_r. destruct (dget str_eqb d f) as [k|] eqn:Ed.
      * destruct (dget cval_eqb k v) as [l|] eqn:Ek; rewrite (dget_dset_same _ str_eqb_spec), (dget_dset_other _ cval_eqb_spec) by exact Hv; reflexivity.
      * rewrite (dget_dset_same _ str_eqb_spec). cbn [dget]. now rewrite Ev'.
  - assert (Ef : str_eqb f f' = false) by (destruct (str_eqb f f') eqn:E; [apply str_eqb_spec in E; congruence|reflexivity]).
    rewrite Ef. cbn [andb]. rewrite app_nil_r.
    destruct (dget str_eqb d f) as [k|]; [destruct (dget cval_eqb k v) as [l|]|]; rewrite (dget_dset_other _ str_eqb_spec) by exact Hf; reflexivity.
Qed.

Lemma wfd_add d f v c : wfd d -> wfd (add_val d f v c).
Proof.
  intros (W1 & W2). unfold add_val.
  assert (Hset : forall k, NoDup (map fst k) -> k <> [] -> (forall v l, In (v, l) k -> l <> []) -> wfd (dset str_eqb d f k)).
  { intros k K1 K2 K3. split; [now apply (dset_NoDup _ str_eqb_spec)|]. intros f' k' H.
    apply (dset_In _ str_eqb_spec) in H as [(-> & ->)|H]; [now split|now apply W2 in H]. }
  destruct (dget str_eqb d f) as [k|] eqn:Ed.
  - apply (dget_In _ str_eqb_spec) in Ed. destruct (W2 f k Ed) as (K1 & K2 & K3).
    destruct (dget cval_eqb k v) as [l|] eqn:Ek; apply Hset; try apply dset_ne; try (now apply (dset_NoDup _ cval_eqb_spec)).
    + intros w m H. apply (dset_In _ cval_eqb_spec) in H as [(-> & ->)|H]; [|now apply K3 in H]. intros H. now apply app_eq_nil in H as (_ & H).
    + intros w m H. apply (dset_In _ cval_eqb_spec) in H as [(-> & ->)|H]; [discriminate|now apply K3 in H].
  - apply Hset; [constructor; [intros []|constructor]|discriminate|]. intros w m [[= <- <-]|[]]. discriminate.
Qed.

Lemma keys_add d f v c x : In x (map fst (add_val d f v c)) <-> x = f \/ In x (map fst d).
Proof.
  unfold add_val. destruct (dget str_eqb d f) as [k|]; [destruct (dget cval_eqb k v) as [l|]|]; apply (dset_keys_In _ str_eqb_spec).
Qed.

(** One C-state of one CPU. *)
Definition add_all (keys : list str) (c : Z) (values : cstate) (d : list (str * kinfo)) : list (str * kinfo) :=
  fold_left (fun d nv => if existsb (str_eqb (fst nv)) keys then add_val d (fst nv) (snd nv) c else d) values d.

Lemma inkeys f keys : existsb (str_eqb f) keys = true <-> In f keys.
Proof.
  rewrite existsb_exists. split.
  - intros (x & Hx & E). apply str_eqb_spec in E. now subst x.
  - intros H. exists f. split; [exact H|now apply str_eqb_spec].
Qed.

Lemma add_all_spec keys c : forall values d, NoDup (map fst values) -> wfd d ->
  wfd (add_all keys c values d) /\
  (forall f, In f (map fst (add_all keys c values d)) <-> In f (map fst d) \/ (In f keys /\ In f (map fst values))) /\
  forall f v, look (add_all keys c values d) f v =
    look d f v ++ (if existsb (str_eqb f) keys then
                     match dget str_eqb values f with Some w => if cval_eqb w v then [c] else [] | None => [] end
                   else []).
Proof.
  induction values as [|(n, w) t IH]; intros d Hn W; cbn [add_all fold_left].
  - split; [exact W|]. cbn [map In dget]. split; [tauto|]. intros f v. destruct (existsb _ keys); now rewrite app_nil_r.
  - cbn [map fst] in Hn. inversion Hn as [|? ? Hni Hnt]; subst. cbn [fst snd].
    set (d1 := if existsb (str_eqb n) keys then add_val d n w c else d).
    assert (W1 : wfd d1) by (unfold d1; destruct (existsb (str_eqb n) keys); [now apply wfd_add|exact W]).
    destruct (IH d1 Hnt W1) as (A & B & C). fold (add_all keys c t d1). split; [exact A|]. split.
    + intros f. rewrite B. cbn [map fst In]. unfold d1. destruct (existsb (str_eqb n) keys) eqn:E.
      * apply inkeys in E. rewrite keys_add. split; [intros [[->|H]|H]; tauto|]. intros [H|(H1 & [->|H2])]; tauto.
      * split; [tauto|]. intros [H|(H1 & [->|H2])]; [tauto| |tauto]. exfalso. apply inkeys in H1. congruence.
    + intros f v. rewrite C. cbn [dget]. destruct (str_dec f n) as [->|Hf].
      * rewrite (proj2 (str_eqb_spec n n) eq_refl). rewrite (proj2 (dget_None _ str_eqb_spec t n) Hni).
        unfold d1. destruct (existsb (str_eqb n) keys) eqn:E; [|reflexivity].
        rewrite look_add, (proj2 (str_eqb_spec n n) eq_refl). cbn [andb]. now rewrite app_nil_r.
      * assert (Ef : str_eqb f n = false) by (destruct (str_eqb f n) eqn:E; [apply str_eqb_spec in E; congruence|reflexivity]).
        rewrite Ef. f_equal. unfold d1. destruct (existsb (str_eqb n) keys); [|reflexivity]. rewrite look_add.
        assert (Ef' : str_eqb n f = false) by (destruct (str_eqb n f) eqn:E; [apply str_eqb_spec in E; congruence|reflexivity]).
        rewrite Ef'. cbn [andb]. apply app_nil_r.
Qed.

Definition aget (a : rcsinfo) (n : str) : list (str * kinfo) := match dget str_eqb a n with Some d => d | None => [] end.

Definition wfa (keys : list str) (a : rcsinfo) : Prop :=
  NoDup (map fst a) /\ forall n d, In (n, d) a -> wfd d /\ forall f, In f (map fst d) -> In f keys.

Lemma wfa_aget keys a n : wfa keys a -> wfd (aget a n) /\ forall f, In f (map fst (aget a n)) -> In f keys.
Proof.
  intros (W1 & W2). unfold aget. destruct (dget str_eqb a n) as [d|] eqn:E.
  - apply (dget_In _ str_eqb_spec) in E. now apply W2 in E.
  - split; [split; [constructor|intros f k []]|intros f []].
Qed.

(** What one CPU adds. *)
Definition gives (keys : list str) (info : csinfo) (n f : str) (v : cval) : bool :=
  existsb (str_eqb f) keys &&
  match dget str_eqb info n with
  | Some cs => match dget str_eqb cs f with Some w => cval_eqb w v | None => false end
  | None => false
  end.

Definition add_cpu (keys : list str) (c : Z) (info : csinfo) (a : rcsinfo) : rcsinfo :=
  fold_left (fun a pv => add_values keys a c (fst pv) (snd pv)) info a.

Lemma add_values_spec keys a c n cs : NoDup (map fst cs) -> wfa keys a ->
  wfa keys (add_values keys a c n cs) /\
  (forall m, In m (map fst (add_values keys a c n cs)) <-> m = n \/ In m (map fst a)) /\
  (forall m, m <> n -> aget (add_values keys a c n cs) m = aget a m) /\
  aget (add_values keys a c n cs) n = add_all keys c cs (aget a n).
Proof.
  intros Hn W. unfold add_values. fold (aget a n). fold (add_all keys c cs (aget a n)).
  destruct (wfa_aget keys a n W) as (Wd & Hk). destruct (add_all_spec keys c cs (aget a n) Hn Wd) as (A & B & _).
  split; [|split; [|split]].
  - split; [apply (dset_NoDup _ str_eqb_spec), W|]. intros m d H. apply (dset_In _ str_eqb_spec) in H as [(-> & ->)|H].
    + split; [exact A|]. intros f Hf. apply B in Hf as [Hf|(Hf & _)]; [now apply Hk|exact Hf].
    + now apply W in H.
  - intros m. apply (dset_keys_In _ str_eqb_spec).
  - intros m Hm. unfold aget. now rewrite (dget_dset_other _ str_eqb_spec).
  - unfold aget at 1. now rewrite (dget_dset_same _ str_eqb_spec).
Qed.

Lemma add_cpu_spec keys c : forall info a, NoDup (map fst info) -> (forall n cs, In (n, cs) info -> NoDup (map fst cs)) -> wfa keys a ->
  wfa keys (add_cpu keys c info a) /\
  (forall m, In m (map fst (add_cpu keys c info a)) <-> In m (map fst info) \/ In m (map fst a)) /\
  forall n f v, look (aget (add_cpu keys c info a) n) f v = look (aget a n) f v ++ (if gives keys info n f v then [c] else []).
Proof.
  induction info as [|(n0, cs) t IH]; intros a Hn Hd W; cbn [add_cpu fold_left].
  - split; [exact W|]. split; [cbn [map In]; tauto|]. intros n f v. unfold gives. cbn [dget]. rewrite Bool.andb_false_r. now rewrite app_nil_r.
  - cbn [fst snd]. cbn [map fst] in Hn. inversion Hn as [|? ? Hni Hnt]; subst.
    destruct (add_values_spec keys a c n0 cs) as (A & B & C & D); [apply (Hd n0); now left|exact W|].
    destruct (IH (add_values keys a c n0 cs) Hnt (fun m x H => Hd m x (or_intror H)) A) as (A' & B' & C').
    fold (add_cpu keys c t (add_values keys a c n0 cs)). split; [exact A'|]. split.
    + intros m. rewrite B', B. cbn [map fst In]. split; [intros [H|[->|H]]|intros [[->|H]|H]]; tauto.
    + intros n f v. rewrite C'. unfold gives. cbn [dget]. destruct (str_dec n n0) as [->|Hnn].
      * assert (Et : @dget str cstate str_eqb t n0 = None) by (apply (dget_None _ str_eqb_spec); exact Hni).
        rewrite D, (proj2 (str_eqb_spec n0 n0) eq_refl). rewrite Et, Bool.andb_false_r, app_nil_r.
        destruct (add_all_spec keys c cs (aget a n0)) as (_ & _ & ->); [apply (Hd n0); now left|now apply (wfa_aget keys)|].
        destruct (existsb (str_eqb f) keys); cbn [andb]; [|reflexivity]. destruct (dget str_eqb cs f); reflexivity.
      * rewrite C by exact Hnn.
        assert (E : str_eqb n n0 = false) by (destruct (str_eqb n n0) eqn:E; [apply str_eqb_spec in E; congruence|reflexivity]).
        now rewrite E.
Qed.

Lemma build_snoc keys items c info : build_aggr_rcsinfo (items ++ [(c, info)]) keys = add_cpu keys c info (build_aggr_rcsinfo items keys).
Proof. unfold build_aggr_rcsinfo. rewrite fold_left_app. reflexivity. Qed.

Lemma build_spec keys : forall items, (forall c info, In (c, info) items -> NoDup (map fst info) /\ forall n cs, In (n, cs) info -> NoDup (map fst cs)) ->
  wfa keys (build_aggr_rcsinfo items keys) /\
  (forall n, In n (map fst (build_aggr_rcsinfo items keys)) <-> exists c info, In (c, info) items /\ In n (map fst info)) /\
  forall n f v, look (aget (build_aggr_rcsinfo items keys) n) f v = map fst (filter (fun it => gives keys (snd it) n f v) items).
Proof.
  induction items as [|(c, info) items IH] using rev_ind; intros Hd.
  - cbn [build_aggr_rcsinfo fold_left]. split; [split; [constructor|intros n d []]|]. split; [|reflexivity]. intros n. split; [intros []|intros (c & info & [] & _)].
  - rewrite build_snoc. set (a := build_aggr_rcsinfo items keys) in *.
    destruct IH as (A & B & C); [intros c' i' H; apply (Hd c'), in_or_app; now left|].
    destruct (Hd c info) as (H1 & H2); [apply in_or_app; right; now left|].
    destruct (add_cpu_spec keys c info a H1 H2 A) as (A' & B' & C').
    split; [exact A'|]. split.
    + intros n. rewrite B', B. split.
      * intros [H|(c' & i' & H & Hn)]; [exists c, info|exists c', i']; (split; [apply in_or_app|assumption]); [right; now left|now left].
      * intros (c' & i' & H & Hn). apply in_app_iff in H as [H|[[= <- <-]|[]]]; [right; now exists c', i'|now left].
    + intros n f v. rewrite C', C, filter_app, map_app. cbn [filter snd]. f_equal. destruct (gives keys info n f v); reflexivity.
Qed.

Lemma gives_In keys info n f v : NoDup (map fst info) -> (forall n cs, In (n, cs) info -> NoDup (map fst cs)) ->
  gives keys info n f v = true <-> In f keys /\ exists cs, In (n, cs) info /\ In (f, v) cs.
Proof.
  intros H1 H2. unfold gives. rewrite Bool.andb_true_iff, inkeys. split.
  - intros (Hf & H). split; [exact Hf|]. destruct (@dget str cstate str_eqb info n) as [cs|] eqn:E; [|discriminate].
    destruct (dget str_eqb cs f) as [w|] eqn:Ef; [|discriminate]. apply cval_eqb_spec in H. subst w.
    exists cs. split; [now apply (dget_In _ str_eqb_spec)|now apply (dget_In _ str_eqb_spec)].
  - intros (Hf & cs & Hn & Hv). split; [exact Hf|].
    assert (E : @dget str cstate str_eqb info n = Some cs) by (exact (In_dget _ str_eqb_spec _ _ _ H1 Hn)). rewrite E.
    rewrite (In_dget _ str_eqb_spec _ _ _ (H2 n cs Hn) Hv).
    now apply cval_eqb_spec.
Qed.

Lemma look_In d f k v l : wfd d -> In (f, k) d -> In (v, l) k -> look d f v = l.
Proof.
  intros (W1 & W2) H1 H2. unfold look. rewrite (In_dget _ str_eqb_spec _ _ _ W1 H1), (In_dget _ cval_eqb_spec _ _ _ (proj1 (W2 f k H1)) H2). reflexivity.
Qed.

Lemma In_look d f v c : In c (look d f v) -> exists k l, In (f, k) d /\ In (v, l) k /\ In c l.
Proof.
  unfold look. destruct (dget str_eqb d f) as [k|] eqn:E; [|intros []]. destruct (dget cval_eqb k v) as [l|] eqn:E2; [|intros []].
  intros H. exists k, l. split; [now apply (dget_In _ str_eqb_spec)|]. split; [now apply (dget_In _ cval_eqb_spec)|exact H].
Qed.

(** What is printed is a partition of what is known. *)
Lemma rcs_partition : forall items keys, dict_items items -> let a := build_aggr_rcsinfo items keys in
  (forall n key val cpus, says_cs a n key val cpus -> cpus <> [] /\ NoDup cpus /\ In key keys /\ forall c, In c cpus <-> known_cs items c n key val) /\
  (forall c n key val, known_cs items c n key val -> In key keys -> exists cpus, says_cs a n key val cpus /\ In c cpus) /\
  (forall n key val cpus1 cpus2, says_cs a n key val cpus1 -> says_cs a n key val cpus2 -> cpus1 = cpus2).
Proof.
  intros items keys (D1 & D2) a. destruct (build_spec keys items D2) as (A & B & C). fold a in A, B, C.
  assert (Hlook : forall n key val cpus, says_cs a n key val cpus -> cpus <> [] /\ In key keys /\ look (aget a n) key val = cpus).
  { intros n key val cpus (d & k & H1 & H2 & H3). destruct (proj2 A n d H1) as (W & Hk).
    split; [now apply (proj2 W key k H2) in H3|]. split; [apply Hk, in_map_iff; now exists (key, k)|].
    unfold aget. rewrite (In_dget _ str_eqb_spec _ _ _ (proj1 A) H1). now apply (look_In d key k). }
  assert (Hin : forall n key val c, In c (look (aget a n) key val) <-> In key keys /\ known_cs items c n key val).
  { intros n key val c. rewrite C, in_map_iff. split.
    - intros ((c', info) & <- & H). apply filter_In in H as (H & G). cbn [fst snd] in *. destruct (D2 c' info H) as (N1 & N2).
      apply (gives_In keys info n key val N1 N2) in G as (Hk & cs & G1 & G2). split; [exact Hk|]. now exists info, cs.
    - intros (Hk & info & cs & H & G1 & G2). exists (c, info). split; [reflexivity|]. apply filter_In. split; [exact H|]. cbn [snd].
      destruct (D2 c info H) as (N1 & N2). apply (gives_In keys info n key val N1 N2). split; [exact Hk|]. now exists cs. }
  split; [|split].
  - intros n key val cpus H. destruct (Hlook n key val cpus H) as (Hne & Hk & <-). split; [exact Hne|]. split; [|split; [exact Hk|]].
    + rewrite C. clear - D1. induction items as [|(c, info) t IH]; cbn [filter map]; [constructor|]. cbn [map fst] in D1. inversion D1 as [|? ? N1 N2]; subst.
      destruct (gives keys _ n key val); [|now apply IH]. cbn [map fst]. constructor; [|now apply IH].
      intros H. apply N1. apply in_map_iff in H as (x & <- & Hx). apply filter_In in Hx as (Hx & _). now apply in_map.
    + intros c. rewrite Hin. tauto.
  - intros c n key val H Hk. assert (Hc : In c (look (aget a n) key val)) by (apply Hin; now split).
    apply In_look in Hc as (k & l & H1 & H2 & H3). exists l. split; [|exact H3]. unfold aget in H1.
    destruct (dget str_eqb a n) as [d|] eqn:E; [|destruct H1]. apply (dget_In _ str_eqb_spec) in E. now exists d, k.
  - intros n key val c1 c2 H1 H2. apply Hlook in H1 as (_ & _ & <-). now apply Hlook in H2 as (_ & _ & <-).
Qed.
