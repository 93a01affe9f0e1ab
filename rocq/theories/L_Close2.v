(** Lemmas about closing the objects of the classes (C76). *)
From Coq Require Import Ascii String.
From Verif Require Import Base M_Text M_Close S_Close L_Text L_Close.
Open Scope list_scope.
Open Scope Z_scope.

Definition memb (a : str) (l : list str) : bool := existsb (str_eqb a) l.
Fixpoint nodupb (l : list str) : bool := match l with [] => true | a :: t => negb (memb a t) && nodupb t end.

Lemma memb_in a l : memb a l = true <-> In a l.
Proof.
  unfold memb. rewrite existsb_exists. split.
  - intros (x & Hx & E). apply str_eqb_eq in E. subst. exact Hx.
  - intros H. exists a. split; [exact H|apply eqb_refl].
Qed.

Lemma memb_not a l : memb a l = false -> ~ In a l.
Proof. intros E H. apply memb_in in H. congruence. Qed.

Lemma nodupb_ok l : nodupb l = true -> NoDup l.
Proof.
  induction l as [|a t IH]; [constructor|]. cbn [nodupb]. intros H. apply andb_prop in H as [H1 H2].
  constructor; [|apply IH; exact H2]. apply memb_not. destruct (memb a t); [discriminate|reflexivity].
Qed.

Definition slot_names (p : str * how) : list str :=
  match snd p with Optional => [fst p; s2l "_close" ++ fst p] | _ => [fst p] end.
Definition names (k : cls) : list str := concat (map slot_names (k_slots k)).

Definition slot_good (k : cls) (p : str * how) : bool :=
  let (a, h) := p in
  let L := all_closed (k_close k) in let U := all_unref (k_close k) in
  match h with
  | Given => memb a U && negb (memb a L)
  | Optional => memb a L && str_eqb (close_name a) (s2l "_close" ++ a) && negb (memb a U)
  | Made => memb a L && negb (memb (close_name a) (names k)) && negb (memb a U)
  | Unmarked => false
  end.

Definition good (k : cls) : bool :=
  nodupb (names k) && nodupb (all_closed (k_close k)) && forallb (slot_good k) (k_slots k)
  && forallb (fun a => memb a (map fst (k_slots k)) && negb (memb (close_name a) (all_closed (k_close k)))
                       && negb (memb (close_name a) (all_unref (k_close k)))) (all_closed (k_close k))
  && forallb (fun a => memb a (map fst (k_slots k)) && negb (memb a (all_closed (k_close k)))) (all_unref (k_close k)).

Lemma classes_good : forallb good classes = true.
Proof. vm_compute. reflexivity. Qed.

Lemma class_good k : In k classes -> good k = true.
Proof. apply (proj1 (forallb_forall good classes) classes_good). Qed.

Record is_good (k : cls) : Prop := {
  g_names : NoDup (names k);
  g_once : NoDup (all_closed (k_close k));
  g_given : forall a, In (a, Given) (k_slots k) -> In a (all_unref (k_close k)) /\ ~ In a (all_closed (k_close k));
  g_optional : forall a, In (a, Optional) (k_slots k) -> In a (all_closed (k_close k)) /\ close_name a = s2l "_close" ++ a;
  g_made : forall a, In (a, Made) (k_slots k) -> In a (all_closed (k_close k)) /\ ~ In (close_name a) (names k);
  g_unmarked : forall a, ~ In (a, Unmarked) (k_slots k);
  g_closed : forall a, In a (all_closed (k_close k)) -> exists h, In (a, h) (k_slots k) /\ h <> Given;
  g_flag : forall a, In a (all_closed (k_close k)) -> ~ In (close_name a) (all_closed (k_close k)) /\ ~ In (close_name a) (all_unref (k_close k));
  g_unref : forall a, In a (all_unref (k_close k)) -> (exists h, In (a, h) (k_slots k)) /\ ~ In a (all_closed (k_close k)) }.

Ltac bools := repeat match goal with
  | H : _ && _ = true |- _ => apply andb_prop in H as [? ?]
  | H : negb (memb ?a ?l) = true |- _ => apply negb_true_iff in H; apply memb_not in H
  | H : memb ?a ?l = true |- _ => apply memb_in in H
  | H : str_eqb _ _ = true |- _ => apply str_eqb_eq in H
  end.

Lemma good_is k : good k = true -> is_good k.
Proof.
  unfold good. intros H. apply andb_prop in H as [H H5]. apply andb_prop in H as [H H4]. apply andb_prop in H as [H H3].
  apply andb_prop in H as [H1 H2].
  rewrite forallb_forall in H3, H4, H5.
  assert (Hslot : forall a, In a (map fst (k_slots k)) -> exists h, In (a, h) (k_slots k)).
  { intros a Ha. apply in_map_iff in Ha as ([b h] & <- & Hi). exists h. exact Hi. }
  constructor.
  - apply nodupb_ok. exact H1.
  - apply nodupb_ok. exact H2.
  - intros a Ha. specialize (H3 _ Ha). cbn in H3. bools. split; assumption.
  - intros a Ha. specialize (H3 _ Ha). unfold slot_good in H3. bools. split; assumption.
  - intros a Ha. specialize (H3 _ Ha). unfold slot_good in H3. bools. split; assumption.
  - intros a Ha. specialize (H3 _ Ha). discriminate.
  - intros a Ha. specialize (H4 _ Ha). cbn beta in H4. bools. destruct (Hslot a) as (h & Hh); [assumption|]. exists h. split; [exact Hh|].
    intros ->. specialize (H3 _ Hh). cbn in H3. bools. contradiction.
  - intros a Ha. specialize (H4 _ Ha). cbn beta in H4. bools. split; assumption.
  - intros a Ha. specialize (H5 _ Ha). cbn beta in H5. bools. split; [apply Hslot; assumption|assumption].
Qed.

(** ** The constructor *)

Lemma new_keys k args : map fst (new k args) = names k.
Proof.
  unfold new, names. induction (k_slots k) as [|[a h] t IH]; [reflexivity|]. cbn [map concat]. rewrite map_app, IH. f_equal.
  destruct h; reflexivity.
Qed.

Lemma new_in k args a h x v : In (a, h) (k_slots k) -> In (x, v) (new_slot args (a, h)) -> In (x, v) (new k args).
Proof. intros H1 H2. unfold new. apply in_concat. exists (new_slot args (a, h)). split; [|exact H2]. apply in_map. exact H1. Qed.

Lemma new_get k args a h x v : is_good k -> In (a, h) (k_slots k) -> In (x, v) (new_slot args (a, h)) -> getattr (new k args) x = Some v.
Proof. intros G H1 H2. apply in_dget; [rewrite new_keys; apply G|]. eapply new_in; eassumption. Qed.

Lemma new_absent k args x : ~ In x (names k) -> getattr (new k args) x = None.
Proof. intros H. apply dget_none. rewrite new_keys. exact H. Qed.

Lemma slots_nodup k : NoDup (names k) -> NoDup (map fst (k_slots k)).
Proof.
  unfold names. induction (k_slots k) as [|[a h] t IH]; [constructor|]. cbn [map concat fst]. intros N.
  apply nodup_app_l in N as (N1 & N2 & N12). constructor; [|apply IH; exact N2].
  intros Hi. apply (N12 a); [destruct h; left; reflexivity|].
  apply in_map_iff in Hi as ([b h'] & E & Hi). cbn in E. subst b. apply in_concat. exists (slot_names (a, h')).
  split; [apply in_map; exact Hi|destruct h'; left; reflexivity].
Qed.

(** A flag is not an attribute that refers to something. *)
Lemma flag_no_slot k a : NoDup (names k) -> In (a, Optional) (k_slots k) -> ~ In (s2l "_close" ++ a) (map fst (k_slots k)).
Proof.
  unfold names. induction (k_slots k) as [|[b h] t IH]; [intros _ []|]. cbn [map concat fst]. intros N Hi.
  apply nodup_app_l in N as (N1 & N2 & N12). destruct Hi as [Hi|Hi].
  - injection Hi as -> ->. intros [Hx|Hx].
    + cbn in N1. inversion N1 as [|? ? M1 M2]; subst. apply M1. left. symmetry. exact Hx.
    + apply (N12 (s2l "_close" ++ a)); [right; left; reflexivity|].
      apply in_map_iff in Hx as ([c h'] & E & Hx). cbn in E. subst c. apply in_concat. exists (slot_names (s2l "_close" ++ a, h')).
      split; [apply in_map; exact Hx|destruct h'; left; reflexivity].
  - intros [Hx|Hx]; [|apply (IH N2 Hi Hx)]. apply (N12 b); [destruct h; left; reflexivity|]. subst b.
    apply in_concat. exists (slot_names (a, Optional)). split; [apply (in_map slot_names _ _ Hi)|right; left; reflexivity].
Qed.

(** ** Making *)

Definition first (ops : list (str * Z)) (a : str) : option Z := option_map snd (find (fun o => str_eqb a (fst o)) ops).

Lemma first_spec ops a i : first ops a = Some i <-> exists pre post, ops = pre ++ (a, i) :: post /\ ~ In a (map fst pre).
Proof.
  unfold first. induction ops as [|[b j] t IH]; cbn [find fst].
  - split; [discriminate|]. intros (pre & post & E & _). destruct pre; discriminate.
  - destruct (str_eqb a b) eqn:E.
    + apply str_eqb_eq in E. subst b. cbn [option_map snd]. split.
      * intros H. injection H as ->. exists [], t. split; [reflexivity|intros []].
      * intros (pre & post & Eo & N). destruct pre as [|[c x] pre]; [cbn in Eo; congruence|].
        exfalso. apply N. cbn [app] in Eo. injection Eo as -> -> _. left. reflexivity.
    + rewrite IH. split; intros (pre & post & Eo & N).
      * exists ((b, j) :: pre), post. split; [rewrite Eo; reflexivity|]. intros [Hx|Hx]; [|contradiction]. cbn in Hx. subst b. rewrite eqb_refl in E. discriminate.
      * destruct pre as [|[c x] pre]; cbn [app] in Eo; injection Eo as -> -> Et.
        -- rewrite eqb_refl in E. discriminate.
        -- exists pre, post. split; [exact Et|]. intros Hx. apply N. right. exact Hx.
Qed.

Definition may_make (k : cls) (x : str) : bool := match dget str_eqb (k_slots k) x with None | Some Given => false | Some _ => true end.

Lemma fold_make k ops : forall d x,
  getattr (fold_left (make k) ops d) x =
  if may_make k x then
    match getattr d x with
    | Some v => if truthy_val v then Some v else match first ops x with Some i => Some (AObj i true) | None => Some v end
    | None => None
    end
  else getattr d x.
Proof.
  induction ops as [|[b j] t IH]; intros d x; cbn [fold_left].
  - unfold first. cbn. destruct (may_make k x); [|reflexivity]. destruct (getattr d x) as [v|]; [|reflexivity]. destruct (truthy_val v); reflexivity.
  - rewrite IH. unfold first. cbn [find fst]. fold (first t x).
    destruct (str_dec x b) as [->|Nx].
    + rewrite eqb_refl. cbn [option_map snd]. destruct (may_make k b) eqn:Em.
      * unfold make. unfold may_make in Em. destruct (dget str_eqb (k_slots k) b) as [[]|]; try discriminate;
          destruct (getattr d b) as [v|] eqn:Eg; rewrite ?Eg; try reflexivity; destruct (truthy_val v) eqn:Ev;
          rewrite ?Eg, ?get_set_same, ?Ev; reflexivity.
      * unfold make. unfold may_make in Em. destruct (dget str_eqb (k_slots k) b) as [[]|]; try discriminate; reflexivity.
    + rewrite (eqb_neq _ _ Nx).
      assert (Es : getattr (make k d (b, j)) x = getattr d x).
      { unfold make. destruct (dget str_eqb (k_slots k) b) as [[]|]; try reflexivity;
          (destruct (getattr d b) as [v|]; [destruct (truthy_val v); [reflexivity|apply get_set_other; exact Nx]|reflexivity]). }
      rewrite Es. unfold first. reflexivity.
Qed.

Lemma fold_keys k ops : forall d, map fst (fold_left (make k) ops d) = map fst d.
Proof.
  induction ops as [|[b j] t IH]; intros d; [reflexivity|]. cbn [fold_left]. rewrite IH. unfold make.
  destruct (dget str_eqb (k_slots k) b) as [[]|]; try reflexivity;
    (destruct (getattr d b) as [v|] eqn:E; [destruct (truthy_val v); [reflexivity|eapply keys_set; exact E]|reflexivity]).
Qed.

Lemma live_keys k args ops : map fst (live k args ops) = names k.
Proof. unfold live. rewrite fold_keys. apply new_keys. Qed.

Section Live.
  Variables (k : cls) (args : str -> aval) (ops : list (str * Z)).
  Hypothesis G : is_good k.

  Lemma slot_get a h : In (a, h) (k_slots k) -> dget str_eqb (k_slots k) a = Some h.
  Proof. intros H. apply in_dget; [|exact H]. apply slots_nodup. apply G. Qed.

  Lemma live_flag a : In (a, Optional) (k_slots k) ->
    getattr (live k args ops) (s2l "_close" ++ a) = Some (ABool (match args a with ANone => true | _ => false end)).
  Proof.
    intros Ha. unfold live. rewrite fold_make. unfold may_make.
    rewrite (dget_none (k_slots k)); [|apply flag_no_slot; [apply G|exact Ha]].
    eapply new_get; [exact G|exact Ha|right; left; reflexivity].
  Qed.

  Lemma live_absent x : ~ In x (names k) -> getattr (live k args ops) x = None.
  Proof. intros H. apply dget_none. rewrite live_keys. exact H. Qed.

  Hypothesis HA : arguments_ok args.

  Lemma live_made a : In (a, Made) (k_slots k) ->
    getattr (live k args ops) a = Some (match first ops a with Some i => AObj i true | None => ANone end).
  Proof.
    intros Ha. unfold live. rewrite fold_make. unfold may_make. rewrite (slot_get a Made Ha).
    rewrite (new_get k args a Made a ANone G Ha); [|left; reflexivity]. cbn [truthy_val]. destruct (first ops a); reflexivity.
  Qed.

  Lemma live_optional a : In (a, Optional) (k_slots k) ->
    getattr (live k args ops) a = Some (match args a with ANone => match first ops a with Some i => AObj i true | None => ANone end | v => v end).
  Proof.
    intros Ha. unfold live. rewrite fold_make. unfold may_make. rewrite (slot_get a Optional Ha).
    rewrite (new_get k args a Optional a (args a) G Ha); [|left; reflexivity].
    destruct (HA a) as [-> | (i & c & ->)]; cbn [truthy_val]; [destruct (first ops a)|]; reflexivity.
  Qed.

  Definition made_for (a : str) : option Z :=
    match dget str_eqb (k_slots k) a with
    | Some Made => first ops a
    | Some Optional => match args a with ANone => first ops a | _ => None end
    | _ => None
    end.

  Lemma will_live a : In a (all_closed (k_close k)) -> will (live k args ops) a = made_for a.
  Proof.
    intros Ha. destruct (g_closed k G a Ha) as (h & Hh & Hn). unfold made_for. rewrite (slot_get a h Hh). unfold will.
    destruct h; [congruence| |destruct (g_unmarked k G a Hh)|].
    - rewrite (live_optional a Hh). destruct (g_optional k G a Hh) as (_ & ->). rewrite (live_flag a Hh).
      destruct (HA a) as [E|(i & c & E)]; rewrite E.
      + destruct (first ops a); reflexivity.
      + destruct c; reflexivity.
    - rewrite (live_made a Hh). destruct (g_made k G a Hh) as (_ & Hf). rewrite (live_absent _ Hf). destruct (first ops a); reflexivity.
  Qed.

  Lemma made_for_first a i : made_for a = Some i -> first ops a = Some i.
  Proof. unfold made_for. destruct (dget str_eqb (k_slots k) a) as [[]|]; try discriminate; [destruct (args a); try discriminate|]; auto. Qed.

  Lemma makes_iff i : makes k args ops i <-> In i (picks (will (live k args ops)) (all_closed (k_close k))).
  Proof.
    rewrite in_picks. split.
    - intros (a & h & pre & post & Hs & Hm & Eo & Hp).
      assert (Hf : first ops a = Some i) by (apply first_spec; exists pre, post; split; assumption).
      assert (Ha : In a (all_closed (k_close k)) /\ made_for a = Some i).
      { unfold made_for. rewrite (slot_get a h Hs). destruct h.
        - destruct Hm as [Hm|[Hm _]]; congruence.
        - destruct Hm as [Hm|[_ Hm]]; [discriminate|]. rewrite Hm. split; [apply (g_optional k G a Hs)|exact Hf].
        - destruct (g_unmarked k G a Hs).
        - split; [apply (g_made k G a Hs)|exact Hf]. }
      exists a. split; [apply Ha|]. rewrite (will_live a (proj1 Ha)). apply Ha.
    - intros (a & Ha & Hw). rewrite (will_live a Ha) in Hw. pose proof (made_for_first a i Hw) as Hf.
      apply first_spec in Hf as (pre & post & Eo & Hp). destruct (g_closed k G a Ha) as (h & Hh & Hn).
      exists a, h, pre, post. split; [exact Hh|]. split; [|split; assumption].
      unfold made_for in Hw. rewrite (slot_get a h Hh) in Hw. destruct h; try discriminate; [|left; reflexivity].
      right. split; [discriminate|]. destruct (args a); [reflexivity|discriminate|discriminate].
  Qed.

  Lemma nodup_snd (l : list (str * Z)) a b i : NoDup (map snd l) -> In (a, i) l -> In (b, i) l -> a = b.
  Proof.
    induction l as [|[c x] t IH]; [intros _ []|]. cbn [map snd]. intros N. inversion N as [|? ? N1 N2]; subst. intros [Ha|Ha] [Hb|Hb].
    - congruence.
    - injection Ha as -> ->. exfalso. apply N1. apply in_map_iff. exists (b, i). auto.
    - injection Hb as -> ->. exfalso. apply N1. apply in_map_iff. exists (a, i). auto.
    - exact (IH N2 Ha Hb).
  Qed.

  Lemma order_nodup : new_objects args ops -> NoDup (picks (will (live k args ops)) (all_closed (k_close k))).
  Proof.
    intros (N & _). apply nodup_picks; [apply G|]. intros a b i Ha Hb Ea Eb.
    rewrite (will_live a Ha) in Ea. rewrite (will_live b Hb) in Eb. apply made_for_first in Ea, Eb.
    apply first_spec in Ea as (p1 & q1 & E1 & _). apply first_spec in Eb as (p2 & q2 & E2 & _).
    apply (nodup_snd ops a b i N).
    - rewrite E1. apply in_app_iff. right. left. reflexivity.
    - rewrite E2. apply in_app_iff. right. left. reflexivity.
  Qed.

  Lemma slot_in_names a h : In (a, h) (k_slots k) -> In a (names k).
  Proof. intros H. unfold names. apply in_concat. exists (slot_names (a, h)). split; [apply in_map; exact H|destruct h; left; reflexivity]. Qed.

  Lemma key_get (d : attrs) a : In a (map fst d) -> getattr d a <> None.
  Proof.
    unfold getattr. induction d as [|[c x] t IH]; [intros []|]. cbn [map fst dget]. intros H.
    destruct (str_eqb a c) eqn:E; [discriminate|]. apply IH. destruct H as [->|H]; [rewrite eqb_refl in E; discriminate|exact H].
  Qed.

  Lemma good_safe d : map fst d = names k -> safe (all_closed (k_close k)) (all_unref (k_close k)) d.
  Proof.
    intros K. constructor.
    - apply G.
    - intros a b Ha Hb E. subst b. apply (proj1 (g_flag k G a Ha)). exact Hb.
    - intros u Hu. apply key_get. rewrite K. destruct (g_unref k G u Hu) as ((h & Hh) & _). eapply slot_in_names. exact Hh.
    - intros u Hu. apply (g_unref k G u Hu).
    - intros a u Ha Hu E. subst u. apply (g_flag k G a Ha). exact Hu.
  Qed.

  Lemma slot_covered a h : In (a, h) (k_slots k) -> In a (all_closed (k_close k)) \/ In a (all_unref (k_close k)).
  Proof.
    intros Hs. destruct h.
    - right. apply (g_given k G a Hs).
    - left. apply (g_optional k G a Hs).
    - destruct (g_unmarked k G a Hs).
    - left. apply (g_made k G a Hs).
  Qed.
End Live.

Section Main.
  Context {W : Type}.
  Variable cl : Z -> M W unit.

  Lemma nothing_left k d d' : is_good k -> map fst d' = names k ->
    (forall a, In a (all_closed (k_close k)) \/ In a (all_unref (k_close k)) -> getattr d' a = cleared (getattr d a)) -> refers_to_nothing k d'.
  Proof.
    intros G K H a h i c Hs Hi. apply in_dget in Hi; [|rewrite K; apply G]. fold (getattr d' a) in Hi.
    rewrite (H a (slot_covered k G a h Hs)) in Hi. apply cleared_falsy in Hi. discriminate.
  Qed.

  Lemma close_spec k args ops w r d' w' : In k classes -> arguments_ok args -> new_objects args ops ->
    close_object cl (k_close k) (live k args ops, w) = (r, (d', w')) ->
    exists order, closes cl order w r w' /\ NoDup order /\ (forall i, In i order -> makes k args ops i) /\ (forall a i c, args a = AObj i c -> ~ In i order) /\
      (r = Ok tt -> (forall i, makes k args ops i -> In i order) /\ refers_to_nothing k d').
  Proof.
    intros Hk HA HN E. pose proof (good_is k (class_good k Hk)) as G.
    apply object_run in E; [|apply good_safe; [exact G|apply live_keys]].
    destruct E as (order & rest & Hp & Hcl & Hkeys & Hfr & Hor & Hok & Hex).
    pose proof (order_nodup k args ops G HA HN) as Hnd. rewrite Hp in Hnd.
    exists order. split; [exact Hcl|]. split; [apply (nodup_app_l _ _ _ Hnd)|]. split.
    - intros i Hi. apply (makes_iff k args ops G HA). rewrite Hp. apply in_app_iff. left. exact Hi.
    - split.
      { intros a i c Ha Hi. assert (Hm : makes k args ops i) by (apply (makes_iff k args ops G HA); rewrite Hp; apply in_app_iff; left; exact Hi).
        destruct Hm as (b & h & pre & post & _ & _ & Eo & _). apply (proj2 HN a i c Ha). rewrite Eo, map_app. apply in_app_iff. right. left. reflexivity. }
      intros Hr. destruct (Hok Hr) as (-> & Hall). rewrite app_nil_r in Hp. split.
      + intros i Hi. apply (makes_iff k args ops G HA) in Hi. rewrite Hp in Hi. exact Hi.
      + eapply nothing_left; [exact G| |exact Hall]. rewrite Hkeys. apply live_keys.
  Qed.

  Lemma close_ok k args ops w : In k classes -> arguments_ok args -> never_fails cl ->
    exists s', close_object cl (k_close k) (live k args ops, w) = (Ok tt, s').
  Proof.
    intros Hk HA Hc. pose proof (good_is k (class_good k Hk)) as G.
    destruct (close_object cl (k_close k) (live k args ops, w)) as [r [d' w']] eqn:E.
    apply object_run in E; [|apply good_safe; [exact G|apply live_keys]].
    destruct E as (order & rest & _ & Hcl & _). exists (d', w').
    assert (Hr : r = Ok tt); [|rewrite Hr; reflexivity].
    clear - Hcl Hc. induction Hcl as [w0|i l w0 w2 r0 w3 E H IH|i w0 e w2 E]; [reflexivity|exact IH|].
    destruct (Hc i w0) as (w1 & E1). congruence.
  Qed.

  Lemma after_none L U d w r d' w' : after cl L U d w r d' w' -> (forall a, In a L -> will d a = None) -> r = Ok tt /\ w' = w.
  Proof.
    intros (order & rest & Hp & Hcl & _) Hn. rewrite (picks_none _ _ Hn) in Hp. symmetry in Hp. apply app_eq_nil in Hp as [-> _].
    inversion Hcl; subst. split; reflexivity.
  Qed.

  Lemma again k args ops w d' w' : In k classes -> arguments_ok args ->
    close_object cl (k_close k) (live k args ops, w) = (Ok tt, (d', w')) ->
    forall w2, exists d2, close_object cl (k_close k) (d', w2) = (Ok tt, (d2, w2)) /\ refers_to_nothing k d2.
  Proof.
    intros Hk HA E w2. pose proof (good_is k (class_good k Hk)) as G.
    apply object_run in E; [|apply good_safe; [exact G|apply live_keys]].
    destruct E as (order & rest & Hp & Hcl & Hkeys & Hfr & Hor & Hok & Hex). destruct (Hok eq_refl) as (_ & Hall).
    rewrite live_keys in Hkeys.
    destruct (close_object cl (k_close k) (d', w2)) as [r [d2 w3]] eqn:E2.
    apply object_run in E2; [|apply good_safe; [exact G|exact Hkeys]].
    destruct (after_none _ _ _ _ _ _ _ E2) as (-> & ->).
    { intros a Ha. apply will_falsy. intros v Hv. rewrite (Hall a (or_introl Ha)) in Hv. eapply cleared_falsy. exact Hv. }
    exists d2. split; [reflexivity|]. destruct E2 as (o2 & rest2 & _ & _ & Hk2 & _ & _ & Hok2 & _). destruct (Hok2 eq_refl) as (_ & Hall2).
    eapply nothing_left; [exact G| |exact Hall2]. congruence.
  Qed.

  (** After a failure, another call goes on with the object whose close() failed. *)
  Lemma retry k args ops w e d1 w1 : In k classes -> arguments_ok args -> new_objects args ops ->
    close_object cl (k_close k) (live k args ops, w) = (Exn e, (d1, w1)) ->
    exists done i, closes cl (done ++ [i]) w (Exn e) w1 /\
      forall w2 r d2 w3, close_object cl (k_close k) (d1, w2) = (r, (d2, w3)) ->
        exists order, closes cl (i :: order) w2 r w3 /\ NoDup (done ++ i :: order) /\ (forall j, In j order -> makes k args ops j) /\
          (r = Ok tt -> (forall j, makes k args ops j <-> In j (done ++ i :: order)) /\ refers_to_nothing k d2).
  Proof.
    intros Hk HA HN E. pose proof (good_is k (class_good k Hk)) as G.
    apply object_run in E; [|apply good_safe; [exact G|apply live_keys]].
    destruct E as (order & rest & Hp & Hcl & Hkeys & Hfr & Hor & Hok & Hex). destruct (Hex e eq_refl) as (done & i & -> & Hi).
    rewrite live_keys in Hkeys. exists done, i. split; [exact Hcl|]. intros w2 r d2 w3 E2.
    apply object_run in E2; [|apply good_safe; [exact G|exact Hkeys]].
    destruct E2 as (o2 & rest2 & Hp2 & Hcl2 & Hk2 & _ & _ & Hok2 & Hex2). rewrite Hi in Hp2.
    pose proof (order_nodup k args ops G HA HN) as Hnd. rewrite Hp, <- app_assoc in Hnd. cbn [app] in Hnd.
    assert (Ho : exists o, o2 = i :: o /\ rest = o ++ rest2).
    { destruct o2 as [|j o].
      - exfalso. cbn [app] in Hp2. inversion Hcl2; subst. destruct (Hok2 eq_refl) as (Hz & _). congruence.
      - cbn [app] in Hp2. injection Hp2 as -> ->. exists o. split; reflexivity. }
    destruct Ho as (o & -> & ->). exists o. split; [exact Hcl2|].
    split.
    { replace (done ++ i :: o ++ rest2) with ((done ++ i :: o) ++ rest2) in Hnd by (rewrite <- app_assoc; reflexivity).
      apply (nodup_app_l _ _ _ Hnd). }
    split.
    { intros j Hj. apply (makes_iff k args ops G HA). rewrite Hp, <- app_assoc. cbn [app]. apply in_app_iff. right. right. apply in_app_iff. left. exact Hj. }
    intros Hr. destruct (Hok2 Hr) as (-> & Hall2). split.
    - intros j. rewrite (makes_iff k args ops G HA), Hp, app_nil_r, <- app_assoc. reflexivity.
    - eapply nothing_left; [exact G| |exact Hall2]. congruence.
  Qed.

  (** ** Any object *)

  Lemma getattr_in d a : has d a -> getattr d a <> None.
  Proof. intros (v & Hv). apply key_get. apply in_map_iff. exists (a, v). split; [reflexivity|exact Hv]. Qed.

  Lemma missing_ok L U d w : never_fails cl -> (forall u, In u U -> has d u) ->
    exists s', close cl L U (d, w) = (Ok tt, s').
  Proof.
    intros Hc HU.
    assert (H1 : forall l nm d w, exists n d1 w1, close_attrs cl l nm (d, w) = (Ok n, (d1, w1)) /\ forall x, getattr d x <> None -> getattr d1 x <> None).
    { induction l as [|a t IH]; intros nm d0 w0; cbn [close_attrs].
      - exists nm, d0, w0. split; [reflexivity|auto].
      - unfold mbind. destruct (close_attr cl a nm (d0, w0)) as [r1 [d1 w1]] eqn:E1. apply close_attr_run in E1.
        assert (Hs : (exists n, r1 = Ok n) /\ forall x, getattr d0 x <> None -> getattr d1 x <> None).
        { assert (Hset : forall x, getattr d0 x <> None -> getattr (setattr d0 a ANone) x <> None).
          { intros x Hx. destruct (str_dec x a) as [->|Nx]; [rewrite get_set_same; discriminate|rewrite get_set_other; assumption]. }
          destruct (will d0 a) as [i|].
          - destruct (Hc i w0) as (w2 & E2). rewrite E2 in E1. destruct E1 as (Hn & _ & ->). split; [exact Hn|exact Hset].
          - destruct E1 as (Hn & _ & [[-> _]|[-> _]]); split; [exact Hn|auto|exact Hn|exact Hset]. }
        destruct Hs as ((n & ->) & Hx). destruct (IH n d1 w1) as (n2 & d2 & w2 & E2 & Hx2). exists n2, d2, w2. split; [exact E2|]. auto. }
    unfold close, mbind. destruct (H1 L None d w) as (n & d1 & w1 & E & Hx). rewrite E.
    destruct (unrefs_run n U d1 w1) as (d2 & E2 & _).
    { intros u Hu. apply Hx. apply getattr_in. apply HU. exact Hu. }
    exists (d2, w1). exact E2.
  Qed.
End Main.

Section Frame.
  Context {W : Type}.
  Variable cl : Z -> M W unit.

  Lemma set_frame d a v x y : x <> a -> (In (x, y) (setattr d a v) <-> In (x, y) d).
  Proof.
    intros N. unfold setattr. induction d as [|[c z] t IH]; cbn [dset].
    - split; [intros [E|[]]; injection E as -> _; congruence|intros []].
    - destruct (str_eqb a c) eqn:E.
      + apply str_eqb_eq in E. subst c. cbn [In]. split; intros [H|H]; try (injection H as -> _; congruence); right; exact H.
      + cbn [In]. rewrite IH. reflexivity.
  Qed.

  Lemma close_frame L U d w r d' w' x y : close cl L U (d, w) = (r, (d', w')) -> ~ In x L -> ~ In x U -> (In (x, y) d' <-> In (x, y) d).
  Proof.
    assert (H1 : forall l nm d w r d1 w1, close_attrs cl l nm (d, w) = (r, (d1, w1)) -> ~ In x l -> (In (x, y) d1 <-> In (x, y) d)).
    { induction l as [|a t IH]; intros nm d0 w0 r0 d1 w1 E N; cbn [close_attrs] in E.
      - injection E as <- <- <-. reflexivity.
      - unfold mbind in E. destruct (close_attr cl a nm (d0, w0)) as [r1 [d2 w2]] eqn:E1. apply close_attr_run in E1.
        assert (Hs : In (x, y) d2 <-> In (x, y) d0).
        { assert (Hset : In (x, y) (setattr d0 a ANone) <-> In (x, y) d0) by (apply set_frame; intros ->; apply N; left; reflexivity).
          destruct (will d0 a) as [i|].
          - destruct (cl i w0) as [[u|e] w3]; destruct E1 as (_ & _ & ->); [exact Hset|reflexivity].
          - destruct E1 as (_ & _ & [[-> _]|[-> _]]); [reflexivity|exact Hset]. }
        destruct r1 as [n|e]; [|injection E as <- <- <-; exact Hs].
        rewrite (IH n d2 w2 _ _ _ E); [exact Hs|]. intros Hx. apply N. right. exact Hx. }
    assert (H2 : forall nm l d w r d1 w1, mfor l (unref_attr nm) (d, w : W) = (r, (d1, w1)) -> ~ In x l -> (In (x, y) d1 <-> In (x, y) d)).
    { intros nm. induction l as [|a t IH]; intros d0 w0 r0 d1 w1 E N; cbn [mfor] in E.
      - injection E as <- <- <-. reflexivity.
      - unfold mbind in E. destruct (unref_attr nm a (d0, w0)) as [r1 [d2 w2]] eqn:E1.
        assert (Hs : In (x, y) d2 <-> In (x, y) d0).
        { unfold unref_attr, mbind, gets, modify, ret, throw in E1. cbn [fst snd] in E1. destruct (getattr d0 a) as [v|].
          - destruct (truthy_val v); injection E1 as <- <- <-; [|reflexivity]. apply set_frame. intros ->. apply N. left. reflexivity.
          - destruct nm; injection E1 as <- <- <-; reflexivity. }
        destruct r1 as [n|e]; [|injection E as <- <- <-; exact Hs].
        rewrite (IH d2 w2 _ _ _ E); [exact Hs|]. intros Hx. apply N. right. exact Hx. }
    intros E NL NU. unfold close, mbind in E. destruct (close_attrs cl L None (d, w)) as [r1 [d1 w1]] eqn:E1.
    pose proof (H1 _ _ _ _ _ _ _ E1 NL) as A1. destruct r1 as [n|e]; [|injection E as <- <- <-; exact A1].
    rewrite (H2 _ _ _ _ _ _ _ E NU). exact A1.
  Qed.
End Frame.
