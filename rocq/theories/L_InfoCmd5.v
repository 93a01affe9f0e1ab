(** Lemmas for C71: the 'cstates info' command as a whole; mechanisms that no table has in common. *)
From Coq Require Import Ascii String ZifyBool.
From Verif Require Import Base L_Base L_Monad M_CPUInfo S_CPUInfo M_Text S_Text L_Text M_Human M_CPUIdle M_CSave M_Props S_Props L_Props
  M_OpTarget M_Print S_Print L_Print3 M_InfoCmd S_InfoCmd L_InfoCmd L_InfoCmd2 L_InfoCmd3 L_InfoCmd4.

Section Command.
  Context {St V : Type}.
  Variable cls : pclass St V.
  Variable subs : Z -> list Z.
  Variable tab : list (str * Z).
  Variable types : Z -> ptype.
  Variable global : Z -> bool.
  Variable blank : V -> bool.
  Variable mc : machine.
  Variable descr : str.

  Lemma props_as_info yaml mechs ms (oargs : option (list Z)) o n s s' : allowed_mechs tab mechs = Ok ms ->
    print_props cls types global blank yaml (pnames_of cls subs oargs) ms (skipping oargs) (skipping oargs) s = (Ok (o, n), s') ->
    props_info cls subs tab types global blank (IA yaml mechs oargs) s = (Ok ([o] ++ (if n =? 0 then [ONothing] else [])), s').
  Proof.
    intros Hm H. unfold props_info. cbn [ia_mechs ia_oargs ia_yaml]. unfold mbind at 1, lift. rewrite Hm.
    destruct oargs as [l|]; cbn [pnames_of skipping] in H; unfold mbind; rewrite H; cbn [ret fst snd app]; unfold nothing; reflexivity.
  Qed.

  Lemma on_cs_inv {A} (m : M idle A) (s : idle * @pstate St V) x s' : on_cs m s = (Ok x, s') -> m (fst s) = (Ok x, fst s') /\ snd s' = snd s.
  Proof. unfold on_cs. destruct (m (fst s)) as (r, s1). intros [= -> <-]. now split. Qed.
  Lemma on_pr_inv {A} (m : M (@pstate St V) A) (s : idle * @pstate St V) x s' : on_pr m s = (Ok x, s') -> m (snd s) = (Ok x, snd s') /\ fst s' = fst s.
  Proof. unfold on_pr. destruct (m (snd s)) as (r, s1). intros [= -> <-]. now split. Qed.

  Lemma cstates_command args cs s out s' : ia_oargs args <> Some [] ->
    cstates_info cls subs tab types global blank mc descr args cs s = (Ok out, s') ->
    let default := ia_oargs args = None /\ cs = CsDefault in
    exists o1 n1 o2 n2 sp,
      out = o1 ++ o2 ++ (if n1 + n2 =? 0 then [ONothing] else []) /\
      ((default \/ cs <> CsDefault) /\
       (exists cpus group, on_target (ot_get_cpus (pc_ci cls)) (snd s) = (Ok cpus, sp) /\ (group = true <-> default) /\
          print_cstates (V := V) mc descr (ia_yaml args) (match cs with CsGiven t => t | _ => s2l "all"%string end) cpus group None (fst s) = (Ok (o1, n1), fst s'))
       \/ (~ default /\ cs = CsDefault) /\ o1 = [] /\ n1 = 0 /\ fst s' = fst s /\ sp = snd s) /\
      ((default \/ ia_oargs args <> None) /\
       props_info cls subs tab types global blank args sp = (Ok (o2 ++ (if n2 =? 0 then [ONothing] else [])), snd s') /\ o2 <> [] /\ ~ In ONothing o2
       \/ (~ default /\ ia_oargs args = None) /\ o2 = [] /\ n2 = 0 /\ snd s' = sp).
  Proof.
    intros Hne H default. destruct args as [yaml mechs oargs]. cbn [ia_oargs ia_yaml ia_mechs] in *. unfold cstates_info in H. cbn [ia_oargs ia_yaml ia_mechs] in H.
    apply lift_bind in H as [(ms & Hms & H)|(e & _ & [=] & _)].
    assert (HN : forall yaml p skip group o n sa sb, print_props cls types global blank yaml p ms skip group sa = (Ok (o, n), sb) -> o <> ONothing).
    { intros y p skip group o n sa sb E. unfold print_props in E. unfold mbind at 1 in E. destruct (aggr_props _ _ _ _ _ _ sa) as ([a|e], s1); [|discriminate E].
      destruct y; apply lift_bind in E as [(z & _ & E)|(e & _ & [=] & _)]; injection E as <- _ _; discriminate. }
    assert (HP : forall o sa sb n, print_props cls types global blank yaml (pnames_of cls subs oargs) ms (skipping oargs) (skipping oargs) sa = (Ok (o, n), sb) ->
              props_info cls subs tab types global blank (IA yaml mechs oargs) sa = (Ok ([o] ++ (if n =? 0 then [ONothing] else [])), sb) /\ [o] <> [] /\ ~ In ONothing [o]).
    { intros o sa sb n E. split; [now apply (props_as_info yaml mechs ms)|]. split; [discriminate|]. intros [E'|[]]. exact (HN _ _ _ _ _ _ _ _ E E'). }
    assert (DEC : (oargs = None /\ cs = CsDefault) \/ ~ (oargs = None /\ cs = CsDefault)).
    { destruct oargs; [right; intros ([=] & _)|]. destruct cs; [now left|right; intros (_ & [=])|right; intros (_ & [=])]. }
    destruct DEC as [D|D].
    - assert (D' := D). destruct D' as (-> & ->).
      unfold mbind in H at 1. destruct (on_pr _ s) as ([cpus|e], sa) eqn:E1; [|discriminate H]. apply on_pr_inv in E1 as (E1 & F1).
      unfold mbind in H at 1. destruct (on_cs _ sa) as ([(o1, n1)|e], sb) eqn:E2; [|discriminate H]. apply on_cs_inv in E2 as (E2 & F2).
      unfold mbind in H at 1. destruct (on_pr _ sb) as ([(o2, n2)|e], sc) eqn:E3; [|discriminate H]. apply on_pr_inv in E3 as (E3 & F3).
      injection H as <- <-. exists o1, n1, [o2], n2, (snd sa). split; [reflexivity|]. split.
      + left. split; [now left|]. exists cpus, true. split; [exact E1|]. split; [split; [intros _; exact D|reflexivity]|]. rewrite F3, <- F1. exact E2.
      + left. split; [now left|]. rewrite F2 in E3. exact (HP _ _ _ _ E3).
    - assert (H' : (let! (o1, n1) := (match cs with
                          | CsDefault => ret ([], 0)
                          | CsBare => let! cpus := on_pr (on_target (ot_get_cpus (pc_ci cls))) in on_cs (print_cstates mc descr yaml (s2l "all"%string) cpus false None)
                          | CsGiven t => let! cpus := on_pr (on_target (ot_get_cpus (pc_ci cls))) in on_cs (print_cstates mc descr yaml t cpus false None)
                          end) in
        let! (o2, n2) := (match expand_subprops cls subs (match oargs with Some l => l | None => [] end) with
                          | [] => ret ([], 0)
                          | l => let! (o, n) := on_pr (print_props cls types global blank yaml (Some l) ms false false) in ret ([o], n)
                          end) in
        ret (o1 ++ o2 ++ nothing (n1 + n2))) s = (Ok out, s')).
      { destruct oargs as [l|]; [exact H|]. destruct cs; [exfalso; apply D; now split|exact H|exact H]. }
      clear H. unfold mbind at 1 in H'.
      match type of H' with context [match ?x with _ => _ end] => destruct x as ([(o1, n1)|e], sa) eqn:E1 end; [|discriminate H'].
      assert (P1 : exists sp, snd sa = sp /\
        ((default \/ cs <> CsDefault) /\
         (exists cpus group, on_target (ot_get_cpus (pc_ci cls)) (snd s) = (Ok cpus, sp) /\ (group = true <-> default) /\
            print_cstates (V := V) mc descr yaml (match cs with CsGiven t => t | _ => s2l "all"%string end) cpus group None (fst s) = (Ok (o1, n1), fst sa))
         \/ (~ default /\ cs = CsDefault) /\ o1 = [] /\ n1 = 0 /\ fst sa = fst s /\ sp = snd s)).
      { exists (snd sa). split; [reflexivity|]. destruct cs as [| |t].
        - right. injection E1 as <- <- <-. repeat (split; [first [exact D|reflexivity]|]); try reflexivity. split; [split; [exact D|reflexivity]|]. repeat split; reflexivity.
        - left. split; [right; discriminate|]. unfold mbind at 1 in E1. destruct (on_pr _ s) as ([cpus|e], sb) eqn:E2; [|discriminate E1]. apply on_pr_inv in E2 as (E2 & F2).
          apply on_cs_inv in E1 as (E1 & F1). exists cpus, false. rewrite F1. split; [exact E2|]. split; [split; [discriminate|intros d; contradiction]|]. rewrite <- F2. exact E1.
        - left. split; [right; discriminate|]. unfold mbind at 1 in E1. destruct (on_pr _ s) as ([cpus|e], sb) eqn:E2; [|discriminate E1]. apply on_pr_inv in E2 as (E2 & F2).
          apply on_cs_inv in E1 as (E1 & F1). exists cpus, false. rewrite F1. split; [exact E2|]. split; [split; [discriminate|intros d; contradiction]|]. rewrite <- F2. exact E1. }
      destruct P1 as (sp & Hsp & P1). unfold mbind at 1 in H'.
      match type of H' with context [match ?x with _ => _ end] => destruct x as ([(o2, n2)|e], sb) eqn:E2 end; [|discriminate H'].
      injection H' as <- <-. exists o1, n1, o2, n2, sp. split; [reflexivity|].
      assert (P2 : fst sb = fst sa /\ ((default \/ oargs <> None) /\
         props_info cls subs tab types global blank (IA yaml mechs oargs) sp = (Ok (o2 ++ (if n2 =? 0 then [ONothing] else [])), snd sb) /\ o2 <> [] /\ ~ In ONothing o2
         \/ (~ default /\ oargs = None) /\ o2 = [] /\ n2 = 0 /\ snd sb = sp)).
      { destruct oargs as [[|p t]|].
        - contradiction.
        - assert (exists x l, expand_subprops cls subs (p :: t) = x :: l) as (x & l & Ex) by (cbn [expand_subprops]; eauto).
          rewrite Ex in E2. rewrite <- Ex in E2. unfold mbind at 1 in E2.
          destruct (on_pr _ sa) as ([(o, n)|e], sc) eqn:E3; [|discriminate E2]. apply on_pr_inv in E3 as (E3 & F3). injection E2 as <- <- <-.
          split; [exact F3|]. left. split; [right; discriminate|]. rewrite Hsp in E3. exact (HP _ _ _ _ E3).
        - cbn [expand_subprops] in E2. injection E2 as <- <- <-. split; [reflexivity|]. right. split; [split; [exact D|reflexivity]|]. repeat split. exact Hsp. }
      destruct P2 as (Hf & P2). split; [rewrite Hf; exact P1|exact P2].
  Qed.
End Command.

(** No mechanism is in all rows of a table. *)
Definition no_common (rows : list pdesc) : bool := forallb (fun m => existsb (fun d => negb (inb m (pd_mnames d))) rows) (flat_map pd_mnames rows).

Lemma no_common_ok rows m : rows <> [] -> no_common rows = true -> (forall d, In d rows -> In m (pd_mnames d)) -> False.
Proof.
  intros Hne H Ha. unfold no_common in H. rewrite forallb_forall in H. destruct rows as [|d t]; [contradiction|].
  specialize (H m). assert (I : In m (flat_map pd_mnames (d :: t))) by (apply in_flat_map; exists d; split; [now left|apply Ha; now left]).
  apply H in I. apply existsb_exists in I as (d' & I' & N). apply Ha in I'. apply inb_In in I'. rewrite I' in N. discriminate N.
Qed.

Lemma no_mechs_at_all : forall (St V : Type) (cls : pclass St V), NoDup (map fst (pc_props cls)) ->
  (map snd (pc_props cls) = pstates_props \/ map snd (pc_props cls) = cstates_props \/ map snd (pc_props cls) = pmqos_props) ->
  forall subs tab types global blank yaml mechs ws s, NoDup (map fst tab) -> typed_list mechs ws ->
  forall out s', props_info cls subs tab types global blank (IA yaml mechs None) s <> (Ok out, s').
Proof.
  intros St V cls ND Ht subs tab types global blank yaml mechs ws s NT Hw out s' H.
  destruct (props_mechs cls subs tab types global blank NT yaml mechs ws None s out s' Hw H) as (H1 & H2).
  assert (Hne : map snd (pc_props cls) <> []) by (destruct Ht as [ -> |[ -> | -> ]]; discriminate).
  assert (Hc : no_common (map snd (pc_props cls)) = true) by (destruct Ht as [ -> |[ -> | -> ]]; reflexivity).
  destruct Hw as (_ & Hwn & _). destruct ws as [|w ws]; [contradiction|]. assert (I := H1 w (or_introl eq_refl)). apply in_map_iff in I as ((w', m) & E & I). cbn [fst] in E. subst w'.
  apply (no_common_ok _ m Hne Hc). intros d Id. apply in_map_iff in Id as ((p, d') & E & Id). cbn [snd] in E. subst d'.
  destruct (H2 p w m) as (d' & E & J); [cbn [info_names]; apply in_map_iff; now exists (p, d)|now left|exact I|].
  apply (In_dget _ Zeqb_spec _ _ _ ND) in Id. assert (d' = d) as -> by congruence. exact J.
Qed.
