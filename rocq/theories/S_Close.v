(** Specification of closing objects (C76). *)
From Coq Require Import Ascii String.
From Verif Require Import Base M_Text M_Close.
Open Scope list_scope.
Open Scope Z_scope.

(** The arguments are objects or not given. *)
Definition arguments_ok (args : str -> aval) : Prop := forall a, args a = ANone \/ exists i c, args a = AObj i c.

(** The objects made are new: different from each other and from the arguments. *)
Definition new_objects (args : str -> aval) (ops : list (str * Z)) : Prop :=
  NoDup (map snd ops) /\ forall a i c, args a = AObj i c -> ~ In i (map snd ops).

(** The class makes the object [i]: it is the first that is needed for an attribute, and none was given. *)
Definition makes (k : cls) (args : str -> aval) (ops : list (str * Z)) (i : Z) : Prop :=
  exists a h pre post, In (a, h) (k_slots k) /\ (h = Made \/ (h <> Given /\ args a = ANone)) /\
    ops = pre ++ (a, i) :: post /\ ~ In a (map fst pre).

(** The object does not refer to anything. *)
Definition refers_to_nothing (k : cls) (d : attrs) : Prop :=
  forall a h i c, In (a, h) (k_slots k) -> ~ In (a, AObj i c) d.

Section Spec.
  Context {W : Type}.
  Variable cl : Z -> M W unit.

  (** close() of the objects [l] is called, one after the other, until one fails. *)
  Inductive closes : list Z -> W -> res unit -> W -> Prop :=
  | closes_none w : closes [] w (Ok tt) w
  | closes_next i l w w1 r w' : cl i w = (Ok tt, w1) -> closes l w1 r w' -> closes (i :: l) w r w'
  | closes_fails i w e w' : cl i w = (Exn e, w') -> closes [i] w (Exn e) w'.

  Definition never_fails : Prop := forall i w, exists w', cl i w = (Ok tt, w').
End Spec.

(** An attribute of the object is there. *)
Definition has (d : attrs) (a : str) : Prop := exists v, In (a, v) d.
