(** Specification of the properties cache (C77). *)
From Coq Require Import Ascii String.
From Verif Require Import Base M_Text M_PCache.
Open Scope list_scope.
Open Scope Z_scope.

Definition history (V : Type) := list (pcall V * (Z -> scope -> res (list Z))).

(** CPU [x] shares the scope [s] with CPU [cpu] at the time of the call. *)
Definition shares (sib : Z -> scope -> res (list Z)) (cpu : Z) (s : scope) (x : Z) : Prop := exists l, sib cpu s = Ok l /\ In x l.

Section Spec.
  Context {V : Type}.

  (** The call gives a new value to (mechanism, property, CPU). *)
  Definition puts (o : pcall V * (Z -> scope -> res (list Z))) (m p : str) (x : Z) (v : V) : Prop :=
    match fst o with CAdd p' cpu v' m' s => p' = p /\ m' = m /\ v' = v /\ shares (snd o) cpu s x | CRemove _ _ _ _ => False end.
  (** The call takes the value away. *)
  Definition drops (o : pcall V * (Z -> scope -> res (list Z))) (m p : str) (x : Z) : Prop :=
    match fst o with
    | CRemove p' cpu m' s => p' = p /\ m' = m /\ (s = SGlobal \/ shares (snd o) cpu s x)
    | CAdd _ _ _ _ _ => False
    end.

  (** The value of (mechanism, property, CPU) is the last that was given to it, and it was not taken away since. *)
  Definition current (h : history V) (m p : str) (x : Z) (v : V) : Prop :=
    exists pre o post, h = pre ++ o :: post /\ puts o m p x v /\
      forall o', In o' post -> ~ drops o' m p x /\ forall v', ~ puts o' m p x v'.
End Spec.
