(** Independent vocabulary for typo suggestions: optimal string alignment. *)
From Verif Require Import Base M_Text.

(** What can be done to a piece of the text, and its price: keep a character, replace it, delete it,
    insert one, or swap two neighbours. *)
Inductive piece : str -> str -> Z -> Prop :=
| P_keep c : piece [c] [c] 0
| P_replace c d : piece [c] [d] 1
| P_delete c : piece [c] [] 1
| P_insert c : piece [] [c] 1
| P_swap c d : piece [c; d] [d; c] 1.

(** 'a' is turned into 'b' piece by piece, from left to right, for a total price of 'n'. *)
Inductive aligned : str -> str -> Z -> Prop :=
| A_nil : aligned [] [] 0
| A_cons p q k a b n : piece p q k -> aligned a b n -> aligned (p ++ a) (q ++ b) (k + n).

(** The distance: the cheapest way. *)
Definition is_distance (a b : str) (d : Z) : Prop :=
  aligned a b d /\ forall n, aligned a b n -> d <= n.

(** Equality up to the case of ASCII letters: the same letter of the alphabet, or the same
    character. *)
Definition same_letter (c d : ascii) : Prop :=
  c = d \/
  (65 <= nat_of_ascii c <= 90 /\ nat_of_ascii d = nat_of_ascii c + 32)%nat \/
  (65 <= nat_of_ascii d <= 90 /\ nat_of_ascii c = nat_of_ascii d + 32)%nat.
