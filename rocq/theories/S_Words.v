(** Specification of ranges and first letters (C83). *)
From Coq Require Import Ascii String QArith.
From Verif Require Import Base M_Text M_Human S_Systemd S_Ident.
Open Scope list_scope.

(** The value of a number. *)
Definition value_of (n : hnum) (q : Q) : Prop := match n with HInt z => q = inject_Z z | HFloat r => q = r end.
Definition less (a b : hnum) : Prop := exists p q, value_of a p /\ value_of b q /\ (p < q)%Q.

(** Two texts with a separator between them, and white space around them. *)
Definition pair_text (sep : ascii) (x y rng : str) : Prop :=
  ~ In sep x /\ ~ In sep y /\ tight x /\ tight y /\ x <> [] /\ y <> [] /\ is_space sep = false /\
  exists a b c d, S_Systemd.spaces a /\ S_Systemd.spaces b /\ S_Systemd.spaces c /\ S_Systemd.spaces d /\ rng = (a ++ x ++ b) ++ sep :: c ++ y ++ d.

Definition between (lo hi : nat) (c : ascii) : Prop := (lo <= nat_of_ascii c <= hi)%nat.
Definition lower_case := between 97 122.
Definition upper_case := between 65 90.
Definition a_digit := between 48 57.

(** The first word of a sentence: up to a space or a hyphen. *)
Definition first_word (sentence w rest : str) : Prop :=
  sentence = w ++ rest /\ ~ In " "%char w /\ ~ In "-"%char w /\ (rest = [] \/ exists t, rest = " "%char :: t \/ rest = "-"%char :: t).
(** A word to which the rule applies: two letters at least, the first one not in lower case, the second one not in upper case, and no digits. *)
Definition ordinary (w : str) : Prop :=
  exists c d t, w = c :: d :: t /\ ~ lower_case c /\ ~ upper_case d /\ Forall (fun x => ~ a_digit x) w.
(** The letter in lower case. *)
Definition lowered (c d : ascii) : Prop := (upper_case c /\ nat_of_ascii d = nat_of_ascii c + 32)%nat \/ (~ upper_case c /\ d = c).
