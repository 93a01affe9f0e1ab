(** Independent vocabulary for the number-list properties: decimal numerals, items, blanks. *)
From Verif Require Import Base M_Text.

(** The decimal digits and the value they spell. *)
Definition is_digit (c : ascii) : Prop := (48 <= nat_of_ascii c <= 57)%nat.
Definition spelled (s : str) : Z :=
  fold_left (fun v c => 10 * v + (Z.of_nat (nat_of_ascii c) - 48)) s 0.

(** 's' is the usual decimal numeral of the non-negative integer 'n': digits only, no useless leading
    zero. *)
Definition numeral (s : str) (n : Z) : Prop :=
  s <> [] /\ Forall is_digit s /\ spelled s = n /\ (hd "0"%char s = "0"%char -> s = ["0"%char]).

(** Spaces and tabs. *)
Definition blanks (s : str) : Prop := Forall (fun c => c = " "%char \/ c = "009"%char) s.

(** One element of a number list: a number, a range, or nothing between two commas. *)
Inductive item := INum (n : Z) | IRange (a b : Z) | IEmpty.

Inductive written : item -> str -> Prop :=
| W_num n s b1 b2 : numeral s n -> blanks b1 -> blanks b2 -> written (INum n) (b1 ++ s ++ b2)
| W_range a b s t b1 b2 b3 b4 :
    numeral s a -> numeral t b -> blanks b1 -> blanks b2 -> blanks b3 -> blanks b4 ->
    written (IRange a b) (b1 ++ s ++ b2 ++ "-"%char :: b3 ++ t ++ b4)
| W_empty : written IEmpty [].

(** a, a + 1, ... ('k' numbers). *)
Fixpoint count_up (a : Z) (k : nat) : list Z :=
  match k with
  | O => []
  | S k' => a :: count_up (a + 1) k'
  end.

(** The numbers an element stands for. *)
Definition meaning (i : item) : list Z :=
  match i with
  | INum n => [n]
  | IRange a b => count_up a (Z.to_nat (b - a + 1))
  | IEmpty => []
  end.

Definition descending (i : item) : Prop :=
  match i with IRange a b => b < a | _ => False end.

(** "a,b,c" *)
Fixpoint commas (l : list str) : str :=
  match l with
  | [] => []
  | [w] => w
  | w :: ws => w ++ ","%char :: commas ws
  end.

(** The members of 'l' in order of first occurrence, without the ones already 'seen'. *)
Fixpoint firsts (seen l : list Z) : list Z :=
  match l with
  | [] => []
  | x :: t => if in_dec Z.eq_dec x seen then firsts seen t else x :: firsts (x :: seen) t
  end.

Definition plain (i : item) : Prop := match i with IRange _ _ => False | _ => True end.
