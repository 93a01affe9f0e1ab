(** Specification vocabulary for how values are written for people (C69). *)
From Coq Require Import QArith Qabs.
From Verif Require Import Base M_Text M_Human S_Human M_Fmt.

(** A word: something without spaces and commas. *)
Definition unbroken (t : str) : Prop := ~ In " "%char t /\ ~ In ","%char t.
Definition word (t : str) : Prop := t <> [] /\ unbroken t.

(** The word is read as the value by the 'config' commands: exactly, or to about half a percent. Less than a billionth is
    not seen. *)
Definition exactly (unit : str) (t : str) (v : Q) : Prop :=
  word t /\ exists w, parse_human t unit None false = Ok (HFloat w) /\ (w == v)%Q.
Definition about (unit : str) (t : str) (v : Q) : Prop :=
  word t /\ exists w, parse_human t unit None false = Ok (HFloat w) /\
    (Qabs (w - v) <= (1 # 200) * Qabs v \/ Qabs (w - v) <= (1 # 200) * (1 # 1000000000))%Q.
(** To a second. *)
Definition to_a_second (t : str) (v : Q) : Prop :=
  word t /\ exists w, parse_human t (s2l "s") None false = Ok (HFloat w) /\ (Qabs (w - v) < 1)%Q.

(** "a, b, c" *)
Inductive listed : list str -> str -> Prop :=
| L_one t : listed [t] t
| L_more t ts r : listed ts r -> listed (t :: ts) (t ++ s2l ", " ++ r).

(** first, first + step, ..., n more numbers after the first *)
Fixpoint progression (first step : Z) (n : nat) : list Z :=
  match n with O => [first] | S k => first :: progression (first + step) step k end.

(** What the text of a list of numbers says: the numbers one by one, or "a - b with step c", with one more number or not. *)
Inductive stands (num : str -> Z -> Prop) : str -> list Z -> Prop :=
| St_each ts vs txt : Forall2 num ts vs -> listed ts txt -> stands num txt vs
| St_steps tf tl ts f st n : num tf f -> num tl (f + Z.of_nat n * st) -> num ts st -> st <> 0 -> (0 < n)%nat ->
    stands num (tf ++ s2l " - " ++ tl ++ s2l " with step " ++ ts) (progression f st n)
| St_more tf tl ts tt f st n v : num tf f -> num tl (f + Z.of_nat n * st) -> num ts st -> st <> 0 -> (0 < n)%nat -> num tt v ->
    stands num (tf ++ s2l " - " ++ tl ++ s2l " with step " ++ ts ++ s2l ", " ++ tt) (progression f st n ++ [v]).

(** At most three digits before and two after the point, in the unit with a prefix. *)
Definition short (v : Z) : Prop :=
  0 < v /\ (v < 1000 \/ exists k, In k [3; 6; 9; 12; 15; 18] /\ 10 ^ k <= v < 10 ^ (k + 3) /\ (10 ^ (k - 2) | v)).

(** The differences of neighbours. *)
Fixpoint differences (l : list Z) : list Z :=
  match l with
  | a :: (b :: _) as t => (b - a) :: differences t
  | _ => []
  end.

(** The units of the numbers are units pepc knows. *)
Definition units_ok (v : pvalue) : Prop :=
  match v with PNumb u _ | PNums u _ => base_unit u | _ => True end.

(** "prefix name: action value for CPUs ..." *)
Definition the_line (name : str) (nums action prefix : option str) (v : str) : str :=
  match prefix with Some p => p | None => [] end ++ name ++ s2l ": " ++
  match action with Some a => a ++ s2l " " | None => [] end ++ v ++
  match nums with Some n => s2l " for " ++ n | None => [] end.

(** Texts are between quotes if there are numbers after them. *)
Definition quoted (nums : option str) (v : pvalue) (y : str) : str :=
  match nums, v with
  | Some _, (PText _ | PDict _ | PTexts _) => "'"%char :: y ++ ["'"%char]
  | _, _ => y
  end.
