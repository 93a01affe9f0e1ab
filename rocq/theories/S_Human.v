(** Specification vocabulary for numbers with units (C46). *)
From Coq Require Import QArith Qabs.
From Verif Require Import Base M_Text S_Text M_Human.

(** ** Numbers *)

(** Blanks around a number: tab, newline, vertical tab, form feed, return, space. *)
Definition white (s : str) : Prop :=
  Forall (fun c => (9 <= nat_of_ascii c <= 13)%nat \/ nat_of_ascii c = 32%nat) s.

Inductive sign_text : str -> Z -> Prop :=
| Sg_none : sign_text [] 1
| Sg_plus : sign_text ["+"%char] 1
| Sg_minus : sign_text ["-"%char] (-1).

Inductive exponent_text : str -> Z -> Prop :=
| Ex_none : exponent_text [] 0
| Ex c st sg ds : c = "e"%char \/ c = "E"%char -> sign_text st sg -> ds <> [] -> Forall is_digit ds ->
    exponent_text (c :: st ++ ds) (sg * spelled ds).

(** [s] is a decimal number of value [q]: sign, digits with at most one point among them, exponent. *)
Inductive number : str -> Q -> Prop :=
| Number b1 st sg ip pt fp et e b2 :
    white b1 -> white b2 -> sign_text st sg ->
    Forall is_digit ip -> Forall is_digit fp -> ip ++ fp <> [] ->
    pt = ["."%char] \/ (pt = [] /\ fp = []) -> exponent_text et e ->
    number (b1 ++ st ++ ip ++ pt ++ fp ++ et ++ b2)
           (inject_Z (sg * spelled (ip ++ fp)) * (10 # 1) ^ (e - Z.of_nat (length fp))).

(** The text of an integer. *)
Inductive integer_text : str -> Z -> Prop :=
| Integer b1 st sg ds b2 :
    white b1 -> white b2 -> sign_text st sg -> ds <> [] -> Forall is_digit ds ->
    integer_text (b1 ++ st ++ ds ++ b2) (sg * spelled ds).

(** ** Units *)

Definition base_unit (u : str) : Prop := In u (map s2l ["B"; "Hz"; "s"; "W"]%string).

(** The SI prefixes with their powers of ten. *)
Definition si_prefix (p : str) (k : Z) : Prop :=
  In (p, k) [([], 0); (s2l "k", 3); (s2l "M", 6); (s2l "G", 9); (s2l "T", 12); (s2l "P", 15);
             (s2l "E", 18); (s2l "m", -3); (s2l "u", -6); (s2l "n", -9)].
(** The binary prefixes with their powers of 1024. *)
Definition binary_prefix (p : str) (k : Z) : Prop :=
  In (p, k) [(s2l "Ki", 1); (s2l "Mi", 2); (s2l "Gi", 3); (s2l "Ti", 4); (s2l "Pi", 5); (s2l "Ei", 6)].
(** Days, hours and minutes, in seconds. *)
Definition time_unit (u : str) (n : Z) : Prop :=
  In (u, n) [(s2l "d", 24 * 60 * 60); (s2l "D", 24 * 60 * 60); (s2l "h", 60 * 60); (s2l "H", 60 * 60);
             (s2l "m", 60); (s2l "M", 60)].

(** [sp] is a unit of the kind [base], of [f] base units. *)
Inductive factor (base : str) : str -> Q -> Prop :=
| F_si p k : si_prefix p k -> factor base (p ++ base) ((10 # 1) ^ k)
| F_binary p k : base = s2l "B" -> binary_prefix p k -> factor base (p ++ base) ((1024 # 1) ^ k)
| F_time sp n : base = s2l "s" -> time_unit sp n -> factor base sp (inject_Z n).

(** A unit with its SI prefix: its base unit, and what it is in base units. *)
Definition si_unit (unit base : str) (f : Q) : Prop :=
  base_unit base /\ exists p k, si_prefix p k /\ unit = p ++ base /\ f = ((10 # 1) ^ k)%Q.
Definition target_unit (target : option str) (base : str) (f : Q) : Prop :=
  match target with None => f = 1%Q | Some tu => si_unit tu base f end.

(** ** Amounts *)

(** What may follow the last unit: white space, in the sense of str.strip() for ASCII. *)
Definition spaces (s : str) : Prop :=
  Forall (fun c => (9 <= nat_of_ascii c <= 13)%nat \/ (28 <= nat_of_ascii c <= 32)%nat) s.

(** A part of a value: the text of the amount, the unit, the amount, and the unit's factor. *)
Record part := Part { p_text : str; p_unit : str; p_amount : Q; p_factor : Q }.
Definition parts_text (ps : list part) : str := concat (map (fun p => p_text p ++ p_unit p) ps).
Definition parts_total (ps : list part) : Q :=
  fold_right (fun p t => p_amount p * p_factor p + t)%Q 0%Q ps.

(** Every part is a number with a unit, an integer if it is not the last part. *)
Definition part_ok (base : str) (p : part) : Prop :=
  number (p_text p) (p_amount p) /\ factor base (p_unit p) (p_factor p).
Definition whole (p : part) : Prop := exists z, integer_text (p_text p) z.
Definition parts_ok (base : str) (ps : list part) : Prop :=
  Forall (part_ok base) ps /\ Forall whole (removelast ps).

(** The answer [r] is [q], rounded to a nearest integer if so asked. *)
Definition answer (integer : bool) (r : hnum) (q : Q) : Prop :=
  match r with
  | HInt z => integer = true /\ (Qabs (inject_Z z - q) <= 1 # 2)%Q
  | HFloat x => integer = false /\ (x == q)%Q
  end.

(** A time of several parts, each smaller than the one before: "1d 5h 10m 2.5s" *)
Definition time_parts (ps : list part) : Prop :=
  ps <> [] /\ parts_ok (s2l "s") ps /\
  Forall (fun p => p_unit p = s2l "s" \/ exists n, time_unit (p_unit p) n) ps /\
  forall l p q r, ps = l ++ p :: q :: r -> (p_factor q < p_factor p)%Q.
