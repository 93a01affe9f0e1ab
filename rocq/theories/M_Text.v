(** Model of the integer and integer-list text helpers of pepclibs/helperlibs/Trivial.py.

    Strings are lists of ASCII characters.  Simplification: non-ASCII text (Unicode digits and blanks)
    and CPython's limit on the number of digits int() accepts are not modelled. *)
From Verif Require Import Base.
From Coq Require Export Ascii String.
From Coq Require Export List.
#[global] Open Scope Z_scope.
#[global] Open Scope list_scope.

Definition str := list ascii.

(** String literals, for examples. *)
Definition s2l (s : string) : str := list_ascii_of_string s.

Definition str_eqb (a b : str) : bool := if list_eq_dec ascii_dec a b then true else false.

(** str.isspace() for ASCII characters, what str.strip() removes. *)
Definition is_space (c : ascii) : bool :=
  let n := Z.of_nat (nat_of_ascii c) in
  ((9 <=? n) && (n <=? 13)) || ((28 <=? n) && (n <=? 32)).

(** Py_ISSPACE: the characters int() skips around an ASCII number. *)
Definition is_cspace (c : ascii) : bool :=
  let n := Z.of_nat (nat_of_ascii c) in
  ((9 <=? n) && (n <=? 13)) || (n =? 32).

Fixpoint lstrip_by (p : ascii -> bool) (l : str) : str :=
  match l with
  | [] => []
  | c :: t => if p c then lstrip_by p t else l
  end.

Definition strip_by (p : ascii -> bool) (l : str) : str :=
  rev (lstrip_by p (rev (lstrip_by p l))).

(** str.strip() and str.strip(sep) for a one-character separator. *)
Definition strip (l : str) : str := strip_by is_space l.
Definition strip_char (sep : ascii) (l : str) : str := strip_by (Ascii.eqb sep) l.

(** str.split(sep) for a one-character separator: never empty. *)
Fixpoint split_on (sep : ascii) (l : str) : list str :=
  match l with
  | [] => [[]]
  | c :: t =>
      if Ascii.eqb sep c then [] :: split_on sep t
      else match split_on sep t with
           | [] => [[c]]
           | w :: ws => (c :: w) :: ws
           end
  end.

(** sep.join(l) for a one-character separator. *)
Fixpoint join (sep : ascii) (l : list str) : str :=
  match l with
  | [] => []
  | [w] => w
  | w :: ws => w ++ sep :: join sep ws
  end.

(** ** Integers *)

(** The value of a digit or letter in int(), 0-35. *)
Definition digit_val (c : ascii) : option Z :=
  let n := Z.of_nat (nat_of_ascii c) in
  if (48 <=? n) && (n <=? 57) then Some (n - 48)
  else if (97 <=? n) && (n <=? 122) then Some (n - 97 + 10)
  else if (65 <=? n) && (n <=? 90) then Some (n - 65 + 10)
  else None.

(** The digit scanner of CPython's int(): digits of the base with single underscores between them;
    stops at the first other character.  'us' tells that the previous character was "_". *)
Fixpoint scan_digits (base : Z) (l : str) (us : bool) (acc : Z) : option (Z * str) :=
  match l with
  | [] => if us then None else Some (acc, [])
  | c :: t =>
      if Ascii.eqb c "_" then (if us then None else scan_digits base t true acc)
      else match digit_val c with
           | Some d => if d <? base then scan_digits base t false (acc * base + d)
                       else if us then None else Some (acc, l)
           | None => if us then None else Some (acc, l)
           end
  end.

(** The digits of an int() literal must start with a digit, and only blanks may follow them. *)
Definition int_digits (base : Z) (l : str) : option Z :=
  match l with
  | [] => None
  | c :: _ =>
      match digit_val c with
      | Some d =>
          if d <? base then
            match scan_digits base l false 0 with
            | Some (v, rest) => if forallb is_cspace rest then Some v else None
            | None => None
            end
          else None
      | None => None
      end
  end.

(** After a "0x", "0o" or "0b" prefix one underscore is skipped. *)
Definition skip_us (l : str) : str :=
  match l with
  | c :: t => if Ascii.eqb c "_" then t else l
  | [] => []
  end.

(** int(s, 0) after the sign: the base comes from the prefix, and a decimal number with a leading
    zero must be zero. *)
Definition int_base0 (l : str) : option Z :=
  match l with
  | c :: t =>
      if Ascii.eqb c "0" then
        match t with
        | x :: t' =>
            if (Ascii.eqb x "x" || Ascii.eqb x "X")%bool then int_digits 16 (skip_us t')
            else if (Ascii.eqb x "o" || Ascii.eqb x "O")%bool then int_digits 8 (skip_us t')
            else if (Ascii.eqb x "b" || Ascii.eqb x "B")%bool then int_digits 2 (skip_us t')
            else match int_digits 10 l with
                 | Some v => if v =? 0 then Some v else None
                 | None => None
                 end
        | [] => int_digits 10 l
        end
      else int_digits 10 l
  | [] => None
  end.

(** int(s, 0). *)
Definition py_int0 (s : str) : option Z :=
  match lstrip_by is_cspace s with
  | c :: t =>
      if Ascii.eqb c "+" then int_base0 t
      else if Ascii.eqb c "-" then option_map Z.opp (int_base0 t)
      else int_base0 (c :: t)
  | [] => None
  end.

(** pepclibs/helperlibs/Trivial.py:89-127 'str_to_int()' with the default base.  Simplification: only
    base 0; a non-zero base is never passed by the modelled callers. *)
Definition str_to_int (s : str) : res Z :=
  match py_int0 s with
  | Some v => Ok v
  | None => Exn EBadFormat
  end.

(** str(n) of an integer: decimal digits, most significant first. *)
Definition digit_char (d : Z) : ascii := ascii_of_nat (Z.to_nat (48 + d)).

Fixpoint dec_digits (fuel : nat) (n : Z) (acc : str) : str :=
  match fuel with
  | O => acc
  | S f => let acc' := digit_char (n mod 10) :: acc in
           if n / 10 =? 0 then acc' else dec_digits f (n / 10) acc'
  end.

Definition dec_nat (n : Z) : str := dec_digits (S (Z.to_nat (Z.log2 n))) n [].

Definition dec (n : Z) : str := if n <? 0 then "-"%char :: dec_nat (- n) else dec_nat n.

(** ** Lists of integers *)

(** pepclibs/helperlibs/Trivial.py:295-321 'split_csv_line()'. *)
Definition split_csv_line (sep : ascii) (ddup keep_empty : bool) (line : str) : list str :=
  let line := if keep_empty then line else strip_char sep line in
  let result :=
    flat_map (fun val => match val with
                         | [] => if keep_empty then [strip val] else []
                         | _ => [strip val]
                         end) (split_on sep line) in
  if ddup then list_dedup str_eqb result else result.

(** range(a, b + 1) as a list. *)
Definition zrange (a b : Z) : list Z :=
  map (fun i => a + Z.of_nat i) (seq 0 (Z.to_nat (b - a + 1))).

Definition nonemptyb (l : str) : bool := match l with [] => false | _ => true end.

Definition has_char (c : ascii) (l : str) : bool := existsb (Ascii.eqb c) l.

(** pepclibs/helperlibs/Trivial.py:351-366: one value of 'split_csv_line_int()'. *)
Definition parse_item (val : str) : res (list Z) :=
  if has_char "-" val then
    match filter nonemptyb (split_on "-" val) with
    | [r0; r1] =>
        let? a := str_to_int r0 in
        let? b := str_to_int r1 in
        if b <? a then Exn EBadFormat else Ok (zrange a b)
    | _ => Exn EBadFormat
    end
  else
    let? a := str_to_int val in Ok [a].

(** pepclibs/helperlibs/Trivial.py:323-368 'split_csv_line_int()'. *)
Definition split_csv_line_int (sep : ascii) (ddup : bool) (line : str) : res (list Z) :=
  let? ls := rmap (split_csv_line sep ddup false line) parse_item in Ok (concat ls).

(** An element of the argument of 'parse_int_list()': a string or an integer. *)
Inductive num_or_str := NNum (n : Z) | NStr (s : str).

Definition nstr (x : num_or_str) : str := match x with NNum n => dec n | NStr s => s end.

(** pepclibs/helperlibs/Trivial.py:370-397 'parse_int_list()'; a bare number or string is the
    one-element list, as in lines 392-393. *)
Definition parse_int_list (sep : ascii) (ddup : bool) (nums : list num_or_str) : res (list Z) :=
  split_csv_line_int sep ddup (join sep (map nstr nums)).

(** itertools.groupby() over (index, number) pairs with the key "index - number". *)
Fixpoint group_pairs (l : list (Z * Z)) : list (list (Z * Z)) :=
  match l with
  | [] => []
  | p :: t =>
      match group_pairs t with
      | (q :: g) :: gs =>
          if fst p - snd p =? fst q - snd q then (p :: q :: g) :: gs else [p] :: (q :: g) :: gs
      | gs => [p] :: gs
      end
  end.

(** enumerate(l). *)
Fixpoint enum_from (i : Z) (l : list Z) : list (Z * Z) :=
  match l with
  | [] => []
  | x :: t => (i, x) :: enum_from (i + 1) t
  end.

(** pepclibs/helperlibs/Trivial.py:418-423: the text of one group. *)
Definition group_strs (nums : list Z) : list str :=
  match nums with
  | a :: _ :: _ :: _ => [dec a ++ "-"%char :: dec (last nums a)]
  | _ => map dec nums
  end.

(** pepclibs/helperlibs/Trivial.py:399-425 'rangify()'.  Simplification: the numbers are integers
    (strings are converted by int() first, which is the caller's input decoding). *)
Definition rangify (numbers : list Z) : str :=
  join "," (flat_map (fun g => group_strs (map snd g)) (group_pairs (enum_from 0 (zsort numbers)))).
