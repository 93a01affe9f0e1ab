(** Model of the ranges of numbers with units and of the first letters of sentences (pepclibs/helperlibs/Human.py). *)
From Coq Require Import Ascii String QArith.
From Verif Require Import Base M_Text M_Human M_Osa.
Open Scope list_scope.

(** The value of a number *)
Definition hq (n : hnum) : Q := match n with HInt z => inject_Z z | HFloat q => q end.

(** round() of an integer is the integer. *)
Definition hround (n : hnum) : hnum := match n with HInt z => HInt z | HFloat q => HInt (qround q) end.

(** Human.py:516-567 parse_human_range(), with a separator of one character. Numbers are exact here and floats there. *)
Definition parse_human_range (rng unit : str) (target : option str) (integer : bool) (sep : ascii) : res (hnum * hnum) :=
  match split_csv_line sep false false rng with
  | [x; y] =>
      let? a := parse_human x unit target integer in
      let? b := parse_human y unit target integer in
      match Qcompare (hq b) (hq a) with
      | Lt => Exn EError
      | Eq => Exn EError
      | Gt => Ok (if integer then (hround a, hround b) else (a, b))
      end
  | _ => Exn EError
  end.

(** str.islower(), str.isupper(), str.isdigit() of one ASCII character *)
Definition char_in (lo hi : nat) (c : ascii) : bool := ((lo <=? nat_of_ascii c) && (nat_of_ascii c <=? hi))%nat.
Definition is_lower (c : ascii) : bool := char_in 97 122 c.
Definition is_upper (c : ascii) : bool := char_in 65 90 c.
Definition is_dec (c : ascii) : bool := char_in 48 57 c.

(** Human.py:569-608 uncapitalize() *)
Definition uncapitalize (sentence : str) : str :=
  let word := hd [] (split_on " " sentence) in
  if (length word <? 2)%nat then sentence
  else
    let word := hd [] (split_on "-" word) in
    match word with
    | c :: d :: _ =>
        if is_lower c || is_upper d then sentence
        else if existsb is_dec word then sentence
        else match sentence with [] => [] | c :: t => lower_char c :: t end
    | _ => sentence
    end.
