(** Model of pepclibs/helperlibs/Human.py: numbers with units, in text form.

    Numbers are exact rationals: the rounding errors of binary floating point arithmetic are not
    modelled. Neither are "nan", "inf" and "_" in the texts float() accepts: the model refuses them. *)
From Coq Require Import QArith Qabs.
From Verif Require Import Base M_Text.

(** ** Numbers in text form *)

Definition is_digitb (c : ascii) : bool :=
  let n := Z.of_nat (nat_of_ascii c) in (48 <=? n) && (n <=? 57).

Fixpoint span (p : ascii -> bool) (l : str) : str * str :=
  match l with
  | [] => ([], [])
  | c :: t => if p c then let (a, b) := span p t in (c :: a, b) else ([], l)
  end.

Definition digits_value (l : str) : Z :=
  fold_left (fun v c => 10 * v + (Z.of_nat (nat_of_ascii c) - 48)) l 0.

(** m * 10^e *)
Definition q10 (m e : Z) : Q :=
  if 0 <=? e then inject_Z (m * 10 ^ e) else inject_Z m / inject_Z (10 ^ (- e)).

Definition split_sign (l : str) : Z * str :=
  match l with
  | c :: t => if Ascii.eqb c "+" then (1, t) else if Ascii.eqb c "-" then (-1, t) else (1, l)
  | [] => (1, [])
  end.

(** The exponent part of a float: nothing, or "e", a sign and digits up to the end. *)
Definition exponent (l : str) : option Z :=
  match l with
  | [] => Some 0
  | c :: t =>
      if Ascii.eqb c "e" || Ascii.eqb c "E" then
        let (sg, t) := split_sign t in
        match span is_digitb t with
        | ([], _) => None
        | (ds, []) => Some (sg * digits_value ds)
        | _ => None
        end
      else None
  end.

(** float(s): blanks, sign, digits with a point, exponent, blanks *)
Definition py_float (s : str) : option Q :=
  let (sg, l) := split_sign (strip_by is_cspace s) in
  let (ip, l) := span is_digitb l in
  let (fp, l) := match l with
                 | c :: t => if Ascii.eqb c "." then span is_digitb t else ([], l)
                 | [] => ([], [])
                 end in
  match ip ++ fp, exponent l with
  | [], _ | _, None => None
  | ds, Some e => Some (q10 (sg * digits_value ds) (e - Z.of_nat (length fp)))
  end.

(** int(s), base 10 *)
Definition py_int (s : str) : option Z :=
  match lstrip_by is_cspace s with
  | c :: t =>
      if Ascii.eqb c "+" then int_digits 10 t
      else if Ascii.eqb c "-" then option_map Z.opp (int_digits 10 t)
      else int_digits 10 (c :: t)
  | [] => None
  end.

(** pepclibs/helperlibs/Trivial.py:193-212 is_num() *)
Definition is_num (s : str) : bool :=
  match py_int s with
  | Some _ => true
  | None => match py_float s with Some _ => true | None => false end
  end.

(** pepclibs/helperlibs/Trivial.py:155-174 is_int() of a string *)
Definition is_int (s : str) : bool :=
  match py_int0 s with
  | Some _ => true
  | None => match py_int s with Some _ => true | None => false end
  end.

(** round(): to the nearest integer, ties to even *)
Definition qround (q : Q) : Z :=
  let n := Qnum q in
  let d := Zpos (Qden q) in
  let f := n / d in
  match Z.compare (2 * (n mod d)) d with
  | Lt => f
  | Gt => f + 1
  | Eq => if Z.even f then f else f + 1
  end.

(** f"{value:.{decp}f}": the value rounded to [decp] decimal places, ties to even. A negative value that
    rounds to zero keeps its sign. *)
Fixpoint pad (n : nat) (v : Z) : str :=
  match n with
  | O => []
  | S k => pad k (v / 10) ++ [digit_char (v mod 10)]
  end.
Definition fmt_fixed (v : Q) (decp : nat) : str :=
  let p := 10 ^ Z.of_nat decp in
  let n := qround (Qabs v * inject_Z p) in
  (if Qle_bool 0 v then [] else ["-"%char]) ++ dec_nat (n / p) ++
  (match decp with O => [] | _ => "."%char :: pad decp (n mod p) end).

(** str.rstrip(c) *)
Definition rstrip_char (c : ascii) (l : str) : str := rev (lstrip_by (Ascii.eqb c) (rev l)).

Definition q_lt (x y : Q) : bool := negb (Qle_bool y x).

(** ** The tables (Human.py:22-27, 30-45, 97-120) *)

Definition supported_units : list str := map s2l ["B"; "Hz"; "s"; "W"]%string.
Definition sipfx_large : list ascii := ["k"; "M"; "G"; "T"; "P"; "E"]%char.
Definition sipfx_small : list ascii := ["m"; "u"; "n"]%char.
(** In the order of _SIPFX_FULLNAMES and _SIPFX_SCALERS *)
Definition sipfx_scalers : list (ascii * Q) :=
  [("E"%char, inject_Z 1000000000000000000); ("P"%char, inject_Z 1000000000000000);
   ("T"%char, inject_Z 1000000000000); ("G"%char, inject_Z 1000000000); ("M"%char, inject_Z 1000000);
   ("k"%char, inject_Z 1000); ("m"%char, 1 # 1000); ("u"%char, 1 # 1000000); ("n"%char, 1 # 1000000000)].
Definition bytesize_scalers : list (str * Q) :=
  [(s2l "Ei", inject_Z 1152921504606846976); (s2l "Pi", inject_Z 1125899906842624);
   (s2l "Ti", inject_Z 1099511627776); (s2l "Gi", inject_Z 1073741824);
   (s2l "Mi", inject_Z 1048576); (s2l "Ki", inject_Z 1024)].

(** Human.py:122-153 separate_si_prefix(), without the warning. The prefix comes with its factor. *)
Definition separate_si_prefix (unit : str) : option (ascii * Q) * str :=
  match unit with
  | c :: ((_ :: _) as base) =>
      match dget Ascii.eqb sipfx_scalers c with
      | Some f => (Some (c, f), base)
      | None => (None, unit)
      end
  | _ => (None, unit)
  end.

(** ** Formatting *)

(** Human.py:217-221: the loop over the large prefixes *)
Fixpoint scale_down (pfxs : list ascii) (v : Q) (cur : option ascii) : option ascii * Q :=
  match pfxs with
  | [] => (cur, v)
  | p :: t => let v := (v / inject_Z 1000)%Q in
              if q_lt (Qabs v) (inject_Z 1000) then (Some p, v) else scale_down t v (Some p)
  end.
(** Human.py:222-226: the loop over the small prefixes *)
Fixpoint scale_up (pfxs : list ascii) (v : Q) (cur : option ascii) : option ascii * Q :=
  match pfxs with
  | [] => (cur, v)
  | p :: t => let v := (v * inject_Z 1000)%Q in
              if Qle_bool 1 (Qabs v) then (Some p, v) else scale_up t v (Some p)
  end.

(** Human.py:206-208 and 230-232 *)
Definition fmt_num (v : Q) (decp : nat) (strip_zeroes : bool) : str :=
  let r := fmt_fixed v decp in
  if strip_zeroes && has_char "." r then rstrip_char "." (rstrip_char "0" r) else r.

(** Human.py:155-242 num2si(). [decp] is never negative here. *)
Definition num2si (value : Q) (unit : str) (decp : nat) (sep : str) (strip_zeroes : bool) : res str :=
  if Nat.ltb 8 decp then Exn EError
  else if match sep, unit with _ :: _, [] => true | _, _ => false end then Exn EError
  else
    let (sipfx, base) := separate_si_prefix unit in
    if Qle_bool 1 (Qabs value) && q_lt (Qabs value) (inject_Z 1000)
    then Ok (fmt_num value decp strip_zeroes ++ sep ++ base)
    else
      let value := match sipfx with
                   | Some (_, f) => if Qle_bool (inject_Z 500) (Qabs value) || q_lt (Qabs value) 1
                                    then (value * f)%Q else value
                   | None => value
                   end in
      let (pfx, value) :=
        if q_lt (inject_Z 500) (Qabs value) then scale_down sipfx_large value None
        else if q_lt (Qabs value) 1 then scale_up sipfx_small value None
        else (option_map fst sipfx, value) in
      let result := fmt_num value decp strip_zeroes in
      match py_float result with
      | None => Exn EValue
      | Some r =>
          Ok (result ++ match pfx with
                        | Some p => if Qeq_bool r 0 then sep ++ base else sep ++ p :: base
                        | None => match base with [] => [] | _ => sep ++ base end
                        end)
      end.

(** ** Parsing *)

Fixpoint prefixb (p s : str) : bool :=
  match p, s with
  | [], _ => true
  | _, [] => false
  | a :: p', b :: s' => Ascii.eqb a b && prefixb p' s'
  end.

(** s.split(spec, 1): what is before and after the first occurrence *)
Fixpoint split1 (spec s : str) : option (str * str) :=
  if prefixb spec s then Some ([], skipn (length spec) s)
  else match s with
       | [] => None
       | c :: t => match split1 spec t with
                   | Some (a, b) => Some (c :: a, b)
                   | None => None
                   end
       end.

(** Human.py:357-363: the specifiers found, with the text before them, and the remaining text *)
Fixpoint find_specs (specs : list str) (rest : str) : list (str * str) * str :=
  match specs with
  | [] => ([], rest)
  | sp :: t =>
      match split1 sp rest with
      | Some (before, after) => let (l, r) := find_specs t after in ((sp, before) :: l, r)
      | None => find_specs t rest
      end
  end.

(** Human.py:371-388: only the last amount may be fractional *)
Fixpoint amounts (l : list (str * str)) : res (list (str * Q)) :=
  match l with
  | [] => Ok []
  | [(sp, val)] =>
      match py_float val with
      | None => Exn EError
      | Some q => if is_int val
                  then match py_int val with Some z => Ok [(sp, inject_Z z)] | None => Exn EValue end
                  else Ok [(sp, q)]
      end
  | (sp, val) :: t =>
      match py_int val with
      | None => Exn EError
      | Some z => let? r := amounts t in Ok ((sp, inject_Z z) :: r)
      end
  end.

(** Human.py:322-390 _tokenize() *)
Definition tokenize (hval : str) (specs : list str) (multiple : bool) : res (list (str * Q)) :=
  let (found, rest) := find_specs specs hval in
  match strip rest with
  | _ :: _ => Exn EError
  | [] =>
      if negb multiple && (Nat.ltb 1 (length found)) then Exn EError else amounts found
  end.

(** Human.py:392-445 _tokenize_prepare(): the scalers, in the order of the specifiers, and 'multiple' *)
Definition scalers (unit : str) : list (str * Q) :=
  map (fun e => (fst e :: unit, snd e)) sipfx_scalers ++
  (if str_eqb unit (s2l "B") then map (fun e => (fst e ++ unit, snd e)) bytesize_scalers
   else if str_eqb unit (s2l "s") then
     [(s2l "d", inject_Z 86400); (s2l "D", inject_Z 86400); (s2l "h", inject_Z 3600);
      (s2l "H", inject_Z 3600); (s2l "m", inject_Z 60); (s2l "M", inject_Z 60)]
   else []) ++ [(unit, 1%Q)].
Definition multiple (unit : str) : bool := str_eqb unit (s2l "s").

(** Human.py:504-506 *)
Definition add_up (sc : list (str * Q)) (tokens : list (str * Q)) : res Q :=
  fold_left (fun acc e => let? a := acc in
                          match dget str_eqb sc (fst e) with
                          | Some f => Ok (a + snd e * f)%Q
                          | None => Exn EKey
                          end) tokens (Ok 0%Q).

Inductive hnum := HInt (z : Z) | HFloat (q : Q).

(** Human.py:447-514 parse_human() of a string *)
Definition parse_human (hval unit : str) (target : option str) (integer : bool) : res hnum :=
  let (sipfx, base) := separate_si_prefix unit in
  let? tscale := match target with
                 | None => Ok None
                 | Some tu => let (tp, tb) := separate_si_prefix tu in
                              if str_eqb tb base then Ok (option_map snd tp) else Exn EError
                 end in
  let hval := if is_num hval
              then hval ++ match sipfx with Some (c, _) => [c] | None => [] end ++ base
              else hval in
  let? tokens := tokenize hval (map fst (scalers base)) (multiple base) in
  let? r := add_up (scalers base) tokens in
  let r := match tscale with Some f => (r / f)%Q | None => r end in
  Ok (if integer then HInt (qround r) else HFloat r).

(** Human.py:272-320 duration() of a whole number of seconds, s=True *)
Definition duration (seconds : Z) : res str :=
  if Z.abs seconds <? 1 then num2si (inject_Z seconds) (s2l "s") 1 [] true
  else
    let (sign, seconds) := if seconds <? 0 then (["-"%char], - seconds) else ([], seconds) in
    let mins := seconds / 60 in let secs := seconds mod 60 in
    let hours := mins / 60 in let mins := mins mod 60 in
    let days := hours / 24 in let hours := hours mod 24 in
    let part (n : Z) (u : string) := if n =? 0 then [] else dec n ++ s2l u in
    Ok (sign ++ strip (part days " days "%string ++ part hours "h "%string ++ part mins "m "%string ++
                       part secs "s "%string)).
