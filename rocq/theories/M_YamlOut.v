(** Model of the writing of YAML files (pepclibs/helperlibs/YAML.py) and of the checks of ranges (pepclibs/helperlibs/Trivial.py). *)
From Coq Require Import Ascii String QArith.
From Verif Require Import Base M_Text.
Open Scope list_scope.

(** The data that are written: None, floats, paths, other scalars (with their text), lists, and dictionaries with their keys in order. *)
Inductive yval :=
| YNone
| YFloat (q : Q)
| YPath (p : str)
| YScal (s : str)
| YList (l : list yval)
| YDict (l : list (str * yval)).

Definition is_none (v : yval) : bool := match v with YNone => true | _ => false end.

(** YAML.py:41-51 copy_skip_none(): the keys of a dictionary are distinct, so that the assignments make the copy in the order of the original. *)
Fixpoint copy_none (v : yval) : yval :=
  match v with
  | YDict l => YDict (flat_map (fun kv => match kv with (k, x) => if is_none x then [] else [(k, copy_none x)] end) l)
  | v => v
  end.

(** What the YAML library gets from the representers: scalars with a tag and a text, sequences and mappings. How it writes them is not modelled. *)
Inductive tag := TNull | TFloat | TStr | TOther.
Inductive node :=
| NScal (t : tag) (s : str)
| NSeq (l : list node)
| NMap (l : list (str * node)).

(** YAML.py:30-40: the representers; 'fmt' is the '%' operator of a format and a number, 'repr' is how the library writes floats,
    'reg' is the format with which the representer of floats was registered with the library, if one was. *)
Fixpoint represent (fmt : str -> Q -> str) (repr : Q -> str) (reg : option str) (v : yval) : node :=
  match v with
  | YNone => NScal TNull []
  | YFloat q => NScal TFloat (match reg with Some f => fmt f q | None => repr q end)
  | YPath p => NScal TStr p
  | YScal s => NScal TOther s
  | YList l => NSeq (map (represent fmt repr reg) l)
  | YDict l => NMap (map (fun kv => match kv with (k, x) => (k, represent fmt repr reg x) end) l)
  end.

(** The arguments of a call: the dictionary, the format ("" is no format, as None is) and 'skip_none' *)
Record ycall := YC { y_data : list (str * yval); y_format : option str; y_skip : bool }.

(** YAML.py:20-72 dump(): what is written, and the representer that is registered afterwards: it belongs to the library and stays
    registered. Errors of the file are not modelled. *)
Definition dump (fmt : str -> Q -> str) (repr : Q -> str) (reg : option str) (c : ycall) : node * option str :=
  let data := if y_skip c then copy_none (YDict (y_data c)) else YDict (y_data c) in
  let reg := match y_format c with Some (x :: f) => Some (x :: f) | _ => reg end in
  (represent fmt repr reg data, reg).

(** The representer registered after calls, of which none is before the first *)
Definition registered (fmt : str -> Q -> str) (repr : Q -> str) (cs : list ycall) : option str :=
  fold_left (fun reg c => snd (dump fmt repr reg c)) cs None.

(** What a call writes after other calls *)
Definition written (fmt : str -> Q -> str) (repr : Q -> str) (before : list ycall) (c : ycall) : node :=
  fst (dump fmt repr (registered fmt repr before) c).

(** Trivial.py:214-230 validate_value_in_range(): whether it returns, or raises Error *)
Definition value_ok (v lo hi : Q) : bool :=
  negb (match Qcompare v lo with Lt => true | _ => false end || match Qcompare v hi with Gt => true | _ => false end).

(** Trivial.py:232-261 validate_range(): a return, an Error or a failed assertion *)
Inductive verdict := Accepted | Refused | Asserts.
Definition range_ok (a b : Q) (lo hi : option Q) : verdict :=
  match Qcompare a b with
  | Gt => Refused
  | _ =>
      let upper := match hi with
                   | Some h => match Qcompare b h with Gt => Refused | _ => Accepted end
                   | None => Accepted
                   end in
      match lo with
      | Some l =>
          match hi with
          | Some h => match Qcompare h l with Lt => Asserts | _ => match Qcompare a l with Lt => Refused | _ => upper end end
          | None => match Qcompare a l with Lt => Refused | _ => upper end
          end
      | None => upper
      end
  end.
