(** Model of how the value of a property is written for people: pepctool/_PepcPrinter.py (class _PropsPrinter). *)
From Coq Require Import QArith.
From Verif Require Import Base M_Text M_Human.

(** The values of properties. Simplifications: every number has a unit, as all the properties of type "int", "float" and
    "list[int]" do, and texts have none; "bool" values are the texts "on" and "off"; the arithmetic is exact. *)
Inductive pvalue :=
| PText (t : str)
| PNumb (unit : str) (v : Q)
| PDict (d : list (str * str))
| PTexts (l : list str)
| PNums (unit : str) (l : list Z).

(** int() of a number *)
Definition trunc (v : Q) : Z := Z.quot (Qnum v) (Zpos (Qden v)).

(** _PepcPrinter.py:142-152 _format_unit(). Trivial.is_int() is True for every number, since int() accepts floating
    point numbers. *)
Definition format_unit (unit : str) (v : Q) : res str :=
  if str_eqb unit (s2l "s") && q_lt (inject_Z 100) v then Ok (dec (trunc v) ++ s2l "s")
  else num2si v unit 2 [] false.

Fixpoint steps_are (step : Z) (l : list Z) : bool :=
  match l with
  | a :: (b :: _) as t => (b - a =? step) && steps_are step t
  | _ => true
  end.

(** _PepcPrinter.py:127-140 _detect_progression() *)
Definition detect_progression (vals : list Z) (min_len : nat) : option Z :=
  if (length vals <? min_len)%nat then None
  else match vals with
       | a :: b :: _ => let step := b - a in if steps_are step vals then Some step else None
       | _ => None
       end.

(** 'step' is None or 0 *)
Definition no_step (o : option Z) : bool := match o with None | Some 0 => true | _ => false end.

(** ", ".join(l) *)
Definition join_cs (l : list str) : str :=
  match l with
  | [] => []
  | t :: r => t ++ concat (map (fun x => s2l ", " ++ x) r)
  end.

(** What _format_value_human() returns: a text, or an empty tuple. *)
Inductive fout := FText (t : str) | FEmpty.

(** _PepcPrinter.py:169-198: a list of numbers *)
Definition format_nums (unit : str) (vals : list Z) : res fout :=
  let fmt v := format_unit unit (inject_Z v) in
  let step := detect_progression vals 4 in
  match vals with
  | [] => Ok FEmpty
  | [v] => let? t := fmt v in Ok (FText t)
  | v0 :: _ =>
      if no_step step then
        let step := detect_progression (removelast vals) 3 in
        if no_step step then
          let? ts := rmap vals fmt in Ok (FText (join_cs ts))
        else
          let? first := fmt v0 in
          let? last := fmt (List.last (removelast vals) 0) in
          let? tar := fmt (List.last vals 0) in
          let? step := match step with Some x => fmt x | None => Exn EUnbound end in
          Ok (FText (first ++ s2l " - " ++ last ++ s2l " with step " ++ step ++ s2l ", " ++ tar))
      else
        let? first := fmt v0 in
        let? last := fmt (List.last vals 0) in
        let? step := match step with Some x => fmt x | None => Exn EUnbound end in
        Ok (FText (first ++ s2l " - " ++ last ++ s2l " with step " ++ step))
  end.

(** _PepcPrinter.py:124-200 _format_value_human() *)
Definition format_value (v : pvalue) : res fout :=
  match v with
  | PText t => Ok (FText t)
  | PNumb unit q => let? t := format_unit unit q in Ok (FText t)
  | PDict d => Ok (FText (join_cs (map (fun kv => fst kv ++ "="%char :: snd kv) d)))
  | PTexts l => Ok (FText (join_cs l))
  | PNums unit l => format_nums unit l
  end.

Definition is_text_type (v : pvalue) : bool := match v with PNumb _ _ | PNums _ _ => false | _ => true end.
Definition is_list_type (v : pvalue) : bool := match v with PDict _ | PTexts _ | PNums _ _ => true | _ => false end.

(** _PepcPrinter.py:202-251 _print_prop_human(): the line that is printed, if any. [nums] is the text of the CPU, die or
    package numbers, None if there are none or the property is global. *)
Definition prop_line (name : str) (nums : option str) (val : option pvalue) (action prefix : option str) : res (option str) :=
  let sfx := match nums with Some t => s2l " for " ++ t | None => [] end in
  let msg := match prefix with Some p => p | None => [] end ++ name ++ s2l ": " in
  let act := match action with Some a => a ++ [" "%char] | None => [] end in
  match val with
  | None => Ok (Some (msg ++ act ++ s2l "not supported" ++ sfx))
  | Some v =>
      let? o := format_value v in
      match o with
      | FText [] => if is_list_type v then Ok None
                    else Ok (Some (msg ++ act ++ match sfx with
                                                 | _ :: _ => if is_text_type v then s2l "''" else []
                                                 | [] => [] end ++ sfx))
      | FText t => Ok (Some (msg ++ act ++ match sfx with
                                           | _ :: _ => if is_text_type v then "'"%char :: t ++ ["'"%char] else t
                                           | [] => t end ++ sfx))
      | FEmpty => Ok (Some (msg ++ act ++ s2l "()" ++ sfx))
      end
  end.

(** _PepcPrinter.py:541-551 PMQoSPrinter._format_value_human(). [global] is the global latency limit property. *)
Definition format_latency (global : bool) (v : Q) : res str :=
  if Qeq_bool v 0 then Ok (if global then s2l "0 (absolute minimum)" else s2l "0 (no limit)")
  else format_unit (s2l "s") v.
