(** Model of loading a file with settings: pepclibs/helperlibs/YAML.py and the checks of
    pepctool/_PepcSetter.py:84-120. *)
From Coq Require Import Ascii String.
From Verif Require Import Base M_Text.

(** What yaml.safe_load() makes of a text, before and after the constructor of YAML.py:86-101.  A mapping is the list
    of its pairs.  Simplification: dates, '!path' values, anchors and merge keys are left out; keys are texts or
    integers. *)
Inductive ykey := KText (s : str) | KNum (n : Z).
Inductive yval :=
| YNull
| YBool (b : bool)
| YNum (n : Z)
| YText (s : str)
| YSeq (l : list yval)
| YMap (l : list (ykey * yval)).

Definition key_eqb (a b : ykey) : bool :=
  match a, b with KText x, KText y => str_eqb x y | KNum x, KNum y => x =? y | _, _ => false end.

Definition ydict := list (ykey * yval).

(** Error, AttributeError, RecursionError *)
Inductive yexc := YError | YAttr | YDeep.

Definition inc_name : str := s2l "include"%string.
Definition inc_pref : str := s2l "include_"%string.
Definition starts (p x : str) : bool := str_eqb p (firstn (length p) x).
(** "str(key).startswith('include_')": never so for an integer *)
Definition reserved (k : ykey) : bool := match k with KText s => starts inc_pref s | KNum _ => false end.
(** "pair[0] == 'include'" *)
Definition is_include (k : ykey) : bool := match k with KText s => str_eqb s inc_name | KNum _ => false end.

(** YAML.py:93-101: the keys get a number, or None if there is a reserved one *)
Fixpoint rename (i : Z) (l : ydict) : option ydict :=
  match l with
  | [] => Some []
  | (k, v) :: t =>
      if is_include k
      then option_map (cons (KText (inc_pref ++ dec i), v)) (rename (i + 1) t)
      else if reserved k then None else option_map (cons (k, v)) (rename i t)
  end.

(** "dict(pairs)" *)
Definition mkdict (l : ydict) : ydict := fold_left (fun d x => dset key_eqb d (fst x) (snd x)) l [].

(** YAML.py:86-101 dict_constructor(), for the mappings at every depth *)
Fixpoint construct (v : yval) : option yval :=
  match v with
  | YSeq l =>
      option_map YSeq
        ((fix go (l : list yval) : option (list yval) :=
            match l with
            | [] => Some []
            | x :: t => match construct x, go t with Some x', Some t' => Some (x' :: t') | _, _ => None end
            end) l)
  | YMap l =>
      match (fix go (l : ydict) : option ydict :=
               match l with
               | [] => Some []
               | (k, x) :: t => match construct x, go t with Some x', Some t' => Some ((k, x') :: t') | _, _ => None end
               end) l with
      | Some l' => option_map (fun r => YMap (mkdict r)) (rename 0 l')
      | None => None
      end
  | _ => Some v
  end.

(** The truth value of an object *)
Definition ytruthy (v : yval) : bool :=
  match v with
  | YNull => false
  | YBool b => b
  | YNum n => negb (n =? 0)
  | YText s => match s with [] => false | _ => true end
  | YSeq l => match l with [] => false | _ => true end
  | YMap l => match l with [] => false | _ => true end
  end.

(** pathlib.Path: the components, without empty ones and ".".  Simplification: the root "//" is "/". *)
Record ppath := PP { pp_abs : bool; pp_parts : list str }.
Definition mkpath (s : str) : ppath :=
  PP (match s with "/"%char :: _ => true | _ => false end)
     (filter (fun c => negb (str_eqb c [] || str_eqb c (s2l "."%string))) (split_on "/"%char s)).
(** Path.parent, the "/" operator with a relative path, "==" *)
Definition pparent (p : ppath) : ppath := PP (pp_abs p) (removelast (pp_parts p)).
Definition pjoin (p q : ppath) : ppath := PP (pp_abs p) (pp_parts p ++ pp_parts q).
Definition path_eqb (p q : ppath) : bool :=
  Bool.eqb (pp_abs p) (pp_abs q) && (if list_eq_dec (list_eq_dec ascii_dec) (pp_parts p) (pp_parts q) then true else false).

(** open() and the YAML parser: not there, not YAML, or a document *)
Inductive file := FNone | FBad | FDoc (v : yval).

(** "included" (its keys) and, for the record, the files that were opened, last first *)
Record yst := YSt { y_inc : list ppath; y_opened : list ppath }.

(** What the names of files lead to: an arbitrary function *)
Section Load.
  Variable fs : ppath -> file.

  Definition yres (A : Type) := (yexc + A)%type.

  (** YAML.py:113-131: open(), safe_load(), close() *)
  Definition parse (f : file) : yres yval :=
    match f with
    | FNone => inl YError
    | FBad => inl YError
    | FDoc v => match construct v with Some v' => inr v' | None => inl YError end
    end.

  (** "result.update(d)" *)
  Definition update (r d : ydict) : ydict := fold_left (fun r x => dset key_eqb r (fst x) (snd x)) d r.

  (** YAML.py:141-160: the loop over the keys; "load" is the recursive call, "path" is None for standard input *)
  Fixpoint items (load : ppath -> yst -> yres ydict * yst) (path : option ppath) (l : ydict) (result : ydict)
           (s : yst) : yres ydict * yst :=
    match l with
    | [] => (inr result, s)
    | (k, v) :: t =>
        if negb (reserved k) then items load path t (dset key_eqb result k v) s
        else if negb (ytruthy v) then items load path t result s
        else match v with
             | YText txt =>
                 let q := mkpath txt in
                 match (if pp_abs q then Some q else option_map (fun p => pjoin (pparent p) q) path) with
                 | None => (inl YAttr, s)
                 | Some q' =>
                     if existsb (path_eqb q') (y_inc s) then (inl YError, s)
                     else match load q' (YSt (q' :: y_inc s) (y_opened s)) with
                          | (inr d, s') => items load path t (update result d) s'
                          | (inl e, s') => (inl e, s')
                          end
                 end
             | _ => (inl YError, s)
             end
    end.

  (** YAML.py:74-163 _load(), for a document that was read *)
  Definition loaded (load : ppath -> yst -> yres ydict * yst) (path : option ppath) (f : file) (s : yst)
    : yres ydict * yst :=
    match parse f with
    | inl e => (inl e, s)
    | inr v => if negb (ytruthy v) then (inr [], s)
               else match v with YMap l => items load path l [] s | _ => (inl YAttr, s) end
    end.

  (** YAML.py:74-163 _load() of a path.  "depth": how many nested calls there can be before RecursionError.
      Simplification: only the calls of _load() count. *)
  Fixpoint load (depth : nat) (path : ppath) (s : yst) : yres ydict * yst :=
    match depth with
    | O => (inl YDeep, s)
    | S d => loaded (load d) (Some path) (fs path) (YSt (y_inc s) (path :: y_opened s))
    end.

  (** YAML.py:165-188 load() of a path, without "render" *)
  Definition yload (depth : nat) (path : ppath) : yres ydict * yst := load depth path (YSt [] []).

  (** YAML.py:165-188 load() of what has no ".parent": None is standard input, on which the document "f" is, and
      Some is a file name as a text, which is what 'pepc ... restore --from' has. *)
  Definition yload_text (depth : nat) (name : option str) (f : file) : yres ydict * yst :=
    match depth with
    | O => (inl YDeep, YSt [] [])
    | S d => match name with
             | Some n => loaded (load d) None (fs (mkpath n)) (YSt [] [mkpath n])
             | None => loaded (load d) None f (YSt [] [])
             end
    end.
End Load.

(** "key in d" *)
Definition has (d : ydict) (s : string) : bool := existsb (fun x => key_eqb (fst x) (KText (s2l s))) d.

(** _PepcSetter.py:102-120: one element of the list of a key *)
Definition valid_item (v : yval) : bool :=
  match v with
  | YMap d =>
      has d "value" &&
      Nat.eqb (length (filter (has d) ["CPU"%string; "die"%string; "package"%string])) 1
  | _ => false
  end.

(** _PepcSetter.py:84-120: _validate_loaded_data(); false is Error *)
Definition validate (known : list str) (d : ydict) : bool :=
  forallb (fun x =>
             match snd x with
             | YSeq l => existsb (fun k => key_eqb (fst x) (KText k)) known && forallb valid_item l
             | _ => false
             end) d.

(** _PepcSetter.py:140-158: how an element is read by _restore_props(): what kind of numbers, which, and the value *)
Inductive where_ := WCPU (nums : yval) | WPackage (nums : yval) | WDie (nums : yval).
Definition yget (d : ydict) (s : string) : option yval := dget key_eqb d (KText (s2l s)).
Definition dispatch (d : ydict) : option (where_ * yval) :=
  match yget d "value" with
  | None => None
  | Some v =>
      match yget d "CPU", yget d "package", yget d "die" with
      | Some n, _, _ => Some (WCPU n, v)
      | None, Some n, _ => Some (WPackage n, v)
      | None, None, Some n => Some (WDie n, v)
      | None, None, None => None
      end
  end.

(** _PepcSetter.py:136-160: what _restore_props() sets, in this order; the elements it cannot read are KeyError *)
Definition settings (d : ydict) : list (ykey * option (where_ * yval)) :=
  flat_map (fun x => match snd x with
                     | YSeq l => map (fun i => (fst x, match i with YMap m => dispatch m | _ => None end)) l
                     | _ => []
                     end) d.

(** _PepcSetter.py:176-190 restore(): what is set, or the exception before anything was set.
    Simplification: of the C-states and the properties of CStatesSetter.restore() the C-states come first. *)
Definition restore_plan (fs : ppath -> file) (known : list str) (depth : nat) (infile : str) (stdin : file)
  : yexc + list (ykey * option (where_ * yval)) :=
  match fst (yload_text fs depth (if str_eqb infile (s2l "-"%string) then None else Some infile) stdin) with
  | inl e => inl e
  | inr d => if validate known d then inr (settings d) else inl YError
  end.
