(** Model of saving and restoring of C-state settings: pepctool/_PepcPrinter.py (class CStatesPrinter),
    pepctool/_PepcSetter.py (class CStatesSetter), pepctool/_PepcCStates.py 'cstates_save_command()' and
    'cstates_restore_command()'. *)
From Coq Require Import Ascii String.
From Verif Require Import Base M_CPUInfo M_Text M_Human M_CPUIdle.

(** Equality of two values of a C-state (keys of a Python dictionary). *)
Definition cval_eqb (a b : cval) : bool :=
  match a, b with
  | CInt x, CInt y => x =? y
  | CStr x, CStr y => str_eqb x y
  | _, _ => false
  end.

(** The aggregate dictionary: C-state name -> key -> value -> CPUs. *)
Definition kinfo := list (cval * list Z).
Definition rcsinfo := list (str * list (str * kinfo)).

(** _PepcPrinter.py:750-755: one value. [d] is 'aggr_rcsinfo[pname]'. *)
Definition add_val (d : list (str * kinfo)) (name : str) (val : cval) (cpu : Z) : list (str * kinfo) :=
  match dget str_eqb d name with
  | None => dset str_eqb d name [(val, [cpu])]
  | Some k =>
      match dget cval_eqb k val with
      | None => dset str_eqb d name (dset cval_eqb k val [cpu])
      | Some l => dset str_eqb d name (dset cval_eqb k val (l ++ [cpu]))
      end
  end.

(** _PepcPrinter.py:743-755: one C-state of one CPU. Simplification: a value is never None. *)
Definition add_values (keys : list str) (a : rcsinfo) (cpu : Z) (pname : str) (values : cstate) : rcsinfo :=
  let d := match dget str_eqb a pname with Some d => d | None => [] end in
  dset str_eqb a pname
    (fold_left (fun d nv => if existsb (str_eqb (fst nv)) keys then add_val d (fst nv) (snd nv) cpu else d) values d).

(** _PepcPrinter.py:726-757 _build_aggr_rcsinfo() *)
Definition build_aggr_rcsinfo (items : list (Z * csinfo)) (keys : list str) : rcsinfo :=
  fold_left (fun a it => fold_left (fun a pv => add_values keys a (fst it) (fst pv) (snd pv)) (snd it) a) items [].

(** Whether a value is true in Python. *)
Definition truthy (v : cval) : bool :=
  match v with CInt n => negb (n =? 0) | CStr t => nonemptyb t end.

(** An item of a C-state in the file: {key: val, "CPU": cpus}; and the dictionary in the file. *)
Definition yitem := (str * cval * str)%type.
Definition ydict := list (str * list yitem).

(** _PepcPrinter.py:694-702: the loop over the values of one key. The variable 'key' is changed in the loop. *)
Fixpoint yaml_vals (key : str) (k : kinfo) : list yitem :=
  match k with
  | [] => []
  | (val, cpus) :: t =>
      if str_eqb key (s2l "disable"%string)
      then (s2l "value"%string, CStr (if truthy val then s2l "off"%string else s2l "on"%string), rangify cpus) ::
           yaml_vals (s2l "value"%string) t
      else (key, val, rangify cpus) :: yaml_vals key t
  end.

(** _PepcPrinter.py:687-705 _print_aggr_rcsinfo_yaml(): the dictionary that is written. Simplification: a text or a
    number that is written in YAML is what is read from it. *)
Definition yaml_rcsinfo (a : rcsinfo) : ydict :=
  filter (fun nd => match snd nd with [] => false | _ => true end)
    (map (fun nd => (fst nd, flat_map (fun kk => yaml_vals (fst kk) (snd kk)) (snd nd))) a).

(** _PepcPrinter.py:775-778 *)
Definition print_keys (skip_ro : bool) : list str :=
  map s2l (if skip_ro then ["disable"] else ["disable"; "latency"; "residency"; "desc"])%string.

Section CSave.
  Variable mc : machine.

  (** _PepcPrinter.py:762-793 print_cstates(), up to the printing (None: "C-states are not supported"). *)
  Definition aggr_cstates (csnames : csarg) (cpus : nums_t) (skip_ro : bool) : M idle (option rcsinfo) :=
    fun s => match get_cstates_info mc cpus csnames s with
             | (Ok items, s') => (Ok (Some (build_aggr_rcsinfo items (print_keys skip_ro))), s')
             | (Exn ENotSupported, s') => (Ok None, s')
             | (Exn e, s') => (Exn e, s')
             end.

  (** _PepcCStates.py:160-199 'cstates save': the part of the file about C-states. The properties, which follow in
      the file, are not modelled. *)
  Definition save_cstates (cpus : nums_t) : M idle ydict :=
    let! a := aggr_cstates (CsText (s2l "all"%string)) cpus true in
    ret (match a with None => [] | Some a => yaml_rcsinfo a end).

  (** _PepcSetter.py:84-121 _validate_loaded_data(). Simplification: the items have the key "CPU" (and not "die" or
      "package"), and the types are right. *)
  Definition validate (d : ydict) (known : list str) : res unit :=
    let? _ := rmap d (fun nv =>
      if existsb (str_eqb (fst nv)) known
      then let? _ := rmap (snd nv) (fun it => if str_eqb (fst (fst it)) (s2l "value"%string) then Ok tt else Exn EError) in Ok tt
      else Exn EError) in Ok tt.

  (** pepctool/_PepcCommon.py:37-46 parse_cpus_string() *)
  Definition parse_cpus_string (t : str) : res nums_t :=
    if str_eqb t (s2l "all"%string) then Ok None
    else let? l := parse_int_list "," true [NStr t] in Ok (Some l).

  (** _PepcSetter.py:326-339: one item of a C-state. CStates.py:170-198 enable_cstates() and disable_cstates() pass
      the arguments on. *)
  Definition restore_item (csname : str) (it : yitem) : M idle unit :=
    let '(_, value, t) := it in
    let! cpus := lift (parse_cpus_string t) in
    (if cval_eqb value (CStr (s2l "on"%string)) then let! _ := enable_cstates mc (CsText csname) cpus in ret tt
     else if cval_eqb value (CStr (s2l "off"%string)) then let! _ := disable_cstates mc (CsText csname) cpus in ret tt
     else throw EError) ;;
    let! _ := aggr_cstates (CsList [csname]) cpus true in ret tt.

  (** _PepcSetter.py:319-339 _restore_cstates() *)
  Definition restore_cstates (d : ydict) : M idle unit :=
    mfor d (fun nv => mfor (snd nv) (restore_item (fst nv))).

  (** _PepcSetter.py:341-372 restore() of class CStatesSetter. [pnames] are the names of the properties, the
      restoring of which is not modelled. *)
  Definition restore (pnames : list str) (d : ydict) : M idle unit :=
    let! csnames :=
      (fun s => match get_cstates_info mc None (CsText (s2l "all"%string)) s with
                | (Ok items, s') => (Ok (flat_map (fun it => map fst (snd it)) items), s')
                | (Exn ENotSupported, s') => (Ok [], s')
                | (Exn e, s') => (Exn e, s')
                end) in
    lift (validate d (pnames ++ csnames)) ;;
    restore_cstates (filter (fun nv => existsb (str_eqb (fst nv)) csnames) d).
End CSave.
