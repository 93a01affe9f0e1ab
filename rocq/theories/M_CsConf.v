(** Model of 'pepc cstates config': pepctool/_PepcCStates.py:81-160 on top of pepclibs/CPUIdle.py. *)
From Coq Require Import Ascii String.
From Verif Require Import Base M_CPUInfo M_Text M_Human M_CPUIdle.

(** ArgParse.py:122-140: OrderedArg, the options in "oargs". An option without a value has the value None. *)
Definition oargs := list (str * option str).

Definition add_oarg (o : oargs) (x : str * option str) : oargs := dset str_eqb o (fst x) (snd x).

(** What is in "oargs" after the options were parsed in the order in which they were typed (None: no attribute). *)
Definition collect (typed : list (str * option str)) : option oargs :=
  match typed with [] => None | _ => Some (fold_left add_oarg typed []) end.

(** What the command does apart from changing C-states: it prints C-states, prints properties and sets properties.
    Simplification: the properties are not modelled here, only which ones are asked for. *)
Inductive event :=
| EvList (csnames : csarg) (l : list (Z * csinfo))
| EvPrint (pnames : list str)
| EvSet (l : list (str * str)).

Record cconf := CC { cc_idle : idle; cc_ev : list event }.

Definition on_idle {A} (m : M idle A) : M cconf A :=
  fun s => let '(r, i) := m (cc_idle s) in (r, CC i (cc_ev s)).
Definition emit (e : event) : M cconf unit := modify (fun s => CC (cc_idle s) (cc_ev s ++ [e])).

Definition en_name : str := s2l "enable"%string.
Definition dis_name : str := s2l "disable"%string.
Definition is_toggle (o : str) : bool := str_eqb o en_name || str_eqb o dis_name.

(** _PepcCStates.py:92-103: the options by kind *)
Definition enable_opts (o : oargs) : oargs := filter (fun x => is_toggle (fst x)) o.
Definition print_opts (o : oargs) : list str :=
  flat_map (fun x => if is_toggle (fst x) then [] else match snd x with None => [fst x] | Some _ => [] end) o.
Definition set_opts (o : oargs) : list (str * str) :=
  flat_map (fun x => if is_toggle (fst x) then [] else match snd x with None => [] | Some v => [(fst x, v)] end) o.

Section Config.
  Variable mc : machine.
  (** _OpTarget.get_cpus(): the target CPUs *)
  Variable cpus : list Z.

  (** _PepcPrinter.py: print_cstates().  Simplification: what is printed is the list before CPUs with the same
      information are put together. *)
  Definition print_cstates (csnames : csarg) : M cconf unit :=
    fun s => match on_idle (get_cstates_info mc (Some cpus) csnames) s with
             | (Ok l, s') => emit (EvList csnames l) s'
             | (Exn ENotSupported, s') => (Ok tt, s')
             | (Exn e, s') => (Exn e, s')
             end.

  (** _PepcSetter.py:305-323: CStatesSetter.set_cstates() *)
  Definition set_cstates (csnames : str) (enable : bool) : M cconf unit :=
    on_idle (toggle_cstates mc (CsText csnames) (Some cpus) enable) ;;
    print_cstates (CsText csnames).

  (** _PepcCStates.py:132-140: '--enable' and '--disable' without an argument; what is left of the options *)
  Fixpoint list_loop (l : oargs) (printed : bool) : M cconf (list (str * str)) :=
    match l with
    | [] => ret []
    | (o, Some (c :: v)) :: t => let! r := list_loop t printed in ret ((o, c :: v) :: r)
    | (o, _) :: t => (if printed then ret tt else print_cstates (CsText (s2l "all"%string))) ;; list_loop t true
    end.

  (** _PepcCStates.py:149-153 *)
  Definition set_loop (l : list (str * str)) : M cconf unit :=
    mfor l (fun x => set_cstates (snd x) (str_eqb (fst x) en_name)).

  (** _PepcCStates.py:81-160: cstates_config_command().  Simplification: the warning about "tuned" is left out. *)
  Definition cstates_config (typed : list (str * option str)) : M cconf unit :=
    match collect typed with
    | None => throw EError
    | Some opts =>
        let! en := list_loop (enable_opts opts) false in
        (match print_opts opts with [] => ret tt | l => emit (EvPrint l) end) ;;
        set_loop en ;;
        (match set_opts opts with [] => ret tt | l => emit (EvSet l) end)
    end.
End Config.

Definition cc_init (s : idle) : cconf := CC s [].
