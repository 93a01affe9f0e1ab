(** Model of setting CPU and uncore frequencies: pepclibs/PStates.py, and of the code that handles their
    ordering: pepctool/_PepcSetter.py. *)
From Coq Require Import QArith.
From Verif Require Import Base M_Text M_Sysfs M_Human M_CPUFreq M_Uncore.

(** ** Values *)

(** The special values (PStates.py:27-49, with their synonyms): "base"/"hfm"/"P1", "eff"/"lfm"/"Pn", "Pm",
    and "mdl" for uncore. *)
Inductive special := SBase | SEff | SPm | SMdl.

(** A frequency as the user gives it: in Hz, or "min", "max", or one of the other special values. *)
Inductive fval := VNum (f : Z) | VMin | VMax | VSpecial (sp : special).

(** How frequencies of CPUs or dies (the keys) are read and written with one mechanism: a frequency limit,
    the current minimum (true) or maximum (false) frequency, the frequency that a special value stands for, and the
    method that sets the frequency for several keys. *)
Record freq_io (W K : Type) := FIO {
  f_limit : bool -> K -> M W Z;
  f_cur : bool -> K -> M W Z;
  f_special : special -> K -> M W Z;
  f_set : bool -> Z -> list K -> M W unit }.
Arguments FIO {W K}.
Arguments f_limit {W K} _.
Arguments f_cur {W K} _.
Arguments f_special {W K} _.
Arguments f_set {W K} _.

Section Set_freq.
  Context {W K : Type}.
  Variable io : freq_io W K.

  (** _PropsClassBase.py:519-560, 662-706: a value that is not supported after others were yielded is an
      error. *)
  Definition later (first : bool) (m : M W Z) : M W Z :=
    fun w => match m w with
             | (Exn ENotSupported, w') => (Exn (if first then ENotSupported else EError), w')
             | r => r
             end.

  (** PStates.py:884-914 _get_numeric_cpu_freq(), 1023-1044 _get_numeric_uncore_freq(): one step of the
      generator. It also gives the value to go on with: if the first CPU does not have "eff", the generator
      starts over with "min". *)
  Definition next_freq (val : fval) (first : bool) (key : K) : M W (Z * fval) :=
    match val with
    | VNum f => ret (f, val)
    | VMin => let! f := later first (f_limit io true key) in ret (f, val)
    | VMax => let! f := later first (f_limit io false key) in ret (f, val)
    | VSpecial SEff =>
        fun w => match later first (f_special io SEff key) w with
                 | (Ok f, w1) => (Ok (f, val), w1)
                 | (Exn ENotSupported, w1) =>
                     (let! f := later first (f_limit io true key) in ret (f, VMin)) w1
                 | (Exn e, w1) => (Exn e, w1)
                 end
    | VSpecial sp => let! f := later first (f_special io sp key) in ret (f, val)
    end.

  (** PStates.py:936-954, 1063-1084: the validation loop; the four generators are advanced in the order of
      the arguments of zip(). *)
  Fixpoint validate_freq (is_min : bool) (val : fval) (first : bool) (keys : list K)
    : M W (list (K * Z)) :=
    match keys with
    | [] => ret []
    | key :: rest =>
        let! (new_freq, val') := next_freq val first key in
        let! min_limit := later first (f_limit io true key) in
        let! max_limit := later first (f_limit io false key) in
        let! cur_freq_limit := later first (f_cur io (negb is_min) key) in
        if (new_freq <? min_limit) || (new_freq >? max_limit) then throw EFreqRange
        else if (if is_min then new_freq >? cur_freq_limit else new_freq <? cur_freq_limit)
        then throw EFreqOrder
        else
          let! l := validate_freq is_min val' false rest in
          ret ((key, new_freq) :: l)
    end.

  (** PStates.py:952-954, 1080-1084: the dictionary freq2cpus *)
  Definition add_freq (d : list (Z * list K)) (kf : K * Z) : list (Z * list K) :=
    match dget Z.eqb d (snd kf) with
    | None => dset Z.eqb d (snd kf) [fst kf]
    | Some l => dset Z.eqb d (snd kf) (l ++ [fst kf])
    end.

  Definition freq2keys (l : list (K * Z)) : list (Z * list K) := fold_left add_freq l [].

  (** PStates.py:916-957 _set_cpu_freq(), 1046-1087 _set_uncore_freq() *)
  Definition set_freq (is_min : bool) (val : fval) (keys : list K) : M W unit :=
    let! l := validate_freq is_min val true keys in
    mfor (freq2keys l) (fun fk => f_set io is_min (fst fk) (snd fk)).
End Set_freq.

(** _PropsClassBase.py:1016-1033 _set_prop_cpus_mnames(), 1122-1139 _set_prop_dies_mnames(): the mechanisms
    are tried in turn. ErrorFreqRange is a kind of ErrorTryAnotherMechanism (PStates.py:243-244). *)
Fixpoint set_freq_mechs {W K} (mechs : list (Z * freq_io W K)) (is_min : bool) (val : fval) (keys : list K)
  : M W Z :=
  match mechs with
  | [] => throw ENotSupported
  | (m, io) :: rest =>
      fun w => match set_freq io is_min val keys w with
               | (Ok _, w1) => (Ok m, w1)
               | (Exn ENotSupported, w1) => set_freq_mechs rest is_min val keys w1
               | (Exn ETryAnother, w1) => set_freq_mechs rest is_min val keys w1
               | (Exn EFreqRange, w1) => set_freq_mechs rest is_min val keys w1
               | (Exn e, w1) => (Exn e, w1)
               end
  end.

(** ** Mechanisms *)

(** The "sysfs" mechanism for CPUs (PStates.py:840-857 and the getters at 460-510); [special] tells how the
    special values are read. The hints added to the message of a failed verification are not modelled: the
    exception is raised again. *)
Definition cpu_sysfs_io (k : senv) (verify : bool) (hwp : Z -> bool) (spec : special -> Z -> M sstate Z)
  : freq_io sstate Z :=
  FIO (fun is_min => get_cpu_freq k is_min true) (fun is_min => get_cpu_freq k is_min false) spec
      (set_freq_sysfs k verify hwp).

(** PStates.py:1082-1084: the dictionary of the dies, by package *)
Definition dies_dict (l : list (Z * Z)) : dies_t :=
  fold_left (fun d pd =>
    dset Z.eqb d (fst pd) (match dget Z.eqb d (fst pd) with Some x => x | None => [] end ++ [snd pd])) l [].

Definition ukey_of (is_min : bool) : ukey := if is_min then KMin else KMax.

(** _UncoreFreq.py:159-175: one step of _get_freq_dies() *)
Definition get_die_freq {W} (io : uio W) (e : uenv) (is_min limit : bool) (pd : Z * Z) : M (ust W) Z :=
  let! l := get_freq_dies io e (ukey_of is_min) [(fst pd, [snd pd])] limit in
  match l with (_, f) :: _ => ret f | [] => throw EValue end.

(** The "sysfs" mechanism for dies. "mdl" (PStates.py:1034-1040) is the middle of the limits, rounded to the
    bus clock, which is 100MHz on all platforms with uncore frequency control (PStates.py:548-569). *)
Definition uncore_io {W} (io : uio W) (e : uenv) : freq_io (ust W) (Z * Z) :=
  FIO (fun is_min => get_die_freq io e is_min true) (fun is_min => get_die_freq io e is_min false)
      (fun sp pd => match sp with
                    | SMdl =>
                        let! lo := get_die_freq io e true true pd in
                        let! hi := get_die_freq io e false true pd in
                        ret (100000000 *
                             qround ((inject_Z lo + inject_Z hi) / inject_Z 2 / inject_Z 100000000)%Q)
                    | _ => throw EError
                    end)
      (fun is_min f l => set_freq_dies io e f (ukey_of is_min) (dies_dict l)).

(** ** Setting several properties, saving and restoring *)

(** Names of properties: "min_freq", "max_freq", "min_uncore_freq", "max_uncore_freq", and others. *)
Inductive pname := PFreq (uncore is_min : bool) | POther (n : Z).

Definition pname_eqb (a b : pname) : bool :=
  match a, b with
  | PFreq u m, PFreq u' m' => Bool.eqb u u' && Bool.eqb m m'
  | POther n, POther n' => n =? n'
  | _, _ => false
  end.

Section Setter.
  Context {W V N : Type}.
  (** _PepcCommon.py:165-188 set_prop_sname() for the CPUs or dies of the request (C41, C42); it gives the
      mechanism used. Transactions of the MSR and sysfs objects, which are no operations if there are no
      such objects (_PepcSetter.py:65-68, 73-76). *)
  Variable setp : pname -> V -> M W Z.
  Variable start commit : M W unit.

  (** _PepcSetter.py:24-33 _PropsSetter._set_prop_sname(): it gives the remaining settings ('spinfo') and the
      mechanisms used ('mnames_info'). *)
  Definition base_set_prop (pn : pname) (spinfo : list (pname * V)) (info : list (pname * Z))
    : M W (list (pname * V) * list (pname * Z)) :=
    match dget pname_eqb spinfo pn with
    | None => ret (spinfo, info)
    | Some v =>
        let! m := setp pn v in
        ret (ddel pname_eqb spinfo pn, dset pname_eqb info pn m)
    end.

  (** _PepcSetter.py:249-257: the other frequency; None is a name that no property has: "max_freq" with "max"
      replaced by "mim" *)
  Definition other_freq (pn : pname) : option pname :=
    match pn with PFreq u true => Some (PFreq u false) | _ => None end.

  (** _PepcSetter.py:219-266 PStatesSetter._set_prop_sname() *)
  Definition pstates_set_prop (pn : pname) (spinfo : list (pname * V)) (info : list (pname * Z))
    : M W (list (pname * V) * list (pname * Z)) :=
    fun w => match base_set_prop pn spinfo info w with
    | (Exn EFreqOrder, w1) =>
        match pn with
        | POther _ => (Exn EFreqOrder, w1)
        | PFreq _ _ =>
            match other_freq pn with
            | None => (Exn EFreqOrder, w1)
            | Some other =>
                match dget pname_eqb spinfo other, dget pname_eqb spinfo pn with
                | None, _ => (Exn EFreqOrder, w1)
                | Some _, None => (Exn EKey, w1)
                | Some ov, Some v =>
                    (let! m1 := setp other ov in
                     let! m2 := setp pn v in
                     ret (ddel pname_eqb (ddel pname_eqb spinfo other) pn,
                          dset pname_eqb (dset pname_eqb info other m1) pn m2)) w1
                end
            end
        end
    | r => r
    end.

  (** _PepcSetter.py:70-71 *)
  Fixpoint set_each (pns : list pname) (spinfo : list (pname * V)) (info : list (pname * Z))
    : M W (list (pname * Z)) :=
    match pns with
    | [] => ret info
    | pn :: rest =>
        let! (spinfo', info') := pstates_set_prop pn spinfo info in
        set_each rest spinfo' info'
    end.

  (** _PepcSetter.py:35-82 set_props() of PStatesSetter. The translation of values without a unit and the
      printing are not modelled. *)
  Definition set_props (spinfo : list (pname * V)) : M W (list (pname * Z)) :=
    start ;;
    let! info := set_each (map fst spinfo) spinfo [] in
    commit ;;
    ret info.

  (** _PepcSetter.py:122-131 _set_prop(): [setn pn v nums] sets the property for the CPUs, dies or packages
      'nums'. The values "min" and "max". *)
  Variable setn : pname -> V -> N -> M W unit.
  Variable vmin vmax : V.

  (** _PepcSetter.py:268-291 PStatesSetter._restore_prop() *)
  Definition restore_prop (pn : pname) (v : V) (nums : N) : M W unit :=
    fun w => match setn pn v nums w with
    | (Exn EFreqOrder, w1) =>
        match pn with
        | POther _ => (Exn EFreqOrder, w1)
        | PFreq u true => (setn (PFreq u false) vmax nums ;; setn (PFreq u true) v nums) w1
        | PFreq u false => (setn (PFreq u true) vmin nums ;; setn (PFreq u false) v nums) w1
        end
    | r => r
    end.

  (** _PepcSetter.py:138-174 _restore_props(): the saved values of every property, each with the CPUs, dies or
      packages that have it. Reading the file, its validation, and parsing the numbers (C01) are not modelled,
      nor is the printing. *)
  Definition restore_props (saved : list (pname * list (V * N))) : M W unit :=
    start ;;
    mfor saved (fun pv => mfor (snd pv) (fun vn => restore_prop (fst pv) (fst vn) (snd vn))) ;;
    commit.
End Setter.
