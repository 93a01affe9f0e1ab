(** Model of printing properties: pepctool/_PepcPrinter.py (class _PropsPrinter), pepctool/_PepcCommon.py
    'get_prop_sname()', and of restoring them from what was printed in the YAML format: pepctool/_PepcSetter.py
    (class _PropsSetter). Properties and mechanisms are named by numbers, as in M_Props. *)
From Coq Require Import Ascii String.
From Verif Require Import Base M_CPUInfo M_Text M_Props M_OpTarget.

(** _PepcPrinter.py:329-343 _get_pvinfo_num(): the number and the scope name of a property value dictionary. *)
Inductive pnum := NumCPU (cpu : Z) | NumDie (package die : Z) | NumPkg (package : Z).
Inductive rsname := RCPU | RDie | RPkg.
Definition num_sname (n : pnum) : rsname :=
  match n with NumCPU _ => RCPU | NumDie _ _ => RDie | NumPkg _ => RPkg end.
Definition rsname_eqb (a b : rsname) : bool :=
  match a, b with RCPU, RCPU | RDie, RDie | RPkg, RPkg => true | _, _ => false end.

(** The numbers that have a value: a list, or a dictionary package -> dies. *)
Inductive nums := NList (l : list Z) | NDict (d : list (Z * list Z)).

Section Print.
  Context {V : Type}.
  Variable veqb : V -> V -> bool.   (* "==" on property values *)

  (** A property value dictionary: number, value, mechanism name. None: the property is not supported. *)
  Definition pitem : Type := pnum * option V * Z.

  (** The dictionary {"sname": sname, "vals": {val: nums}} of a property, and the aggregate dictionary
      {mname: {pname: ...}} (_PepcPrinter.py:404-441). *)
  Definition pinfo : Type := rsname * list (option V * nums).
  Definition aggr : Type := list (Z * list (Z * pinfo)).

  Definition oveqb (a b : option V) : bool :=
    match a, b with None, None => true | Some x, Some y => veqb x y | _, _ => false end.

  (** _PepcPrinter.py:381-392: add a number to the numbers with the same value. The last two cases, in which the
      scope changes, end with a Python error other than Error. *)
  Definition add_num (o : option nums) (n : pnum) : res nums :=
    match o, n with
    | None, NumDie p d => Ok (NDict [(p, [d])])
    | None, NumCPU x | None, NumPkg x => Ok (NList [x])
    | Some (NDict t), NumDie p d =>
        Ok (NDict (dset Z.eqb t p (match dget Z.eqb t p with Some l => l ++ [d] | None => [d] end)))
    | Some (NList l), NumCPU x | Some (NList l), NumPkg x => Ok (NList (l ++ [x]))
    | Some (NDict _), _ | Some (NList _), NumDie _ _ => Exn EIndex
    end.

  (** _PepcPrinter.py:351-396: one property value dictionary. The conversion of lists and dictionaries to tuples is
      not modelled: a value of type V is what can be a key. *)
  Definition add_item (pname : Z) (skip_unsupported : bool) (ap : aggr) (it : pitem) : res aggr :=
    let '(num, val, mname) := it in
    if skip_unsupported && match val with None => true | _ => false end then Ok ap
    else
      let md := match dget Z.eqb ap mname with Some md => md | None => [] end in
      let '(sname, vals) := match dget Z.eqb md pname with Some pi => pi | None => (num_sname num, []) end in
      let? ns := add_num (dget oveqb vals val) num in
      if rsname_eqb (num_sname num) sname
      then Ok (dset Z.eqb ap mname (dset Z.eqb md pname (sname, dset oveqb vals val ns)))
      else Exn EError.

  Fixpoint add_items (pname : Z) (skip_unsupported : bool) (ap : aggr) (items : list pitem) : res aggr :=
    match items with
    | [] => Ok ap
    | it :: t => let? ap' := add_item pname skip_unsupported ap it in add_items pname skip_unsupported ap' t
    end.

  (** _PepcPrinter.py:458-462: merge the dictionary of one property. *)
  Definition merge (a ap : aggr) : aggr :=
    fold_left (fun a mi =>
      dset Z.eqb a (fst mi)
        (fold_left (fun d pi => dset Z.eqb d (fst pi) (snd pi)) (snd mi)
           (match dget Z.eqb a (fst mi) with Some d => d | None => [] end))) ap a.

  Section Build.
    Context {S : Type}.
    Variable rd : Z -> bool -> M S (list pitem).   (* get_prop_sname(); the flag: override_sname="CPU" *)
    Variable props : list (Z * pdesc).             (* self._pobj.props *)

    (** _PepcPrinter.py:345-398 _build_aggr_pinfo_pname(). Simplification: all the values are read before the first
        one is looked at. *)
    Definition build_pname (pname : Z) (skip_unsupported override : bool) : M S aggr :=
      let! items := rd pname override in
      lift (add_items pname skip_unsupported [] items).

    (** _PepcPrinter.py:443-464: the loop of _build_aggr_pinfo(). *)
    Fixpoint build_loop (pnames : list Z) (skip_ro skip_unsupported : bool) (a : aggr) : M S aggr :=
      match pnames with
      | [] => ret a
      | pname :: rest =>
          match dget Z.eqb props pname with
          | None => throw EKey
          | Some p =>
              if skip_ro && negb (pd_writable p) then build_loop rest skip_ro skip_unsupported a
              else
                let! ap := (fun s => match build_pname pname skip_unsupported false s with
                                     | (Exn EUsePerCPU, s') => build_pname pname skip_unsupported true s'
                                     | r => r
                                     end) in
                build_loop rest skip_ro skip_unsupported (merge a ap)
          end
      end.

    (** _PepcPrinter.py:466-478 _normalize_pnames(). None: "all". *)
    Definition normalize_pnames (pnames : option (list Z)) (skip_ro : bool) : res (list Z) :=
      let? l := match pnames with
                | None => Ok (map fst props)
                | Some l => let? _ := rmap l (fun p => match dget Z.eqb props p with Some _ => Ok tt | None => Exn EError end) in
                            Ok l
                end in
      if skip_ro
      then let? ll := rmap l (fun p => match dget Z.eqb props p with
                                       | Some d => Ok (if pd_writable d then [p] else [])
                                       | None => Exn EKey
                                       end) in Ok (concat ll)
      else Ok l.

    (** _PepcPrinter.py:480-502: what print_props() prints. *)
    Definition aggr_props (pnames : option (list Z)) (skip_ro skip_unsupported : bool) : M S aggr :=
      let! l := lift (normalize_pnames pnames skip_ro) in
      build_loop l skip_ro skip_unsupported [].
  End Build.

  (** _PepcPrinter.py:559-604 _adjust_aggr_pinfo_pcs_limit(). [pcs] is the property 'pkg_cstate_limit', [locked] are the
      CPUs of [cpus] for which 'pkg_cstate_limit_lock' is "on". The loop at 593-602 takes the keys "sname" and "vals" for
      values of the property: it replaces the dictionary of the values by a list, and printing then fails with
      AttributeError (EIndex here) at 304 or 260. Simplification: the lock is read once, and the printing that follows is
      included in the failure. *)
  Definition adjust_pcs_limit (pcs : Z) (cpus locked : list Z) (a : aggr) : res aggr :=
    match locked with
    | [] => Ok a
    | _ =>
        if Z.of_nat (length locked) =? Z.of_nat (length cpus)
        then Ok (map (fun md => (fst md, ddel Z.eqb (snd md) pcs)) a)
        else if existsb (fun md => match dget Z.eqb (snd md) pcs with Some _ => true | None => false end) a
             then Exn EIndex else Ok a
    end.

  (** ** The human format *)

  Definition same_set (a b : list Z) : bool := subsetb a b && subsetb b a.
  Definition len {A} (l : list A) : Z := Z.of_nat (length l).

  (** _PepcPrinter.py:34-55 _fmt_cpus() *)
  Definition fmt_cpus (ci : cpuinfo) (cpus : list Z) : res str :=
    if len cpus =? 1 then Ok (s2l "CPU " ++ rangify cpus)
    else if same_set cpus (get_cpus ci) then Ok (s2l "all CPUs")
    else
      let? (pkgs, rem) := cpus_div_packages ci (Some cpus) None in
      let msg := s2l "CPUs " ++ rangify cpus in
      if negb (len pkgs =? 0) && (len rem =? 0)
      then if len pkgs =? 1 then Ok (msg ++ s2l " (package " ++ rangify pkgs ++ s2l ")")
           else Ok (msg ++ s2l " (packages " ++ rangify pkgs ++ s2l ")")
      else Ok msg.

  (** _PepcPrinter.py:57-69 _fmt_packages() *)
  Definition fmt_packages (ci : cpuinfo) (packages : list Z) : res str :=
    let? allpkgs := get_packages ci in
    if same_set packages allpkgs
    then if len allpkgs =? 1 then Ok (s2l "all CPUs") else Ok (s2l "all packages")
    else if len packages =? 1 then Ok (s2l "package " ++ rangify packages)
    else Ok (s2l "packages " ++ rangify packages).

  (** pepclibs/CPUInfo.py:588-600 get_dies_count() with the default arguments *)
  Definition get_dies_count (ci : cpuinfo) (pkg : Z) : res Z :=
    let? l := get_dies ci pkg true true in Ok (len l).

  (** _PepcPrinter.py:91-102: the text of the dies of one package. *)
  Definition fmt_pkg_dies (ci : cpuinfo) (pd : Z * list Z) : res str :=
    let? n := get_dies_count ci (fst pd) in
    let t := if len (snd pd) =? n then s2l "all dies"
             else if len (snd pd) =? 1 then s2l "die " ++ rangify (snd pd)
             else s2l "dies " ++ rangify (snd pd) in
    Ok (t ++ s2l " in package " ++ dec (fst pd)).

  (** ", ".join(l) *)
  Fixpoint join_comma (l : list str) : str :=
    match l with
    | [] => []
    | [x] => x
    | x :: t => x ++ s2l ", " ++ join_comma t
    end.

  (** _PepcPrinter.py:71-104 _fmt_dies() *)
  Definition fmt_dies (ci : cpuinfo) (d : list (Z * list Z)) : res str :=
    let? full := rmap d (fun pd => let? n := get_dies_count ci (fst pd) in Ok (len (snd pd) =? n)) in
    let? allpkgs := get_packages ci in
    if forallb (fun b => b) full && (len d =? len allpkgs)
    then if len allpkgs =? 1 then Ok (s2l "all CPUs") else Ok (s2l "all dies in all packages")
    else
      let? l := rmap d (fmt_pkg_dies ci) in
      Ok (join_comma l).

  (** _PepcPrinter.py:106-122 _fmt_nums(). In the die case with one die in package 0, the dictionary is used as the
      list of its keys. *)
  Definition fmt_nums (ci : cpuinfo) (sname : rsname) (n : nums) : res str :=
    match sname, n with
    | RCPU, NList l => fmt_cpus ci l
    | RPkg, NList l => fmt_packages ci l
    | RDie, NDict d =>
        let? n0 := get_dies_count ci 0 in
        if n0 =? 1 then fmt_packages ci (map fst d) else fmt_dies ci d
    | _, _ => Exn EIndex
    end.

  (** A printed line about a property: the property, the value, and the text after " for ", if there is one. *)
  Definition hline : Type := Z * option V * option str.

  (** _PepcPrinter.py:202-265: the lines of one mechanism, and how many values were counted. [global] are the
      properties with the "global" scope; [blank] are the empty lists and dictionaries, which are not printed. How a
      value is written (_format_value_human()) is not modelled. *)
  Fixpoint human_vals (ci : cpuinfo) (global : bool) (blank : V -> bool) (pname : Z) (sname : rsname)
      (vals : list (option V * nums)) : res (list hline) :=
    match vals with
    | [] => Ok []
    | (val, n) :: t =>
        let? sfx := (if global then Ok None else let? x := fmt_nums ci sname n in Ok (Some x)) in
        let? rest := human_vals ci global blank pname sname t in
        Ok (if match val with Some v => blank v | None => false end then rest else (pname, val, sfx) :: rest)
    end.

  Fixpoint human_props (ci : cpuinfo) (global : Z -> bool) (blank : V -> bool) (d : list (Z * pinfo)) : res (list hline) :=
    match d with
    | [] => Ok []
    | (pname, (sname, vals)) :: t =>
        let? l := human_vals ci (global pname) blank pname sname vals in
        let? rest := human_props ci global blank t in
        Ok (l ++ rest)
    end.

  (** _PepcPrinter.py:267-285 _print_aggr_pinfo_human(): the lines, by mechanism. *)
  Fixpoint print_human (ci : cpuinfo) (global : Z -> bool) (blank : V -> bool) (a : aggr) : res (list (Z * list hline)) :=
    match a with
    | [] => Ok []
    | (m, d) :: t =>
        let? l := human_props ci global blank d in
        let? rest := print_human ci global blank t in
        Ok ((m, l) :: rest)
    end.

  (** ** The YAML format *)

  (** The text of numbers in a file. *)
  Inductive ynums := YText (t : str) | YDict (d : list (Z * str)).
  Record yval := YV { y_value : option V; y_sname : rsname; y_nums : ynums }.
  Definition ydict : Type := list (Z * list yval).

  (** _PepcPrinter.py:317-322 *)
  Definition yaml_nums (n : nums) : ynums :=
    match n with
    | NList l => YText (rangify l)
    | NDict d => YDict (map (fun pd => (fst pd, rangify (snd pd))) d)
    end.

  (** _PepcPrinter.py:304-324: the values of one property under one mechanism. "not supported" is None. *)
  Definition yaml_add (yd : ydict) (pname : Z) (sname : rsname) (vals : list (option V * nums)) : ydict :=
    fold_left (fun yd vn =>
      dset Z.eqb yd pname ((match dget Z.eqb yd pname with Some l => l | None => [] end) ++
                           [YV (fst vn) sname (yaml_nums (snd vn))])) vals yd.

  (** _PepcPrinter.py:296-327 _print_aggr_pinfo_yaml(): the dictionary that is written. Simplification: a value, a
      text or a number that is written in YAML is what is read from it. *)
  Definition yaml_pinfo (a : aggr) : ydict :=
    fold_left (fun yd md => fold_left (fun yd pi => yaml_add yd (fst pi) (fst (snd pi)) (snd (snd pi))) (snd md) yd) a [].

  (** ** Restoring *)

  (** _PepcSetter.py:148-161: the numbers in a file. *)
  Definition parse_ynums (y : ynums) : res nums :=
    match y with
    | YText t => let? l := parse_int_list "," true [NStr t] in Ok (NList l)
    | YDict d => let? dd := rmap d (fun pt => let? l := parse_int_list "," true [NStr (snd pt)] in Ok (fst pt, l)) in
                 Ok (NDict dd)
    end.

  Section Restore.
    Context {S : Type}.
    Variable setp : Z -> rsname -> option V -> nums -> M S unit.   (* _restore_prop() *)

    (** _PepcSetter.py:146-163: _restore_props(). The transactions (141-144, 171-174) and the printing (165-169) are not
        modelled. *)
    Definition restore_props (d : ydict) : M S unit :=
      mfor d (fun pv => mfor (snd pv) (fun y =>
        let! n := lift (parse_ynums (y_nums y)) in
        setp (fst pv) (y_sname y) (y_value y) n)).

    (** _PepcSetter.py:84-120 _validate_loaded_data() and 187-190. Simplification: the types are right and there is one
        scope name. *)
    Definition restore (known : list Z) (d : ydict) : M S unit :=
      lift (let? _ := rmap d (fun pv => if inb (fst pv) known then Ok tt else Exn EError) in Ok tt) ;;
      restore_props d.
  End Restore.
End Print.

(** ** The printer and the setter of a sub-class of _PropsClassBase *)
Section Class.
  Context {St V : Type}.
  Variable cls : pclass St V.

  Definition pstate : Type := pst St V * optarget.
  Definition on_props {A} (m : M (pst St V) A) : M pstate A :=
    fun s => match m (fst s) with (r, s') => (r, (s', snd s)) end.
  Definition on_target {A} (m : M optarget A) : M pstate A :=
    fun s => match m (snd s) with (r, s') => (r, (fst s, s')) end.

  (** The dictionary {package: [dies]} that 'OpTarget.get_dies()' returns; the model of that method gives its (package,
      die) pairs. *)
  Definition dies_dict (l : list (Z * Z)) : list (Z * nums_t) :=
    map (fun p => (p, Some (map snd (filter (fun pd => fst pd =? p) l)))) (dedup (map fst l)).

  Definition item_of {K} (f : K -> pnum) (pv : pvinfo K V) : @pitem V := (f (pv_key pv), pv_val pv, pv_mname pv).

  (** pepclibs/_PropsClassBase.py:189-208 get_sname() *)
  Definition get_sname (pname : Z) : M (pst St V) (option scope) :=
    match dget Z.eqb (pc_props cls) pname with
    | None => throw EError
    | Some _ =>
        fun s => match pc_sname cls (ps_st s) pname with
                 | Some sc => (Ok (Some sc), s)
                 | None => (let! known := try_set_sname cls pname in
                            if known then gets (fun s => pc_sname cls (ps_st s) pname) else ret None) s
                 end
    end.

  (** pepctool/_PepcCommon.py:110-135, 137-162 get_prop_sname(). [sname] is what 'get_sname()' gives (None: the
      property is not supported, then it is "CPU"). *)
  Definition get_prop_sname (mnames : option (list Z)) (pname : Z) (override : bool) : M pstate (list (@pitem V)) :=
    let! sn := (if override then ret SCPU
                else let! o := on_props (get_sname pname) in ret (match o with Some sc => sc | None => SCPU end)) in
    let! w := on_target (sname_and_nums (pc_ci cls) sn) in
    match w with
    | OnCPUs l => let! out := on_props (get_prop_cpus cls pname (Some l) mnames) in ret (map (item_of NumCPU) out)
    | OnDies l => let! out := on_props (get_prop_dies cls pname (Some (dies_dict l)) mnames) in
                  ret (map (item_of (fun pd => NumDie (fst pd) (snd pd))) out)
    | OnPackages l => let! out := on_props (get_prop_packages cls pname (Some l) mnames) in ret (map (item_of NumPkg) out)
    end.

  (** _PepcPrinter.py:480-506 print_props() with the YAML format (mechanisms: all). *)
  Definition save_props (pnames : option (list Z)) : M pstate (@ydict V) :=
    let! a := aggr_props (pc_veqb cls) (get_prop_sname None) (pc_props cls) pnames true true in
    ret (yaml_pinfo a).

  Definition dies_arg_of (d : list (Z * list Z)) : dies_arg := Some (map (fun pl => (fst pl, Some (snd pl))) d).

  (** _PepcSetter.py:122-136 _set_prop(), _restore_prop() *)
  Definition set_prop (pname : Z) (sname : rsname) (val : option V) (n : nums) : M (pst St V) unit :=
    match sname, n with
    | RCPU, NList l => let! _ := set_prop_cpus cls pname val (Some l) None in ret tt
    | RPkg, NList l => let! _ := set_prop_packages cls pname val (Some l) None in ret tt
    | RDie, NDict d => let! _ := set_prop_dies cls pname val (dies_arg_of d) None in ret tt
    | _, _ => throw EIndex
    end.
End Class.
