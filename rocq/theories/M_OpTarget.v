(** Model of pepctool/_OpTarget.py: what an operation targets, and of pepctool/_PepcCommon.py:110-135,
    at which level a property is accessed. *)
From Verif Require Import Base M_CPUInfo.

(** The "cores" and "dies" arguments: not given, a collection of numbers (or "all"), or a dictionary
    {package: numbers} (pepctool/_OpTarget.py:275-290). Dictionary keys are distinct in Python; the
    model keeps the items as a list. *)
Inductive uarg :=
| UNone
| UNums (n : nums_t)
| UDict (d : list (Z * list Z)).

(** The constructor arguments (pepctool/_OpTarget.py:267-268). [None] is "not given". The strings are
    already parsed into numbers (that is Trivial.parse_int_list(), see M_Text.v); sibling numbers are
    lists, empty if not given ("all" is not among their documented values). *)
Record otargs := OA {
  oa_cpus : option nums_t; oa_cores : uarg; oa_modules : option nums_t; oa_dies : uarg;
  oa_packages : option nums_t; oa_core_sib : list Z; oa_module_sib : list Z; oa_offline_ok : bool }.

(** The object: the attributes set by the constructor (pepctool/_OpTarget.py:377-389) and the cached
    results. [None] and an empty collection are only ever tested for truth, so both are [[]].
    'core_sib_cpus' and 'module_sib_cpus' are not modelled (they only feed debugging messages). The
    cached dictionary of dies is the list of its (package, die) pairs. *)
Record optarget := OT {
  ot_cpus : list Z; ot_cores : list (Z * list Z); ot_modules : list Z; ot_dies : list (Z * list Z);
  ot_packages : list Z; ot_core_sib : list Z; ot_module_sib : list Z; ot_offline_ok : bool;
  ot_c_cpus : option (list Z); ot_c_dies : option (list (Z * Z)); ot_c_packages : option (list Z) }.

(** Truth value of a collection. *)
Definition truthy {A} (l : list A) : bool := match l with [] => false | _ :: _ => true end.

(** Truth values of the arguments: "all" is true, an empty collection is not. *)
Definition given_nums (a : option nums_t) : bool :=
  match a with None => false | Some None => true | Some (Some l) => truthy l end.
Definition given_units (a : uarg) : bool :=
  match a with UNone => false | UNums None => true | UNums (Some l) => truthy l | UDict d => truthy d end.
Definition units_all (a : uarg) : bool := match a with UNums None => true | _ => false end.

(** pepctool/_OpTarget.py:199-207 _parse_input_nums() *)
Definition parse_nums (n : nums_t) : nums_t := option_map dedup n.

(** pepctool/_OpTarget.py:249-263: the inner loop of _build_package_indexed_dict(), over the requested
    numbers. [seen] holds the keys of 'num2pkg'; the first result is the list for this package. *)
Fixpoint index_package (pnums nums seen : list Z) : res (list Z * list Z) :=
  match nums with
  | [] => Ok ([], seen)
  | n :: t =>
      if inb n pnums then
        if inb n seen then Exn EError
        else let? (l, s) := index_package pnums t (n :: seen) in Ok (n :: l, s)
      else index_package pnums t seen
  end.

(** pepctool/_OpTarget.py:245-265: the outer loop, over the packages. *)
Fixpoint index_packages (pkg2nums : list (Z * list Z)) (nums seen : list Z) : res (list (Z * list Z)) :=
  match pkg2nums with
  | [] => Ok []
  | (p, pnums) :: rest =>
      let? (l, s) := index_package pnums nums seen in
      let? r := index_packages rest nums s in
      Ok (if truthy l then (p, l) :: r else r)
  end.

(** pepctool/_OpTarget.py:209-265 _build_package_indexed_dict(). [pkg_units] is package_to_cores() or
    package_to_dies(). Only called with a list of numbers: "all" implies that packages are given. *)
Definition build_indexed (ci : cpuinfo) (pkg_units : Z -> res (list Z)) (nums : list Z)
  : res (list (Z * list Z)) :=
  let? pkgs := get_packages ci in
  let? pkg2nums := rmap pkgs (fun p => let? l := pkg_units p in Ok (p, l)) in
  if subsetb nums (flat_map snd pkg2nums) then index_packages pkg2nums nums [] else Exn EError.

(** pepctool/_OpTarget.py:433-441 and 454-462: the dictionary form. Every number is normalised on its
    own and appended once; a package with an empty list of numbers gets no key. *)
Definition resolve_dict (ci : cpuinfo) (norm : nums_t -> Z -> res (list Z)) (d : list (Z * list Z))
  : res (list (Z * list Z)) :=
  let? l := rmap d (fun e => let '(p, nums) := e in
                  let? _ := normalize_packages ci (Some [p]) in
                  if truthy nums then let? l := norm (Some nums) p in Ok [(p, l)] else Ok []) in
  Ok (concat l).

(** pepctool/_OpTarget.py:424-441 (cores) and 443-462 (dies). [norm] is normalize_cores() or
    normalize_dies(), [pkgs_given] is the truth of 'packages'. *)
Definition resolve_units (ci : cpuinfo) (pkg_units : Z -> res (list Z))
    (norm : nums_t -> Z -> res (list Z)) (a : uarg) (pkgs_given : bool) (pkgs : list Z)
  : res (list (Z * list Z)) :=
  if given_units a then
    match a with
    | UNone => Ok []
    | UNums n =>
        if pkgs_given then rmap pkgs (fun p => let? l := norm (parse_nums n) p in Ok (p, l))
        else match parse_nums n with
             | Some l => build_indexed ci pkg_units l
             | None => Exn EError
             end
    | UDict d => resolve_dict ci norm d
    end
  else Ok [].

(** pepctool/_OpTarget.py:59-75: CPU numbers of the items of a dictionary. *)
Definition units_cpus (to_cpus : nums_t -> nums_t -> res (list Z)) (d : list (Z * list Z))
  : res (list Z) :=
  let? l := rmap d (fun e => to_cpus (Some (snd e)) (Some [fst e])) in Ok (concat l).

Definition excluded (s : scope) (exclude : list scope) : bool := existsb (scope_eqb s) exclude.

(** pepctool/_OpTarget.py:40-85 _get_cpus(). Note that dies and packages are excluded by "module". *)
Definition get_cpus_impl (ci : cpuinfo) (ot : optarget) (exclude : list scope) : res (list Z) :=
  let in_cpus := if excluded SCPU exclude then [] else ot_cpus ot in
  let in_cores := if excluded SCore exclude then [] else ot_cores ot in
  let in_core_sib := if excluded SCore exclude then [] else ot_core_sib ot in
  let in_modules := if excluded SModule exclude then [] else ot_modules ot in
  let in_module_sib := if excluded SModule exclude then [] else ot_module_sib ot in
  let in_dies := if excluded SModule exclude then [] else ot_dies ot in
  let in_packages := if excluded SModule exclude then [] else ot_packages ot in
  let? by_cores := units_cpus (cores_to_cpus ci) in_cores in
  let? by_modules := if truthy in_modules then modules_to_cpus ci (Some in_modules) else Ok [] in
  let? by_dies := units_cpus (dies_to_cpus ci) in_dies in
  let? by_packages := if truthy in_packages && negb (truthy (ot_cores ot) || truthy (ot_dies ot))
                      then packages_to_cpus ci (Some in_packages) else Ok [] in
  let cpus := in_cpus ++ by_cores ++ by_modules ++ by_dies ++ by_packages in
  let? cpus := if truthy in_core_sib then select_core_siblings ci cpus in_core_sib else Ok cpus in
  if truthy in_module_sib then select_module_siblings ci cpus in_module_sib
  else normalize_cpus ci (Some cpus) (ot_offline_ok ot).

(** pepctool/_OpTarget.py:267-481 __init__(). The 'cpuinfo' argument is always given; the debugging
    messages are left out. *)
Definition ot_init (ci : cpuinfo) (a : otargs) : res optarget :=
  let nothing := negb (given_nums (oa_cpus a)) && negb (given_units (oa_cores a)) &&
                 negb (given_nums (oa_modules a)) && negb (given_units (oa_dies a)) &&
                 negb (given_nums (oa_packages a)) in
  let cpus := if nothing then Some None else oa_cpus a in
  let dies := if nothing then UNums None else oa_dies a in
  let packages := if nothing then Some None else oa_packages a in
  let packages := if negb (given_nums packages) && (given_units dies || given_units (oa_cores a)) &&
                     (units_all dies || units_all (oa_cores a))
                  then Some None else packages in
  let? r_cpus := match cpus with
                 | Some n => if given_nums cpus then normalize_cpus ci (parse_nums n) (oa_offline_ok a)
                             else Ok []
                 | None => Ok []
                 end in
  let? r_modules := match oa_modules a with
                    | Some n => if given_nums (oa_modules a) then normalize_modules ci (parse_nums n)
                                else Ok []
                    | None => Ok []
                    end in
  let? r_packages := match packages with
                     | Some n => if given_nums packages then normalize_packages ci (parse_nums n)
                                 else Ok []
                     | None => Ok []
                     end in
  let? r_cores := resolve_units ci (package_to_cores ci) (normalize_cores ci) (oa_cores a)
                    (given_nums packages) r_packages in
  let? r_dies := resolve_units ci (package_to_dies ci) (normalize_dies ci) dies
                   (given_nums packages) r_packages in
  let ot c_sib m_sib cache := OT r_cpus r_cores r_modules r_dies r_packages c_sib m_sib
                                (oa_offline_ok a) cache None None in
  let c_sib := dedup (oa_core_sib a) in
  let m_sib := dedup (oa_module_sib a) in
  let? cache := if truthy (oa_core_sib a)
                then let? c := get_cpus_impl ci (ot c_sib [] None) [] in
                     let? _ := select_core_siblings ci c c_sib in Ok (Some c)
                else Ok None in
  let? cache := if truthy (oa_module_sib a)
                then let? c := get_cpus_impl ci (ot c_sib m_sib None) [] in
                     let? _ := select_core_siblings ci c m_sib in Ok (Some c)
                else Ok cache in
  Ok (ot c_sib m_sib cache).

Definition OM (A : Type) := M optarget A.
Definition set_c_cpus (v : option (list Z)) (o : optarget) : optarget :=
  OT (ot_cpus o) (ot_cores o) (ot_modules o) (ot_dies o) (ot_packages o) (ot_core_sib o)
     (ot_module_sib o) (ot_offline_ok o) v (ot_c_dies o) (ot_c_packages o).
Definition set_c_dies (v : option (list (Z * Z))) (o : optarget) : optarget :=
  OT (ot_cpus o) (ot_cores o) (ot_modules o) (ot_dies o) (ot_packages o) (ot_core_sib o)
     (ot_module_sib o) (ot_offline_ok o) (ot_c_cpus o) v (ot_c_packages o).
Definition set_c_packages (v : option (list Z)) (o : optarget) : optarget :=
  OT (ot_cpus o) (ot_cores o) (ot_modules o) (ot_dies o) (ot_packages o) (ot_core_sib o)
     (ot_module_sib o) (ot_offline_ok o) (ot_c_cpus o) (ot_c_dies o) v.

Definition pair_eqb2 (a b : Z * Z) : bool := (fst a =? fst b) && (snd a =? snd b).

(** pepctool/_OpTarget.py:146-171: get_dies() when nothing is cached. *)
Definition compute_dies (ci : cpuinfo) (ot : optarget) (strict : bool) : res (list (Z * Z)) :=
  let? cpus := get_cpus_impl ci ot [SDie] in
  let? (dies, rem) := cpus_div_dies ci (Some cpus) in
  if strict && truthy rem then Exn ENoTarget
  else
    let? more :=
      if truthy (ot_dies ot) then Ok (flat_map (fun e => map (pair (fst e)) (snd e)) (ot_dies ot))
      else if negb (truthy (ot_cpus ot)) && negb (truthy (ot_cores ot)) &&
              negb (truthy (ot_modules ot)) && truthy (ot_packages ot)
      then let? l := rmap (ot_packages ot) (fun p => let? d := M_CPUInfo.get_dies ci p true true in
                                                  Ok (map (pair p) d)) in
           Ok (concat l)
      else Ok [] in
    Ok (list_dedup pair_eqb2 (dies ++ more)).

(** pepctool/_OpTarget.py:130-171 get_dies() *)
Definition ot_get_dies (ci : cpuinfo) (strict : bool) : OM (list (Z * Z)) :=
  let! c := gets ot_c_dies in
  match c with
  | Some d => ret d
  | None =>
      let! ot := gets (fun o => o) in
      let! d := lift (compute_dies ci ot strict) in
      modify (set_c_dies (Some d)) ;; ret d
  end.

(** pepctool/_OpTarget.py:187-196: get_packages() when nothing is cached. *)
Definition compute_packages (ci : cpuinfo) (ot : optarget) (strict : bool) : res (list Z) :=
  let? cpus := get_cpus_impl ci ot [SPackage] in
  let? (pkgs, rem) := cpus_div_packages ci (Some cpus) None in
  if strict && truthy rem then Exn ENoTarget
  else Ok (dedup (pkgs ++ ot_packages ot)).

(** pepctool/_OpTarget.py:173-197 get_packages() *)
Definition ot_get_packages (ci : cpuinfo) (strict : bool) : OM (list Z) :=
  let! c := gets ot_c_packages in
  match c with
  | Some p => ret p
  | None =>
      let! ot := gets (fun o => o) in
      let! p := lift (compute_packages ci ot strict) in
      modify (set_c_packages (Some p)) ;; ret p
  end.

(** pepctool/_OpTarget.py:87-102 _only_io_dies(); the loop over the packages of the dictionary is a
    loop over its (package, die) pairs. *)
Definition only_io_dies (ci : cpuinfo) : OM bool :=
  let! dies := ot_get_dies ci true in
  if truthy dies then
    let! l := lift (rmap dies (fun pd => let? io := M_CPUInfo.get_dies ci (fst pd) false true in
                                         Ok (inb (snd pd) io))) in
    ret (forallb (fun b => b) l)
  else ret false.

(** pepctool/_OpTarget.py:104-128 get_cpus(). The text of the last exception is left out, but not the
    get_dies() call made for it. *)
Definition ot_get_cpus (ci : cpuinfo) : OM (list Z) :=
  let! c := gets ot_c_cpus in
  let! cpus := match c with
               | Some l => ret l
               | None => let! ot := gets (fun o => o) in
                         let! l := lift (get_cpus_impl ci ot []) in
                         modify (set_c_cpus (Some l)) ;; ret l
               end in
  if truthy cpus then ret cpus
  else
    let! ot := gets (fun o => o) in
    if truthy (ot_dies ot) then
      let! io := only_io_dies ci in
      if io then let! _ := ot_get_dies ci true in throw ENoCPUTarget
      else throw ENoTarget
    else throw ENoTarget.

(** What a property is accessed on (pepctool/_PepcCommon.py:110-135). *)
Inductive on_what :=
| OnCPUs (l : list Z)
| OnDies (l : list (Z * Z))
| OnPackages (l : list Z).

(** 'except ErrorNoTarget' *)
Definition catch_no_target {A} (m : OM A) (h : OM A) : OM A := fun s =>
  match m s with
  | (Exn ENoTarget, s') => h s'
  | r => r
  end.

(** pepctool/_PepcCommon.py:110-135 _get_sname_and_nums(). [sname] is the scope of the property
    ("CPU" if it has none); ErrorNoCPUTarget is not a kind of ErrorNoTarget. *)
Definition sname_and_nums (ci : cpuinfo) (sname : scope) : OM on_what :=
  let on_cpus := let! l := ot_get_cpus ci in ret (OnCPUs l) in
  match sname with
  | SPackage => catch_no_target (let! l := ot_get_packages ci true in ret (OnPackages l)) on_cpus
  | SDie => catch_no_target (let! l := ot_get_dies ci true in ret (OnDies l)) on_cpus
  | _ => on_cpus
  end.
