(** Model of the CPU topology queries: pepclibs/CPUInfo.py and pepclibs/_CPUInfoBase.py. *)
From Verif Require Import Base.

(** pepclibs/_CPUInfoBase.py:29 *)
Definition NA : Z := 4294967295.

(** One line of the topology table (pepclibs/CPUInfo.py:95-112). The code fills the levels lazily
    (_CPUInfoBase.py:268-313); the model keeps fully filled lines, i.e. it describes the table
    restricted to the levels that were requested. *)
Record tline := TL {
  t_cpu : Z; t_core : Z; t_module : Z; t_die : Z; t_node : Z; t_pkg : Z }.

(** pepclibs/_CPUInfoBase.py:25 LEVELS *)
Inductive level := LCPU | LCore | LModule | LDie | LNode | LPkg.

(** tline[lvl] *)
Definition lget (l : level) (t : tline) : Z :=
  match l with
  | LCPU => t_cpu t | LCore => t_core t | LModule => t_module t
  | LDie => t_die t | LNode => t_node t | LPkg => t_pkg t
  end.

(** pepclibs/CPUInfo.py:1136 _lvl2idx *)
Definition lidx (l : level) : Z :=
  match l with LCPU => 0 | LCore => 1 | LModule => 2 | LDie => 3 | LNode => 4 | LPkg => 5 end.

(** The state of a CPUInfo object that the queries depend on: the topology lines, the online and
    present CPU sets, and the cached I/O and compute die sets, as (package, die) pairs
    (pepclibs/_CPUInfoBase.py:449-467). *)
Record cpuinfo := CI {
  ci_topo : list tline;
  ci_online : list Z;
  ci_all : list Z;
  ci_io : list (Z * Z);
  ci_comp : list (Z * Z) }.

Definition pair_inb (p : Z * Z) (l : list (Z * Z)) : bool :=
  existsb (fun q => (fst p =? fst q) && (snd p =? snd q)) l.

(** pepclibs/_CPUInfoBase.py:471-476 _sorting_map *)
Definition skeys (order : level) : list level :=
  match order with
  | LCPU => [LCPU]
  | LCore => [LPkg; LCore; LCPU]
  | LModule => [LModule; LCPU]
  | LDie => [LPkg; LDie; LCPU]
  | LNode => [LNode; LCPU]
  | LPkg => [LPkg; LCPU]
  end.

(** pepclibs/_CPUInfoBase.py:228-232 _sort_topology() and the lookup of _get_topology() *)
Definition tkey (order : level) (t : tline) : list Z := map (fun l => lget l t) (skeys order).
Definition get_topology (ci : cpuinfo) (order : level) : list tline :=
  sort_by (fun a b => lexleb (tkey order a) (tkey order b)) (ci_topo ci).

(** A "collection of numbers or 'all'" argument: None is 'all'. *)
Definition nums_t := option (list Z).

(** pepclibs/CPUInfo.py:194-275 _get_level_nums() *)
Definition get_level_nums (ci : cpuinfo) (sublvl lvl : level) (nums : nums_t) (order : level)
  : res (list Z) :=
  if lidx lvl <? lidx sublvl then Exn EError
  else
    let rows := filter (fun t => negb (lget lvl t =? NA)) (get_topology ci order) in
    let valid := map (lget lvl) rows in
    let sel := filter (fun t => negb (lget sublvl t =? NA) &&
                                match nums with
                                | None => true
                                | Some l => inb (lget lvl t) l
                                end) rows in
    let result := dedup (map (lget sublvl) sel) in
    match nums with
    | None => Ok result
    | Some l => if subsetb l valid then Ok result else Exn EError
    end.

(** pepclibs/CPUInfo.py:277-288 get_cpus(), default order *)
Definition get_cpus (ci : cpuinfo) : list Z := zsort (ci_online ci).

(** pepclibs/CPUInfo.py:290-295 get_offline_cpus(). The code iterates over a set; the model gives
    the present CPUs in the order of [ci_all]. *)
Definition get_offline_cpus (ci : cpuinfo) : list Z :=
  filter (fun c => negb (inb c (ci_online ci))) (ci_all ci).

(** pepclibs/CPUInfo.py:367-377 get_packages() *)
Definition get_packages (ci : cpuinfo) : res (list Z) := get_level_nums ci LPkg LPkg None LPkg.
(** pepclibs/CPUInfo.py:310-320 get_modules() *)
Definition get_modules (ci : cpuinfo) : res (list Z) := get_level_nums ci LModule LModule None LModule.
(** pepclibs/CPUInfo.py:355-365 get_nodes() *)
Definition get_nodes (ci : cpuinfo) : res (list Z) := get_level_nums ci LNode LNode None LNode.

(** pepclibs/CPUInfo.py:383-404 get_cpu_levels(): the topology line of a CPU *)
Definition get_cpu_tline (ci : cpuinfo) (cpu : Z) : res tline :=
  match find (fun t => cpu =? t_cpu t) (get_topology ci LCPU) with
  | Some t => Ok t
  | None => Exn EError
  end.

(** pepclibs/CPUInfo.py:436-482 package_to_*(), each with its default order *)
Definition package_to_cpus (ci : cpuinfo) (p : Z) := get_level_nums ci LCPU LPkg (Some [p]) LCPU.
Definition package_to_cores (ci : cpuinfo) (p : Z) := get_level_nums ci LCore LPkg (Some [p]) LCore.
Definition package_to_modules (ci : cpuinfo) (p : Z) :=
  get_level_nums ci LModule LPkg (Some [p]) LModule.
Definition package_to_dies (ci : cpuinfo) (p : Z) := get_level_nums ci LDie LPkg (Some [p]) LDie.
Definition package_to_nodes (ci : cpuinfo) (p : Z) := get_level_nums ci LNode LPkg (Some [p]) LNode.

(** pepclibs/CPUInfo.py:484-504 cores_to_cpus() *)
Definition cores_to_cpus (ci : cpuinfo) (cores packages : nums_t) : res (list Z) :=
  let? by_core := get_level_nums ci LCPU LCore cores LCPU in
  let? by_pkg := get_level_nums ci LCPU LPkg packages LCPU in
  Ok (filter (fun c => inb c by_pkg) by_core).

(** pepclibs/CPUInfo.py:506-515 modules_to_cpus() *)
Definition modules_to_cpus (ci : cpuinfo) (modules : nums_t) : res (list Z) :=
  get_level_nums ci LCPU LModule modules LCPU.

(** pepclibs/CPUInfo.py:517-537 dies_to_cpus() *)
Definition dies_to_cpus (ci : cpuinfo) (dies packages : nums_t) : res (list Z) :=
  let? by_die := get_level_nums ci LCPU LDie dies LCPU in
  let? by_pkg := get_level_nums ci LCPU LPkg packages LCPU in
  Ok (filter (fun c => inb c by_pkg) by_die).

(** pepclibs/CPUInfo.py:539-548 nodes_to_cpus() *)
Definition nodes_to_cpus (ci : cpuinfo) (nodes : nums_t) : res (list Z) :=
  get_level_nums ci LCPU LNode nodes LCPU.

(** pepclibs/CPUInfo.py:550-559 packages_to_cpus() *)
Definition packages_to_cpus (ci : cpuinfo) (packages : nums_t) : res (list Z) :=
  get_level_nums ci LCPU LPkg packages LCPU.

(** The validation loop shared by the normalisers (pepclibs/CPUInfo.py:882-892, 911-922, 937-948,
    967-978, 993-1004); the numbers are integers, so the type check never fires. *)
Definition normalize_in (avail : list Z) (nums : list Z) : res (list Z) :=
  let l := dedup nums in
  if forallb (fun x => inb x avail) l then Ok l else Exn EError.

(** pepclibs/CPUInfo.py:864-892 normalize_cpus() *)
Definition normalize_cpus (ci : cpuinfo) (cpus : nums_t) (offline_ok : bool) : res (list Z) :=
  let allcpus := if offline_ok then ci_all ci else ci_online ci in
  match cpus with
  | None => Ok (zsort allcpus)
  | Some l => normalize_in allcpus l
  end.

(** pepclibs/CPUInfo.py:894-922 normalize_cores() *)
Definition normalize_cores (ci : cpuinfo) (cores : nums_t) (pkg : Z) : res (list Z) :=
  let? avail := package_to_cores ci pkg in
  match cores with None => Ok avail | Some l => normalize_in avail l end.

(** pepclibs/CPUInfo.py:924-948 normalize_modules() *)
Definition normalize_modules (ci : cpuinfo) (modules : nums_t) : res (list Z) :=
  let? avail := get_modules ci in
  match modules with None => Ok avail | Some l => normalize_in avail l end.

(** pepclibs/CPUInfo.py:950-978 normalize_dies() *)
Definition normalize_dies (ci : cpuinfo) (dies : nums_t) (pkg : Z) : res (list Z) :=
  let? avail := package_to_dies ci pkg in
  match dies with None => Ok avail | Some l => normalize_in avail l end.

(** pepclibs/CPUInfo.py:980-1004 normalize_packages() *)
Definition normalize_packages (ci : cpuinfo) (packages : nums_t) : res (list Z) :=
  let? avail := get_packages ci in
  match packages with None => Ok avail | Some l => normalize_in avail l end.

(** pepclibs/CPUInfo.py:406-434 get_cpu_siblings(). A single number passed as 'dies=', 'packages=',
    'cores=', 'modules' is turned into a one-element set by _get_level_nums() (248-251). *)
Definition get_cpu_siblings (ci : cpuinfo) (cpu : Z) (s : scope) : res (list Z) :=
  match s with
  | SCPU => normalize_cpus ci (Some [cpu]) false
  | SGlobal => Ok (get_cpus ci)
  | SPackage => let? t := get_cpu_tline ci cpu in package_to_cpus ci (t_pkg t)
  | SNode => let? t := get_cpu_tline ci cpu in nodes_to_cpus ci (Some [t_node t])
  | SDie => let? t := get_cpu_tline ci cpu in
            dies_to_cpus ci (Some [t_die t]) (Some [t_pkg t])
  | SModule => let? t := get_cpu_tline ci cpu in modules_to_cpus ci (Some [t_module t])
  | SCore => let? t := get_cpu_tline ci cpu in
             cores_to_cpus ci (Some [t_core t]) (Some [t_pkg t])
  end.

(** pepclibs/CPUInfo.py:646-656 and 703-713: the CPU number -> sibling index map. The loop state is
    the current (unit number, package) pair and the next index; dictionary assignment overwrites,
    so later lines win (only relevant for I/O die lines, whose CPU number is NA). *)
Fixpoint sib_index_loop (unum : tline -> Z) (cur : option (Z * Z)) (index : Z)
    (rows : list tline) (acc : list (Z * Z)) : list (Z * Z) :=
  match rows with
  | [] => acc
  | t :: rest =>
      let same := match cur with
                  | Some (u, p) => (unum t =? u) && (t_pkg t =? p)
                  | None => false
                  end in
      let index := if same then index else 0 in
      sib_index_loop unum (Some (unum t, t_pkg t)) (index + 1) rest
        (dset Z.eqb acc (t_cpu t) index)
  end.

Definition select_by_index (cpu2index : list (Z * Z)) (cpus indexes : list Z) : list Z :=
  filter (fun c => match dget Z.eqb cpu2index c with
                   | Some i => inb i indexes
                   | None => false
                   end) cpus.

(** pepclibs/CPUInfo.py:610-664 select_core_siblings() *)
Definition select_core_siblings (ci : cpuinfo) (cpus indexes : list Z) : res (list Z) :=
  let? l := normalize_cpus ci (Some cpus) true in
  Ok (select_by_index (sib_index_loop t_core None 0 (get_topology ci LCore) []) l indexes).

(** pepclibs/CPUInfo.py:666-721 select_module_siblings() *)
Definition select_module_siblings (ci : cpuinfo) (cpus indexes : list Z) : res (list Z) :=
  let? l := normalize_cpus ci (Some cpus) true in
  Ok (select_by_index (sib_index_loop t_module None 0 (get_topology ci LModule) []) l indexes).

(** pepclibs/CPUInfo.py:850-855: the loop over packages; [cs] is 'cpus_set' *)
Fixpoint div_packages_loop (ci : cpuinfo) (pkgs : list Z) (cs : list Z) : res (list Z * list Z) :=
  match pkgs with
  | [] => Ok ([], cs)
  | p :: rest =>
      let? pc := package_to_cpus ci p in
      if subsetb pc cs then
        let? (l, cs') := div_packages_loop ci rest (minus cs pc) in Ok (p :: l, cs')
      else div_packages_loop ci rest cs
  end.

(** pepclibs/CPUInfo.py:824-862 cpus_div_packages() *)
Definition cpus_div_packages (ci : cpuinfo) (cpus packages : nums_t) : res (list Z * list Z) :=
  let? l := normalize_cpus ci cpus true in
  let? pkgs := normalize_packages ci packages in
  let? (res_pkgs, cs) := div_packages_loop ci pkgs l in
  Ok (res_pkgs, filter (fun c => inb c cs) l).

(** The nested loops of cpus_div_cores() (752-760) and cpus_div_dies() (803-815). The dictionary
    {package: [units]} is represented by the list of (package, unit) pairs in the order they are
    appended (within a package this is the order of the list in the dictionary). *)
Fixpoint div_units_loop (units_cpus : Z -> Z -> res (list Z)) (skip : Z -> Z -> bool) (pkg : Z)
    (units : list Z) (cs : list Z) : res (list (Z * Z) * list Z) :=
  match units with
  | [] => Ok ([], cs)
  | u :: rest =>
      if skip pkg u then div_units_loop units_cpus skip pkg rest cs
      else
        let? sib := units_cpus pkg u in
        if subsetb sib cs then
          let? (l, cs') := div_units_loop units_cpus skip pkg rest (minus cs sib) in
          Ok ((pkg, u) :: l, cs')
        else div_units_loop units_cpus skip pkg rest cs
  end.

Fixpoint div_pkgs_units_loop (pkg_units : Z -> res (list Z)) (units_cpus : Z -> Z -> res (list Z))
    (skip : Z -> Z -> bool) (pkgs : list Z) (cs : list Z) : res (list (Z * Z) * list Z) :=
  match pkgs with
  | [] => Ok ([], cs)
  | p :: rest =>
      let? units := pkg_units p in
      let? (l, cs') := div_units_loop units_cpus skip p units cs in
      let? (l2, cs'') := div_pkgs_units_loop pkg_units units_cpus skip rest cs' in
      Ok (l ++ l2, cs'')
  end.

(** pepclibs/CPUInfo.py:723-767 cpus_div_cores() *)
Definition cpus_div_cores (ci : cpuinfo) (cpus : nums_t) : res (list (Z * Z) * list Z) :=
  let? l := normalize_cpus ci cpus true in
  let? pkgs := get_packages ci in
  let? (cores, cs) := div_pkgs_units_loop (package_to_cores ci)
                        (fun p u => cores_to_cpus ci (Some [u]) (Some [p]))
                        (fun _ _ => false) pkgs l in
  Ok (cores, filter (fun c => inb c cs) l).

(** pepclibs/CPUInfo.py:769-822 cpus_div_dies(). 'self._io_dies[pkg]' exists for every package of
    the table, because _add_compute_dies() creates it together with the compute dies. *)
Definition cpus_div_dies (ci : cpuinfo) (cpus : nums_t) : res (list (Z * Z) * list Z) :=
  let? l := normalize_cpus ci cpus true in
  let? pkgs := get_packages ci in
  let? (dies, cs) := div_pkgs_units_loop (package_to_dies ci)
                       (fun p u => dies_to_cpus ci (Some [u]) (Some [p]))
                       (fun p d => pair_inb (p, d) (ci_io ci)) pkgs l in
  Ok (dies, filter (fun c => inb c cs) l).

(** pepclibs/CPUInfo.py:322-353 get_dies() *)
Definition get_dies (ci : cpuinfo) (pkg : Z) (compute io : bool) : res (list Z) :=
  let? dies := get_level_nums ci LDie LPkg (Some [pkg]) LDie in
  if compute && io then Ok dies
  else if compute then Ok (filter (fun d => pair_inb (pkg, d) (ci_comp ci)) dies)
  else Ok (filter (fun d => pair_inb (pkg, d) (ci_io ci)) dies).

(** ** Building and updating the table *)

(** What the running system reports: the topology numbers of each CPU (/proc/cpuinfo and the sysfs
    files read at _CPUInfoBase.py:77-178), the dies listed by the uncore frequency driver
    (_CPUInfoBase.py:183-188) and the present CPUs. The numbers of a CPU are assumed not to change
    over time; module numbers are taken as given (the fall-back 'module = core' of 115-128 is an
    instance). *)
Record system := SYS {
  sys_line : Z -> tline;
  sys_uncore_dies : list (Z * Z);
  sys_present : list Z }.

(** pepclibs/_CPUInfoBase.py:137-167 _add_compute_dies(): the bookkeeping of '_compute_dies' for the
    CPUs [cpus] that were just added. *)
Definition add_compute (sys : system) (cpus : list Z) (comp : list (Z * Z)) : list (Z * Z) :=
  fold_left (fun acc c => let t := sys_line sys c in
                          if pair_inb (t_pkg t, t_die t) acc then acc
                          else acc ++ [(t_pkg t, t_die t)]) cpus comp.

(** pepclibs/_CPUInfoBase.py:180-210 _add_io_dies(): the uncore dies of known packages that are not
    compute dies *)
Definition io_dies_of (sys : system) (comp : list (Z * Z)) : list (Z * Z) :=
  filter (fun pd => inb (fst pd) (map fst comp) && negb (pair_inb pd comp)) (sys_uncore_dies sys).

Definition io_tline (pd : Z * Z) : tline := TL NA NA NA (snd pd) NA (fst pd).

(** pepclibs/_CPUInfoBase.py:268-313 _get_topology(), first call (all levels requested) *)
Definition topo_init (sys : system) (online : list Z) : cpuinfo :=
  let comp := add_compute sys online [] in
  let io := io_dies_of sys comp in
  CI (map (sys_line sys) online ++ map io_tline io) online (sys_present sys) io comp.

(** pepclibs/_CPUInfoBase.py:414-423 and 234-266: cpus_hotplugged() followed by the topology update
    done by the next query. The lines of CPUs that stay online are kept as they are; '_io_dies' and
    '_compute_dies' only ever grow. *)
Definition set_union (l m : list (Z * Z)) : list (Z * Z) :=
  l ++ filter (fun x => negb (pair_inb x l)) m.

Definition topo_update (sys : system) (ci : cpuinfo) (new_online : list Z) : cpuinfo :=
  let old := map t_cpu (ci_topo ci) in
  if subsetb new_online old && subsetb old new_online then
    CI (ci_topo ci) new_online (ci_all ci) (ci_io ci) (ci_comp ci)
  else
    let added := minus new_online old in
    let kept := filter (fun t => inb (t_cpu t) new_online) (ci_topo ci) in
    let comp := add_compute sys added (ci_comp ci) in
    let io := io_dies_of sys comp in
    CI (map (sys_line sys) added ++ kept ++ map io_tline io) new_online (ci_all ci)
       (set_union (ci_io ci) io) comp.
