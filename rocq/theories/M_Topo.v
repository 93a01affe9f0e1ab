(** Model of how the topology table is built and kept up to date: pepclibs/_CPUInfoBase.py. The table
    is filled level by level, as the levels are asked for, from the files of the system; after CPU
    hotplug it is updated. *)
From Verif Require Import Base M_Text M_CPUInfo.

(** A line of the topology table while it is being filled: a dictionary with the CPU number and the
    level numbers known so far (_CPUInfoBase.py:242, 287). *)
Record pline := PL {
  p_cpu : Z;
  p_core : option Z; p_module : option Z; p_die : option Z; p_node : option Z; p_pkg : option Z }.

(** tline[level]; None is a KeyError *)
Definition pget (l : level) (t : pline) : option Z :=
  match l with
  | LCPU => Some (p_cpu t)
  | LCore => p_core t | LModule => p_module t | LDie => p_die t | LNode => p_node t | LPkg => p_pkg t
  end.

(** tline[level] = v; the CPU number is never assigned *)
Definition pset (l : level) (v : Z) (t : pline) : pline :=
  match l with
  | LCPU => t
  | LCore => PL (p_cpu t) (Some v) (p_module t) (p_die t) (p_node t) (p_pkg t)
  | LModule => PL (p_cpu t) (p_core t) (Some v) (p_die t) (p_node t) (p_pkg t)
  | LDie => PL (p_cpu t) (p_core t) (p_module t) (Some v) (p_node t) (p_pkg t)
  | LNode => PL (p_cpu t) (p_core t) (p_module t) (p_die t) (Some v) (p_pkg t)
  | LPkg => PL (p_cpu t) (p_core t) (p_module t) (p_die t) (p_node t) (Some v)
  end.

(** {"CPU": cpu} *)
Definition blank_line (cpu : Z) : pline := PL cpu None None None None None.

(** _CPUInfoBase.py:198-206, 217-225: the line of an I/O die *)
Definition io_line (pkg die : Z) : pline := PL NA (Some NA) (Some NA) (Some die) (Some NA) (Some pkg).

(** What the system says while one method call runs. Reading a file gives its text or raises. [h_pli]
    is the "domain_id" field of MSR_PM_LOGICAL_ID, None if the CPU model does not have it (lines
    47-61); [h_uncore] is the result of get_dies_info() of the uncore frequency driver, None if the
    driver is not supported (63-75). The objects that are cached in '_pliobj' and '_uncfreq_obj' are
    not modelled: whether they are supported is a fixed fact of the machine. *)
Record host := Host {
  h_online : res str;             (* /sys/devices/system/cpu/online *)
  h_cpuinfo : res str;            (* /proc/cpuinfo *)
  h_l2_id : Z -> res str;         (* cpu<N>/cache/index2/id *)
  h_l2_cpus : Z -> res str;       (* cpu<N>/cache/index2/shared_cpu_list *)
  h_die_id : Z -> res str;        (* cpu<N>/topology/die_id *)
  h_die_cpus : Z -> res str;      (* cpu<N>/topology/die_cpus_list *)
  h_nodes : res str;              (* /sys/devices/system/node/online *)
  h_node_cpus : Z -> res str;     (* node<N>/cpulist *)
  h_pli : option (Z -> res Z);
  h_uncore : option (res (list (Z * list Z))) }.

(** _CPUInfoBase.py:315-323 _read_range() *)
Definition read_range (file : res str) : res (list Z) :=
  let? txt := file in split_csv_line_int "," false (strip txt).

(** The data being worked on: 'tinfo' and the dictionaries '_compute_dies' and '_io_dies', which map
    package numbers to sets of die numbers. *)
Record work := Work { w_info : list (Z * pline); w_comp : list (Z * list Z); w_io : list (Z * list Z) }.

Definition set_info (i : list (Z * pline)) (w : work) : work := Work i (w_comp w) (w_io w).

(** tinfo[cpu], with KeyError *)
Definition line_of (cpu : Z) : M work pline :=
  fun w => match dget Z.eqb (w_info w) cpu with
           | Some t => (Ok t, w)
           | None => (Exn EKey, w)
           end.

(** tinfo[cpu][level] = v, with KeyError *)
Definition assign (l : level) (v : Z) (cpu : Z) : M work unit :=
  let! t := line_of cpu in
  modify (fun w => set_info (dset Z.eqb (w_info w) cpu (pset l v t)) w).

(** tinfo[cpu][level], with KeyError *)
Definition value_of (l : level) (cpu : Z) : M work Z :=
  let! t := line_of cpu in
  match pget l t with Some v => ret v | None => throw EKey end.

(** with contextlib.suppress(KeyError): ... *)
Definition no_key_error (m : M work unit) : M work unit :=
  fun w => match m w with
           | (Exn EKey, w') => (Ok tt, w')
           | r => r
           end.

Fixpoint has_prefix (p l : str) : bool :=
  match p, l with
  | [], _ => true
  | a :: p', b :: l' => Ascii.eqb a b && has_prefix p' l'
  | _ :: _, [] => false
  end.

(** line.partition(":")[2] *)
Fixpoint after_colon (l : str) : str :=
  match l with
  | [] => []
  | c :: t => if Ascii.eqb c ":" then t else after_colon t
  end.

(** text.split("\n\n") *)
Definition newline : ascii := "010"%char.
Fixpoint split_blank (l : str) : list str :=
  match l with
  | [] => [[]]
  | a :: rest =>
      match rest with
      | b :: t =>
          if Ascii.eqb a newline && Ascii.eqb b newline then [] :: split_blank t
          else match split_blank rest with
               | w :: ws => (a :: w) :: ws
               | [] => [[a]]
               end
      | [] => [[a]]
      end
  end.

(** _CPUInfoBase.py:80-91 _get_number() *)
Definition get_number (start : string) (lines : list str) (index : nat) : res Z :=
  match nth_error lines index with
  | None => Exn EError
  | Some line => if has_prefix (s2l start) line then str_to_int (after_colon line) else Exn EError
  end.

(** _CPUInfoBase.py:93-97: the dictionary of the lines of every CPU *)
Fixpoint cpu_blocks (blocks : list str) (info : list (Z * list str)) : res (list (Z * list str)) :=
  match blocks with
  | [] => Ok info
  | data :: t =>
      let lines := split_on newline data in
      let? cpu := get_number "processor" lines 0 in
      cpu_blocks t (dset Z.eqb info cpu lines)
  end.

(** _CPUInfoBase.py:77-105 _add_cores_and_packages() *)
Definition add_cores_and_packages (h : host) (cpus : list Z) : M work unit :=
  let! txt := lift (h_cpuinfo h) in
  let! info := lift (cpu_blocks (split_blank (strip txt)) []) in
  mfor cpus (fun cpu =>
    match dget Z.eqb info cpu with
    | None => throw EError
    | Some lines =>
        let! p := lift (get_number "physical id" lines 9) in
        assign LPkg p cpu ;;
        let! k := lift (get_number "core id" lines 11) in
        assign LCore k cpu
    end).

(** _CPUInfoBase.py:107-135 _add_modules(); [nocache] is 'no_cache_info'. The loop goes over a set; the
    model goes over the list [cpus], whatever its order. *)
Fixpoint add_modules (h : host) (nocache : bool) (cpus : list Z) : M work unit :=
  match cpus with
  | [] => ret tt
  | cpu :: t =>
      let! ln := line_of cpu in
      match p_module ln with
      | Some _ => add_modules h nocache t
      | None =>
          let by_core := let! k := value_of LCore cpu in assign LModule k cpu in
          if nocache then by_core ;; add_modules h nocache t
          else
            match h_l2_id h cpu with
            | Exn ENotFound => by_core ;; add_modules h true t
            | Exn e => throw e
            | Ok data =>
                let! m := lift (str_to_int data) in
                let! sib := lift (read_range (h_l2_cpus h cpu)) in
                mfor sib (fun s => no_key_error (assign LModule m s)) ;;
                add_modules h nocache t
            end
      end
  end.

(** d[k].add(x), for a dictionary of sets *)
Definition set_add (d : list (Z * list Z)) (k x : Z) : list (Z * list Z) :=
  match dget Z.eqb d k with
  | Some l => if inb x l then d else dset Z.eqb d k (l ++ [x])
  | None => dset Z.eqb d k [x]
  end.

(** _CPUInfoBase.py:140-149 _add_compute_die() *)
Definition add_compute_die (die cpu : Z) : M work unit :=
  assign LDie die cpu ;;
  let! p := value_of LPkg cpu in
  modify (fun w =>
    match dget Z.eqb (w_comp w) p with
    | Some _ => Work (w_info w) (set_add (w_comp w) p die) (w_io w)
    | None => Work (w_info w) (set_add (w_comp w) p die) (dset Z.eqb (w_io w) p [])
    end).

(** _CPUInfoBase.py:137-167 _add_compute_dies() *)
Definition add_compute_dies (h : host) (cpus : list Z) : M work unit :=
  match h_pli h with
  | Some domain_id => mfor cpus (fun cpu => let! d := lift (domain_id cpu) in add_compute_die d cpu)
  | None =>
      mfor cpus (fun cpu =>
        let! ln := line_of cpu in
        match p_die ln with
        | Some _ => ret tt
        | None =>
            let! data := lift (h_die_id h cpu) in
            let! d := lift (str_to_int data) in
            let! sib := lift (read_range (h_die_cpus h cpu)) in
            mfor sib (fun _ => no_key_error (add_compute_die d cpu))
        end)
  end.

(** _CPUInfoBase.py:169-178 _add_nodes() *)
Definition add_nodes (h : host) : M work unit :=
  let! nodes := lift (read_range (h_nodes h)) in
  mfor nodes (fun n =>
    let! cpus := lift (read_range (h_node_cpus h n)) in
    mfor cpus (fun c => no_key_error (assign LNode n c))).

(** _CPUInfoBase.py:190-210, the loops of _add_io_dies(): the new lines and the I/O dies. The I/O die set
    of a package exists if the package is in '_compute_dies'. *)
Definition new_io (comp : list (Z * list Z)) (dies : list (Z * list Z)) : list (Z * Z) :=
  flat_map (fun pd =>
    match dget Z.eqb comp (fst pd) with
    | None => []
    | Some known => map (fun d => (fst pd, d)) (filter (fun d => negb (inb d known)) (snd pd))
    end) dies.

(** _CPUInfoBase.py:180-210 _add_io_dies(): returns the lines to append *)
Definition add_io_dies (h : host) : M work (list pline) :=
  match h_uncore h with
  | None => ret []
  | Some r =>
      let! dies := lift r in
      let! new := gets (fun w => new_io (w_comp w) dies) in
      modify (fun w => Work (w_info w) (w_comp w)
                            (fold_left (fun io pd => set_add io (fst pd) (snd pd)) new (w_io w))) ;;
      ret (map (fun pd => io_line (fst pd) (snd pd)) new)
  end.

(** _CPUInfoBase.py:212-226 _add_io_dies_from_cache(): returns the lines to append *)
Definition cached_io_lines (io : list (Z * list Z)) : list pline :=
  flat_map (fun pd => map (io_line (fst pd)) (snd pd)) io.

Definition level_eqb (a b : level) : bool := lidx a =? lidx b.
Definition has_level (l : level) (ls : list level) : bool := existsb (level_eqb l) ls.

(** The CPUInfo object (_CPUInfoBase.py:449-467). [o_tables] is '_topology', a dictionary from an order to
    a sorted list of lines. The lists share the lines: see [write_back]. *)
Record obj := Obj {
  o_cpus : option (list Z);                (* _cpus *)
  o_tables : list (level * list pline);    (* _topology *)
  o_must : bool;                           (* _must_update_topology *)
  o_done : list level;                     (* _initialized_levels *)
  o_comp : list (Z * list Z);              (* _compute_dies *)
  o_io : list (Z * list Z) }.              (* _io_dies *)

Definition new_obj : obj := Obj None [] false [] [] [].

(** _CPUInfoBase.py:325-330 _get_online_cpus_set(). The set is kept as a list without repetitions. *)
Definition online_cpus (h : host) : M obj (list Z) :=
  fun s =>
    match o_cpus s with
    | Some (c :: t) => (Ok (c :: t), s)
    | _ =>
        match read_range (h_online h) with
        | Exn e => (Exn e, s)
        | Ok l => let l := dedup l in
                  (Ok l, Obj (Some l) (o_tables s) (o_must s) (o_done s) (o_comp s) (o_io s))
        end
    end.

(** self._topology[order], with KeyError *)
Definition table (order : level) : M obj (list pline) :=
  fun s => match dget level_eqb (o_tables s) order with
           | Some rows => (Ok rows, s)
           | None => (Exn EKey, s)
           end.

(** The lines of the CPUs in 'tinfo' are the dictionaries that are in the tables: what is assigned before
    an exception stays in the tables. *)
Definition write_back (info : list (Z * pline)) (tables : list (level * list pline)) :
  list (level * list pline) :=
  map (fun t => (fst t, map (fun r => match dget Z.eqb info (p_cpu r) with Some r' => r' | None => r end)
                            (snd t))) tables.

(** Run the code that fills [info], starting from the object's dictionaries of dies. *)
Definition filling {A} (info : list (Z * pline)) (m : M work A) : M obj (A * list (Z * pline)) :=
  fun s =>
    match m (Work info (o_comp s) (o_io s)) with
    | (Ok a, w) => (Ok (a, w_info w),
                    Obj (o_cpus s) (o_tables s) (o_must s) (o_done s) (w_comp w) (w_io w))
    | (Exn e, w) => (Exn e, Obj (o_cpus s) (write_back (w_info w) (o_tables s)) (o_must s) (o_done s)
                                (w_comp w) (w_io w))
    end.

(** tuple(tline[s] for s in skeys), with KeyError *)
Fixpoint key_of (ls : list level) (t : pline) : option (list Z) :=
  match ls with
  | [] => Some []
  | l :: r => match pget l t, key_of r t with Some v, Some k => Some (v :: k) | _, _ => None end
  end.

Definition pkey_leb (order : level) (a b : pline) : bool :=
  match key_of (skeys order) a, key_of (skeys order) b with
  | Some x, Some y => lexleb x y
  | _, _ => false
  end.

(** _CPUInfoBase.py:228-232 _sort_topology() *)
Definition sort_topology (rows : list pline) (order : level) : M obj unit :=
  if forallb (fun t => match key_of (skeys order) t with Some _ => true | None => false end) rows
  then modify (fun s => Obj (o_cpus s) (dset level_eqb (o_tables s) order (sort_by (pkey_leb order) rows))
                            (o_must s) (o_done s) (o_comp s) (o_io s))
  else throw EKey.

Definition set_must (b : bool) : M obj unit :=
  modify (fun s => Obj (o_cpus s) (o_tables s) b (o_done s) (o_comp s) (o_io s)).

(** _CPUInfoBase.py:247-254 and 292-300: fill the levels [ls] of the CPUs [cpus] *)
Definition fill (h : host) (ls : list level) (cpus : list Z) : M work unit :=
  (if has_level LPkg ls || has_level LCore ls then add_cores_and_packages h cpus else ret tt) ;;
  (if has_level LModule ls then add_modules h false cpus else ret tt) ;;
  (if has_level LDie ls then add_compute_dies h cpus else ret tt) ;;
  (if has_level LNode ls then add_nodes h else ret tt).

(** _CPUInfoBase.py:234-266 _update_topology() *)
Definition update_topology (h : host) : M obj unit :=
  let! new := online_cpus h in
  let! rows := table LCPU in
  let old := map p_cpu rows in
  (if subsetb new old && subsetb old new then ret tt
   else
     let online := minus new old in
     let kept := filter (fun t => inb (p_cpu t) new) rows in
     let info := fold_left (fun d t => dset Z.eqb d (p_cpu t) t) kept
                           (map (fun c => (c, blank_line c)) online) in
     let! done := gets o_done in
     let! (io, info') := filling info
       (fill h done online ;;
        if has_level LDie done then add_io_dies h else ret []) in
     mfor done (sort_topology (map snd info' ++ io))) ;;
  set_must false.

(** levels.update(...): a set of levels, as a list *)
Definition level_union (a b : list level) : list level :=
  a ++ filter (fun l => negb (has_level l a)) b.

(** _CPUInfoBase.py:268-313 _get_topology(). Sets of levels are lists without repetitions; the order in
    which Python goes over them does not matter, unless sorting raises a KeyError. *)
Definition get_topology_of (h : host) (levels : list level) (order : level) : M obj (list pline) :=
  let! must := gets o_must in
  (if must : bool then update_topology h else ret tt) ;;
  let! done := gets o_done in
  let want := filter (fun l => negb (has_level l done)) (level_union levels (skeys order)) in
  match want with
  | [] => table order
  | _ =>
      let! empty := gets (fun s => match o_tables s with [] => true | _ => false end) in
      let! info :=
        (if empty : bool then let! on := online_cpus h in ret (map (fun c => (c, blank_line c)) on)
         else let! rows := table LCPU in
              ret (map (fun t => (p_cpu t, t)) (filter (fun t => negb (p_cpu t =? NA)) rows))) in
      let! cpus := online_cpus h in
      let want := level_union want [LPkg; LCore] in
      let! (io, info') := filling info
        (fill h want cpus ;;
         if has_level LDie want then add_io_dies h
         else if has_level LDie done then gets (fun w => cached_io_lines (w_io w))
         else ret []) in
      let all := level_union done want in
      modify (fun s => Obj (o_cpus s) (o_tables s) (o_must s) all (o_comp s) (o_io s)) ;;
      mfor all (sort_topology (map snd info' ++ io)) ;;
      table order
  end.

(** CPUInfo.py:168-178: the table asked for by the user; no levels means all levels *)
Definition all_levels : list level := [LCPU; LCore; LModule; LDie; LNode; LPkg].
Definition query (h : host) (levels : list level) (order : level) : M obj (list pline) :=
  get_topology_of h (match levels with [] => all_levels | _ => levels end) order.

(** _CPUInfoBase.py:414-423 _cpus_hotplugged() *)
Definition cpus_hotplugged (s : obj) : obj :=
  Obj None (o_tables s) (match o_tables s with [] => o_must s | _ => true end) (o_done s)
      (o_comp s) (o_io s).
