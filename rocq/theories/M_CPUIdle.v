(** Model of the Linux "cpuidle" knobs: pepclibs/CPUIdle.py. *)
From Coq Require Import Ascii String.
From Verif Require Import Base M_CPUInfo M_Text M_Human.

(** CPUIdle.py:26 CST_SYSFS_FNAMES *)
Definition cst_fnames : list str :=
  map s2l ["name"; "desc"; "disable"; "latency"; "residency"; "time"; "usage"]%string.

(** A value in a C-state dictionary: an integer (also False and True, which are 0 and 1), or a text. *)
Inductive cval := CInt (n : Z) | CStr (t : str).

(** The dictionary of one C-state (key -> value), and of the C-states of one CPU (C-state name -> dictionary). *)
Definition cstate := list (str * cval).
Definition csinfo := list (str * cstate).

(** CPUIdle.py:516 _sysfs_base *)
Definition sysfs_base : str := s2l "/sys/devices/system/cpu"%string.

(** The path of file [f] of C-state [idx] of a CPU. *)
Definition cst_path (cpu idx : Z) (f : str) : str :=
  sysfs_base ++ s2l "/cpu"%string ++ dec cpu ++ s2l "/cpuidle/state"%string ++ dec idx ++ s2l "/"%string ++ f.

Definition newline : ascii := "010"%char.

(** The system: the CPUs; 'enable_cache'; the C-state files there are, as (CPU, index, file name), in the order in
    which 'find' lists them; the contents of the files other than "disable" at a point of time; what "disable"
    contains after a text was written to it, given the CPU, the index, and the contents before (None: the write
    fails); cpuidle/current_driver and cpuidle/available_governors (None: there is no such file); whether there is
    cpuidle/current_governor, and what it contains after a text was written to it (None: the write fails). *)
Record machine := MC {
  mc_ci : cpuinfo;
  mc_cache : bool;
  mc_files : list (Z * Z * str);
  mc_text : Z -> Z -> str -> Z -> str;
  mc_store : Z -> Z -> str -> str -> option str;
  mc_driver : option str;
  mc_avail : option str;
  mc_hasgov : bool;
  mc_gstore : str -> str -> option str }.

(** The contents of the "disable" files and of cpuidle/current_governor; the time; the I/O errors to come (reads,
    writes); the caches (CPUIdle.py:524, _PerCPUCache.py): C-states by CPU, and of CPU 0 "current_driver",
    "current_governor", "available_governors". *)
Record idle := ID {
  id_flags : Z -> Z -> str;
  id_gov : str;
  id_tick : Z;
  id_rf : list bool;
  id_wf : list bool;
  id_cs : list (Z * csinfo);
  id_cdrv : option str;
  id_cgov : option str;
  id_cavail : option (list str) }.

Definition id_set_flags x s := ID x (id_gov s) (id_tick s) (id_rf s) (id_wf s) (id_cs s) (id_cdrv s) (id_cgov s) (id_cavail s).
Definition id_set_gov x s := ID (id_flags s) x (id_tick s) (id_rf s) (id_wf s) (id_cs s) (id_cdrv s) (id_cgov s) (id_cavail s).
Definition id_set_tick x s := ID (id_flags s) (id_gov s) x (id_rf s) (id_wf s) (id_cs s) (id_cdrv s) (id_cgov s) (id_cavail s).
Definition id_set_rf x s := ID (id_flags s) (id_gov s) (id_tick s) x (id_wf s) (id_cs s) (id_cdrv s) (id_cgov s) (id_cavail s).
Definition id_set_wf x s := ID (id_flags s) (id_gov s) (id_tick s) (id_rf s) x (id_cs s) (id_cdrv s) (id_cgov s) (id_cavail s).
Definition id_set_cs x s := ID (id_flags s) (id_gov s) (id_tick s) (id_rf s) (id_wf s) x (id_cdrv s) (id_cgov s) (id_cavail s).
Definition id_set_cdrv x s := ID (id_flags s) (id_gov s) (id_tick s) (id_rf s) (id_wf s) (id_cs s) x (id_cgov s) (id_cavail s).
Definition id_set_cgov x s := ID (id_flags s) (id_gov s) (id_tick s) (id_rf s) (id_wf s) (id_cs s) (id_cdrv s) x (id_cavail s).
Definition id_set_cavail x s := ID (id_flags s) (id_gov s) (id_tick s) (id_rf s) (id_wf s) (id_cs s) (id_cdrv s) (id_cgov s) x.

(** CPUIdle.py:501-524: a new object. *)
Definition idle_init (flags : Z -> Z -> str) (gov : str) (tick : Z) (rf wf : list bool) : idle :=
  ID flags gov tick rf wf [] None None None.

(** Python's comparison of texts. *)
Fixpoint str_leb (a b : str) : bool :=
  match a, b with
  | [], _ => true
  | _ :: _, [] => false
  | x :: a', y :: b' =>
      if (nat_of_ascii x <? nat_of_ascii y)%nat then true
      else if Ascii.eqb x y then str_leb a' b' else false
  end.

(** The lines of a text, with the newlines (ProcessManager run_verify(join=False)). *)
Fixpoint lines (l : str) : list str :=
  match l with
  | [] => []
  | c :: t =>
      if Ascii.eqb c newline then [c] :: lines t
      else match lines t with
           | [] => [[c]]
           | w :: ws => (c :: w) :: ws
           end
  end.

Definition upper_char (c : ascii) : ascii :=
  let n := nat_of_ascii c in if ((97 <=? n) && (n <=? 122))%nat then ascii_of_nat (n - 32) else c.

(** CPUIdle.py:202-205 _normalize_csname(). Simplification: ASCII letters only. *)
Definition normalize_csname (s : str) : str := map upper_char s.

(** The 'csnames' argument: a text (with the special value "all"), or a collection. *)
Inductive csarg := CsText (s : str) | CsList (l : list str).

(** CPUIdle.py:207-226 _normalize_csnames() (None: "all") *)
Definition normalize_csnames (csnames : csarg) : option (list str) :=
  match csnames with
  | CsText s =>
      if str_eqb s (s2l "all"%string) then None
      else Some (map normalize_csname (list_dedup str_eqb (split_csv_line "," false false s)))
  | CsList l => Some (map normalize_csname (list_dedup str_eqb l))
  end.

(** [l] without the text [p] at the beginning. *)
Fixpoint strip_prefix (p l : str) : option str :=
  match p, l with
  | [], _ => Some l
  | c :: p', d :: l' => if Ascii.eqb c d then strip_prefix p' l' else None
  | _ :: _, [] => None
  end.

(** CPUIdle.py:165, 172-179: the CPU, the index and the file name of a path. Simplification: the regular expression
    begins with any directory, here it is the base directory, in which 'find' looks for the files. *)
Definition parse_fpath (p : str) : option (Z * Z * str) :=
  match strip_prefix (sysfs_base ++ s2l "/cpu"%string) p with
  | None => None
  | Some r =>
      let (d1, r1) := span is_digitb r in
      match strip_prefix (s2l "/cpuidle/state"%string) r1 with
      | None => None
      | Some r2 =>
          let (d2, r3) := span is_digitb r2 in
          match r3 with
          | c :: ((_ :: _) as f) =>
              if Ascii.eqb c "/" && nonemptyb d1 && nonemptyb d2
              then Some (digits_value d1, digits_value d2, f) else None
          | _ => None
          end
      end
  end.

(** CPUIdle.py:181-182: the value of a file. *)
Definition parse_val (val : str) : res cval :=
  if is_int val then match py_int val with Some n => Ok (CInt n) | None => Exn EValue end
  else Ok (CStr val).

(** CPUIdle.py:132-148 _add_cstate(). A name that is a number has no upper() (AttributeError, here EValue). *)
Definition add_cstate (info : csinfo) (cs : cstate) : res csinfo :=
  match dget str_eqb cs (s2l "name"%string) with
  | None => Exn EError
  | Some (CInt _) => Exn EValue
  | Some (CStr n) =>
      match dget str_eqb cs (s2l "index"%string) with
      | None => Exn EKey
      | Some idx =>
          let? vals := rmap cst_fnames (fun key => match dget str_eqb cs key with
                                                   | Some v => Ok (key, v)
                                                   | None => Exn EKey
                                                   end) in
          Ok (dset str_eqb info (normalize_csname n) ((s2l "index"%string, idx) :: vals))
      end
  end.

(** CPUIdle.py:158-200: the loop over the files and values, what it yields, and the exception that ends it. [info]
    and [cs] are the variables 'csinfo' and 'cstate', [prev] is ('prev_cpu', 'prev_index'). *)
Fixpoint read_loop (l : list (str * str)) (info : csinfo) (cs : cstate) (prev : option (Z * Z)) :
  list (Z * csinfo) * option exc :=
  match l with
  | [] =>
      match add_cstate info cs, prev with
      | Ok info', Some (pcpu, _) => ([(pcpu, info')], None)
      | Ok _, None => ([], Some EUnbound)
      | Exn e, _ => ([], Some e)
      end
  | (fpath, val) :: t =>
      match parse_fpath (strip fpath) with
      | None => ([], Some EError)
      | Some (cpu, idx, key) =>
          match parse_val (strip val) with
          | Exn e => ([], Some e)
          | Ok v =>
              match prev with
              | None => read_loop t info (dset str_eqb (dset str_eqb cs (s2l "index"%string) (CInt idx)) key v) (Some (cpu, idx))
              | Some (pcpu, pidx) =>
                  match (if negb (idx =? pidx) then (let? i := add_cstate info cs in Ok (i, [])) else Ok (info, cs)) with
                  | Exn e => ([], Some e)
                  | Ok (info1, cs1) =>
                      let (ys, info2) := if negb (cpu =? pcpu) then ([(pcpu, info1)], []) else ([], info1) in
                      let (rest, e) := read_loop t info2 (dset str_eqb (dset str_eqb cs1 (s2l "index"%string) (CInt idx)) key v) (Some (cpu, idx)) in
                      (ys ++ rest, e)
                  end
              end
          end
      end
  end.

(** One read and one write operation. *)
Definition rd_io : M idle unit :=
  fun s => match id_rf s with
           | true :: t => (Exn EError, id_set_tick (id_tick s + 1) (id_set_rf t s))
           | _ :: t => (Ok tt, id_set_tick (id_tick s + 1) (id_set_rf t s))
           | [] => (Ok tt, id_set_tick (id_tick s + 1) s)
           end.

Definition wr_io : M idle unit :=
  fun s => match id_wf s with
           | true :: t => (Exn EError, id_set_tick (id_tick s + 1) (id_set_wf t s))
           | _ :: t => (Ok tt, id_set_tick (id_tick s + 1) (id_set_wf t s))
           | [] => (Ok tt, id_set_tick (id_tick s + 1) s)
           end.

Section CPUIdle.
  Variable mc : machine.
  Notation ci := (mc_ci mc).

  (** The contents of a file of a C-state. *)
  Definition cst_content (s : idle) (p : str) : str :=
    match find (fun t => let '(c, i, f) := t in str_eqb (cst_path c i f) p) (mc_files mc) with
    | Some (c, i, f) =>
        if str_eqb f (s2l "disable"%string) then id_flags s c i else mc_text mc c i f (id_tick s)
    | None => []
    end.

  (** CPUIdle.py:52-124 _read_fpaths_and_values(). Simplifications: the temporary file has no errors of its own;
      'cat' prints the contents one after another. *)
  Definition read_fpaths_and_values (cpus : list Z) : M idle (list str * list str) :=
    rd_io ;;
    let files := map (fun t => let '(c, i, f) := t in cst_path c i f ++ [newline])
                     (filter (fun t => let '(c, _, _) := t in inb c cpus) (mc_files mc)) in
    match files with
    | [] => rd_io ;; throw ENotFound
    | _ =>
        let fpaths := filter (fun p => existsb (str_eqb (strip (last (split_on "/" p) []))) cst_fnames)
                             (sort_by str_leb files) in
        rd_io ;;
        let! vals := gets (fun s => lines (concat (map (fun p => cst_content s (removelast p)) fpaths))) in
        if (length fpaths =? length vals)%nat then ret (fpaths, vals) else throw EError
    end.

  (** CPUIdle.py:126-200 _read_cstates_info(): what is yielded, and the exception at the end. *)
  Definition read_cstates_info (cpus : list Z) : M idle (list (Z * csinfo) * option exc) :=
    fun s => match read_fpaths_and_values cpus s with
             | (Ok (fpaths, vals), s') => (Ok (read_loop (combine fpaths vals) [] [] None), s')
             | (Exn ENotFound, s') => (Ok (map (fun c => (c, [])) cpus, None), s')
             | (Exn e, s') => (Ok ([], Some e), s')
             end.

  (** _PerCPUCache.py:25-51, 79-101 is_cached(), get() and add() for the C-states *)
  Definition cs_cached (s : idle) (cpu : Z) : bool :=
    mc_cache mc && match dget Z.eqb (id_cs s) cpu with Some _ => true | None => false end.

  Definition cs_get (cpu : Z) : M idle csinfo :=
    fun s => match (if mc_cache mc then dget Z.eqb (id_cs s) cpu else None) with
             | Some i => (Ok i, s)
             | None => (Exn ENotFound, s)
             end.

  Definition cs_add (cpu : Z) (info : csinfo) : M idle unit :=
    if mc_cache mc then
      let! l := lift (normalize_cpus ci (Some [cpu]) false) in
      modify (fun s => id_set_cs (fold_left (fun d c => dset Z.eqb d c info) l (id_cs s)) s)
    else ret tt.

  (** CPUIdle.py:276-283: the C-states [names] of one CPU. *)
  Fixpoint pick (names : list str) (info acc : csinfo) : res csinfo :=
    match names with
    | [] => Ok acc
    | n :: t => match dget str_eqb info n with
                | Some cs => pick t info (dset str_eqb acc n cs)
                | None => Exn EError
                end
    end.

  (** CPUIdle.py:270-285: the loop over the CPUs, with what the consumer of the generator does with each item. *)
  Fixpoint each_cpu {B} (names : option (list str)) (cpus : list Z) (body : Z -> csinfo -> M idle B) : M idle (list B) :=
    match cpus with
    | [] => ret []
    | cpu :: t =>
        let! info := cs_get cpu in
        let names' := match names with None => map fst info | Some l => l end in
        let! r := lift (pick names' info []) in
        let! b := body cpu r in
        let! bs := each_cpu (Some names') t body in
        ret (b :: bs)
    end.

  (** CPUIdle.py:258-285 _get_cstates_info() with its consumer. *)
  Definition with_cstates {B} (names : option (list str)) (cpus : list Z) (body : Z -> csinfo -> M idle B) : M idle (list B) :=
    let! read_cpus := gets (fun s => filter (fun c => negb (cs_cached s c)) cpus) in
    (match read_cpus with
     | [] => ret tt
     | _ =>
         let! g := read_cstates_info read_cpus in
         mfor (fst g) (fun ci' => cs_add (fst ci') (snd ci')) ;;
         match snd g with None => ret tt | Some e => throw e end
     end) ;;
    each_cpu names cpus body.

  (** _PerCPUCache.py:79-101 add() for CPU 0 *)
  Definition add0 (f : idle -> idle) : M idle unit :=
    if mc_cache mc then let! _ := lift (normalize_cpus ci (Some [0]) false) in modify f else ret tt.

  (** CPUIdle.py:348-369 get_idle_driver(). Simplification: errors of reading /proc/cmdline, after the driver file
      was not found, are not modelled. *)
  Definition get_idle_driver : M idle str :=
    fun s => match (if mc_cache mc then id_cdrv s else None) with
             | Some d => (Ok d, s)
             | None =>
                 (rd_io ;;
                  match mc_driver mc with
                  | None => throw ENotSupported
                  | Some t => let d := strip t in add0 (id_set_cdrv (Some d)) ;; ret d
                  end) s
             end.

  (** CPUIdle.py:371-393 get_current_governor() *)
  Definition get_current_governor : M idle str :=
    get_idle_driver ;;
    fun s => match (if mc_cache mc then id_cgov s else None) with
             | Some g => (Ok g, s)
             | None =>
                 (rd_io ;;
                  if mc_hasgov mc then
                    let! g := gets (fun s => strip (id_gov s)) in add0 (id_set_cgov (Some g)) ;; ret g
                  else throw ENotSupported) s
             end.

  (** The words of a text: str.split(). *)
  Fixpoint words (l : str) : list str :=
    match l with
    | [] => []
    | c :: t =>
        if is_space c then words t
        else match t with
             | d :: _ => if is_space d then [c] :: words t
                         else match words t with w :: ws => (c :: w) :: ws | [] => [[c]] end
             | [] => [[c]]
             end
    end.

  (** CPUIdle.py:395-414 get_available_governors() *)
  Definition get_available_governors : M idle (list str) :=
    get_idle_driver ;;
    fun s => match (if mc_cache mc then id_cavail s else None) with
             | Some g => (Ok g, s)
             | None =>
                 (rd_io ;;
                  match mc_avail mc with
                  | None => throw ENotSupported
                  | Some t => let l := words (strip t) in add0 (id_set_cavail (Some l)) ;; ret l
                  end) s
             end.

  (** CPUIdle.py:476-499 set_current_governor() with _PerCPUCache.py:53-77 remove(). Simplification: the class of the
      exception of a failed write. *)
  Definition set_current_governor (g : str) : M idle unit :=
    add0 (id_set_cgov None) ;;
    let! l := get_available_governors in
    match l with
    | [] => throw ENotSupported
    | _ =>
        if negb (existsb (str_eqb g) l) then throw EError
        else
          wr_io ;;
          let! cur := gets id_gov in
          match (if mc_hasgov mc then mc_gstore mc cur g else None) with
          | None => throw EError
          | Some new => modify (id_set_gov new) ;; add0 (id_set_cgov (Some g))
          end
    end.

  (** CPUIdle.py:228-256 _toggle_cstate() *)
  Definition toggle_cstate (cpu idx : Z) (enable : bool) : M idle unit :=
    let val := if enable then s2l "0"%string else s2l "1"%string in
    wr_io ;;
    let! old := gets (fun s => id_flags s cpu idx) in
    match mc_store mc cpu idx old (val ++ [newline]) with
    | None => throw EError
    | Some new =>
        modify (fun s => id_set_flags (fun c i => if (c =? cpu) && (i =? idx) then new else id_flags s c i) s) ;;
        rd_io ;;
        let! now := gets (fun s => id_flags s cpu idx) in
        if str_eqb val (strip now) then ret tt else throw EError
    end.

  (** cstate["index"] *)
  Definition cs_index (cs : cstate) : res Z :=
    match dget str_eqb cs (s2l "index"%string) with
    | Some (CInt i) => Ok i
    | _ => Exn EKey
    end.

  (** CPUIdle.py:433-443: the C-states of one CPU. Gives the names for 'toggled'. *)
  Definition toggle_cpu (enable : bool) (cpu : Z) (info : csinfo) : M idle (Z * list str) :=
    mfor info (fun nc =>
      let! i := lift (cs_index (snd nc)) in
      toggle_cstate cpu i enable ;;
      let! full := cs_get cpu in
      match dget str_eqb full (fst nc) with
      | None => throw EKey
      | Some cs => cs_add cpu (dset str_eqb full (fst nc) (dset str_eqb cs (s2l "disable"%string) (CInt (if enable then 0 else 1))))
      end) ;;
    ret (cpu, map fst info).

  (** CPUIdle.py:416-445 _toggle_cstates(). 'toggled' has no item for a CPU without C-states. *)
  Definition toggle_cstates (csnames : csarg) (cpus : nums_t) (enable : bool) : M idle (list (Z * list str)) :=
    let! drv := get_idle_driver in
    match drv with
    | [] => throw ENotSupported
    | _ =>
        let! l := lift (normalize_cpus ci cpus false) in
        let! ts := with_cstates (normalize_csnames csnames) l (toggle_cpu enable) in
        ret (filter (fun t => match snd t with [] => false | _ => true end) ts)
    end.

  (** CPUIdle.py:447-461, 463-474 *)
  Definition enable_cstates (csnames : csarg) (cpus : nums_t) := toggle_cstates csnames cpus true.
  Definition disable_cstates (csnames : csarg) (cpus : nums_t) := toggle_cstates csnames cpus false.

  (** CPUIdle.py:287-318 get_cstates_info(), all the items at once. *)
  Definition get_cstates_info (cpus : nums_t) (csnames : csarg) : M idle (list (Z * csinfo)) :=
    let! l := lift (normalize_cpus ci cpus false) in
    let! drv := get_idle_driver in
    match drv with
    | [] => throw ENotSupported
    | _ => with_cstates (normalize_csnames csnames) l (fun cpu info => ret (cpu, info))
    end.

  (** CPUIdle.py:320-332 get_cpu_cstates_info() (None: there was no item) *)
  Definition get_cpu_cstates_info (cpu : Z) (csnames : csarg) : M idle (option csinfo) :=
    let! l := get_cstates_info (Some [cpu]) csnames in
    ret (match l with [] => None | _ => Some (snd (last l (0, []))) end).

  (** CPUIdle.py:334-346 get_cpu_cstate_info() *)
  Definition get_cpu_cstate_info (cpu : Z) (csname : str) : M idle (option csinfo) :=
    get_cpu_cstates_info cpu (CsList [csname]).

  (** The calls a user can make, and a history of them. *)
  Inductive iop :=
  | IInfo (cpus : nums_t) (csnames : csarg)
  | IToggle (csnames : csarg) (cpus : nums_t) (enable : bool)
  | IDriver
  | IGovernor
  | IGovernors
  | ISetGovernor (g : str).

  Definition istep (o : iop) (s : idle) : idle :=
    match o with
    | IInfo cpus cs => snd (get_cstates_info cpus cs s)
    | IToggle cs cpus en => snd (toggle_cstates cs cpus en s)
    | IDriver => snd (get_idle_driver s)
    | IGovernor => snd (get_current_governor s)
    | IGovernors => snd (get_available_governors s)
    | ISetGovernor g => snd (set_current_governor g s)
    end.

  Definition irun (ops : list iop) (s : idle) : idle := fold_left (fun s o => istep o s) ops s.
End CPUIdle.
