(** Model of uncore frequency access: pepclibs/_UncoreFreq.py. *)
From Verif Require Import Base M_Text M_Kver M_Sysfs.

(** The "key" strings "min", "max" and "current". *)
Inductive ukey := KMin | KMax | KCur.

Definition key_text (key : ukey) : str :=
  match key with KMin => s2l "min" | KMax => s2l "max" | KCur => s2l "current" end.

(** _UncoreFreq.py:624 _sysfs_base *)
Definition uncore_base : str := s2l "/sys/devices/system/cpu/intel_uncore_frequency".

(** The format "{:02d}" *)
Definition fmt02 (n : Z) : str := if (0 <=? n) && (n <? 10) then s2l "0" ++ dec n else dec n.

(** _UncoreFreq.py:126-127,133-134: the file name *)
Definition uncore_fname (key : ukey) (limit : bool) : str :=
  (if limit then s2l "initial_" else []) ++ key_text key ++ s2l "_freq_khz".

(** The "/" operator of 'Path' for relative names. *)
Definition uncore_path (dir : str) (key : ukey) (limit : bool) : str :=
  uncore_base ++ s2l "/" ++ dir ++ s2l "/" ++ uncore_fname key limit.

(** _UncoreFreq.py:135: the directory name of the legacy interface *)
Definition legacy_dir (package die : Z) : str :=
  s2l "package_" ++ fmt02 package ++ s2l "_die_" ++ fmt02 die.

(** _UncoreFreq.py:130-135 _get_legacy_sysfs_api_path() *)
Definition legacy_path (key : ukey) (package die : Z) (limit : bool) : str :=
  uncore_path (legacy_dir package die) key limit.

(** _UncoreFreq.py:517-520: the regular expression "package_(\d+)_die_(\d+)", matched at the beginning of the
    name only *)
Definition parse_legacy (name : str) : option (Z * Z) :=
  match lit (s2l "package_") name with
  | Some l =>
      match digits1 l with
      | Some (a, l1) =>
          match lit (s2l "_die_") l1 with
          | Some l2 => match digits1 l2 with
                       | Some (b, _) => Some (digits_val a, digits_val b)
                       | None => None
                       end
          | None => None
          end
      | None => None
      end
  | None => None
  end.

(** _UncoreFreq.py:503 the regular expression "^uncore(\d+)$". Simplification: a name with a newline at the
    end is not considered. *)
Definition is_uncore_name (name : str) : bool :=
  match lit (s2l "uncore") name with
  | Some l => match digits1 l with Some (_, []) => true | _ => false end
  | None => false
  end.

(** The machine: the names in the base directory, and what reading the files "package_id" and "domain_id" of
    a directory gives. *)
Record uenv := UE {
  ue_ls : list str;
  ue_package_id : str -> res str;
  ue_domain_id : str -> res str }.

(** {package: [die, ...]} and {package: {die: directory name}}, in the order of insertion *)
Definition dies_t : Type := list (Z * list Z).
Definition dirmap_t : Type := list (Z * list (Z * str)).

(** _UncoreFreq.py:480-492 _add_die() *)
Definition add_die (package die : Z) (dir : str) (b : dies_t * dirmap_t) : dies_t * dirmap_t :=
  let (info, dm) := b in
  (dset Z.eqb info package
     (match dget Z.eqb info package with Some l => l | None => [] end ++ [die]),
   dset Z.eqb dm package
     (dset Z.eqb (match dget Z.eqb dm package with Some m => m | None => [] end) die dir)).

(** The interface to sysfs files holding numbers: 'read_int()' and 'write_int()' of a '_SysfsIO.SysfsIO'
    object. *)
Record uio (W : Type) := UIO { u_rd : str -> M W Z; u_wr : str -> Z -> M W unit }.
Arguments UIO {W}. Arguments u_rd {W}. Arguments u_wr {W}.

(** The state of the object: the files, '_new_sysfs_api_unlocked', and '_dies_info' with '_dirmap' (both are
    None until '_build_dies_info()' is called). Simplification: the directory listing, the answer of
    '_use_new_sysfs_api()' and the paths are not memorized, they cannot change. *)
Record ust (W : Type) := US { us_w : W; us_unlocked : bool; us_built : option (dies_t * dirmap_t) }.
Arguments US {W}. Arguments us_w {W}. Arguments us_unlocked {W}. Arguments us_built {W}.

Section Uncore.
  Context {W : Type}.
  Variable io : uio W.
  Variable e : uenv.

  Definition on_w {A} (m : M W A) : M (ust W) A :=
    fun s => let (r, w) := m (us_w s) in (r, US w (us_unlocked s) (us_built s)).

  (** _UncoreFreq.py:93-107 _use_new_sysfs_api() *)
  Definition use_new_api : bool :=
    existsb (fun name => match lit (s2l "uncore") name with Some _ => true | None => false end) (ue_ls e).

  (** _UncoreFreq.py:502-514: one directory of the new interface *)
  Definition new_ids (name : str) : res (Z * Z) :=
    let? a := ue_package_id e name in
    let? package := str_to_int a in
    let? b := ue_domain_id e name in
    let? die := str_to_int b in
    Ok (package, die).

  (** _UncoreFreq.py:502-514: what was built remains also after an exception *)
  Fixpoint build_new (ls : list str) (b : dies_t * dirmap_t) : res unit * (dies_t * dirmap_t) :=
    match ls with
    | [] => (Ok tt, b)
    | name :: rest =>
        if is_uncore_name name then
          match new_ids name with
          | Ok (package, die) => build_new rest (add_die package die name b)
          | Exn x => (Exn x, b)
          end
        else build_new rest b
    end.

  (** _UncoreFreq.py:516-521 *)
  Fixpoint build_legacy (ls : list str) (b : dies_t * dirmap_t) : dies_t * dirmap_t :=
    match ls with
    | [] => b
    | name :: rest =>
        match parse_legacy name with
        | Some (package, die) => build_legacy rest (add_die package die name b)
        | None => build_legacy rest b
        end
    end.

  (** _UncoreFreq.py:499-521: what _build_dies_info() finds, and how it ends *)
  Definition found_dies : res unit * (dies_t * dirmap_t) :=
    if use_new_api then build_new (ue_ls e) ([], []) else (Ok tt, build_legacy (ue_ls e) ([], [])).

  (** _UncoreFreq.py:494-521 _build_dies_info() *)
  Definition build_dies_info : M (ust W) unit :=
    fun s => (fst found_dies, US (us_w s) (us_unlocked s) (Some (snd found_dies))).

  (** _UncoreFreq.py:109-121 _get_dies_info() and _get_dirmap() *)
  Definition get_built : M (ust W) (dies_t * dirmap_t) :=
    let! b := gets us_built in
    match b with
    | Some x => ret x
    | None =>
        build_dies_info ;;
        let! b' := gets us_built in
        match b' with Some x => ret x | None => throw EError end
    end.

  (** _UncoreFreq.py:523-538 get_dies_info() *)
  Definition get_dies_info : M (ust W) dies_t := let! b := get_built in ret (fst b).

  (** _UncoreFreq.py:123-128 _get_new_sysfs_api_path() *)
  Definition new_path (key : ukey) (package die : Z) (limit : bool) : M (ust W) str :=
    let! b := get_built in
    match dget Z.eqb (snd b) package with
    | None => throw EKey
    | Some m => match dget Z.eqb m die with
                | None => throw EKey
                | Some dir => ret (uncore_path dir key limit)
                end
    end.

  (** _UncoreFreq.py:137-157 _get_sysfs_path_dies() *)
  Definition die_path (key : ukey) (package die : Z) (limit : bool) : M (ust W) str :=
    if use_new_api then new_path key package die limit else ret (legacy_path key package die limit).

  (** The loops "for package, pkg_dies in dies.items(): for die in pkg_dies:" *)
  Definition each_die (dies : dies_t) : list (Z * Z) :=
    flat_map (fun pd => map (fun d => (fst pd, d)) (snd pd)) dies.

  (** _UncoreFreq.py:159-175 _get_freq_dies(). Simplification: all the values at once instead of a
      generator. *)
  Definition get_freq_dies (key : ukey) (dies : dies_t) (limit : bool) : M (ust W) (list (Z * Z * Z)) :=
    mmap (each_die dies) (fun pd =>
      let! path := die_path key (fst pd) (snd pd) limit in
      let! freq := on_w (u_rd io path) in
      ret (fst pd, snd pd, freq * 1000)).

  (** _UncoreFreq.py:272-300: unlocking one package for one key *)
  Definition unlock_one (package : Z) (dies : list Z) (key : ukey) : M (ust W) unit :=
    let! freq_limit := on_w (u_rd io (legacy_path key package 0 true)) in
    let! freq := on_w (u_rd io (legacy_path key package 0 false)) in
    if freq =? freq_limit then ret tt
    else
      let! saved := mmap dies (fun die =>
        let! path := new_path key package die false in
        let! f := on_w (u_rd io path) in
        ret (path, f)) in
      on_w (u_wr io (legacy_path key package 0 false) freq_limit) ;;
      mfor saved (fun pf => on_w (u_wr io (fst pf) (snd pf))).

  (** _UncoreFreq.py:250-302 _unlock_new_sysfs_api() *)
  Definition unlock_new_api : M (ust W) unit :=
    let! u := gets us_unlocked in
    if u then ret tt
    else
      let! b := get_built in
      mfor (fst b) (fun pd => mfor [KMin; KMax] (unlock_one (fst pd) (snd pd))) ;;
      modify (fun s => US (us_w s) true (us_built s)).

  (** _UncoreFreq.py:304-315 _set_freq_dies() *)
  Definition set_freq_dies (freq : Z) (key : ukey) (dies : dies_t) : M (ust W) unit :=
    (if use_new_api then unlock_new_api else ret tt) ;;
    mfor (each_die dies) (fun pd =>
      let! path := die_path key (fst pd) (snd pd) false in
      on_w (u_wr io path (freq / 1000))).

  (** _UncoreFreq.py:356-372 _get_freq_cpus(); [levels] is '_cpuinfo.get_cpu_levels()' *)
  Definition get_freq_cpus (levels : Z -> res (Z * Z)) (key : ukey) (cpus : list Z) (limit : bool)
    : M (ust W) (list (Z * Z)) :=
    mmap cpus (fun cpu =>
      let! pd := lift (levels cpu) in
      let! path := die_path key (fst pd) (snd pd) limit in
      let! freq := on_w (u_rd io path) in
      ret (cpu, freq * 1000)).

  (** _UncoreFreq.py:444-454 _set_freq_cpus(): no unlocking here *)
  Definition set_freq_cpus (levels : Z -> res (Z * Z)) (freq : Z) (key : ukey) (cpus : list Z)
    : M (ust W) unit :=
    mfor cpus (fun cpu =>
      let! pd := lift (levels cpu) in
      let! path := die_path key (fst pd) (snd pd) false in
      on_w (u_wr io path (freq / 1000))).
End Uncore.

(** ** Two worlds *)

(** The '_SysfsIO.SysfsIO' object of M_Sysfs: the kernel stores what is written, each file on its own.
    Simplification: the 'what' text has no key name; it is only compared with the text given for the same
    file before. *)
Definition uncore_what : option str := Some (s2l "uncore frequency").

Definition sysfs_uio (k : senv) : uio sstate :=
  UIO (s_read_int k) (fun p v => s_write_int k p (dec v) uncore_what).

(** A kernel where writing a file may change other files, as writing the legacy files of the
    "intel_uncore_frequency_tpmi" driver does: [eff p v f] is the new contents of all the files when [v] is
    written to [p] (None: the write fails). The state has the files and the cache of the '_SysfsIO.SysfsIO'
    object (_SysfsIO.py:47-88,234-311), which knows nothing about the side effects. *)
Record kstate := KS { ks_files : str -> option Z; ks_cache : list (str * Z) }.

Definition kernel_uio (eff : str -> Z -> (str -> option Z) -> option (str -> option Z)) : uio kstate :=
  UIO
    (fun p s =>
       match dget str_eqb (ks_cache s) p with
       | Some v => (Ok v, s)
       | None => match ks_files s p with
                 | Some v => (Ok v, KS (ks_files s) (dset str_eqb (ks_cache s) p v))
                 | None => (Exn ENotSupported, s)
                 end
       end)
    (fun p v s =>
       let c := ddel str_eqb (ks_cache s) p in
       match ks_files s p with
       | None => (Exn ENotSupported, KS (ks_files s) c)
       | Some _ => match eff p v (ks_files s) with
                   | None => (Exn EError, KS (ks_files s) c)
                   | Some f => (Ok tt, KS f (dset str_eqb c p v))
                   end
       end).
