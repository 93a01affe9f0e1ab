(** Model of loading drivers and mounting debugfs: pepclibs/helperlibs/KernelModule.py, pepclibs/helperlibs/FSHelpers.py, and the
    constructors and close() of the MSR, uncore frequency and TPMI classes, which use them. *)
From Coq Require Import Ascii String.
From Verif Require Import Base M_Text M_Human M_CFreq M_Remote.
Open Scope list_scope.
Open Scope Z_scope.

(** The host: the text of "/proc/modules" and of "/proc/mounts", running a command with run_verify(), the "dmesg" command (fails or not), does
    a path exist, the clock in milliseconds and sleeping. Simplification: reading, asking and looking at the clock change nothing. *)
Record host (W : Type) := HOST {
  h_modules : W -> res str;
  h_mounts : W -> res str;
  h_run : str -> M W unit;
  h_dmesg : W -> res unit;
  h_exists : str -> W -> res bool;
  h_now : W -> Z;
  h_sleep : Z -> W -> W }.
Arguments HOST {W}.
Arguments h_modules {W} _.
Arguments h_mounts {W} _.
Arguments h_run {W} _.
Arguments h_dmesg {W} _.
Arguments h_exists {W} _.
Arguments h_now {W} _.
Arguments h_sleep {W} _.

(** KernelModule.py:31-37: the lines of "/proc/modules". int() of the usage count is as in M_Human. *)
Fixpoint find_module (name : str) (ls : list str) : res (option Z) :=
  match ls with
  | [] => Ok None
  | l :: t =>
      match strip l with
      | [] => find_module name t
      | line => match words line with
                | n :: _ :: cnt :: _ :: _ => if str_eqb n name then match py_int cnt with Some z => Ok (Some z) | None => Exn EValue end
                                             else find_module name t
                | _ => Exn EValue
                end
      end
  end.

(** FSHelpers.py:46-52, 78-81: is there a line for debugfs at the mount point? Simplification: paths are compared as texts. *)
Fixpoint find_debugfs (mnt : str) (ls : list str) : res bool :=
  match ls with
  | [] => Ok false
  | [] :: t => find_debugfs mnt t
  | line :: t => match words line with
                 | _ :: p :: fstype :: _ :: _ :: _ => if str_eqb fstype (s2l "debugfs") && str_eqb p mnt then Ok true else find_debugfs mnt t
                 | _ => Exn EValue
                 end
  end.

Section Driver.
  Context {W : Type}.
  Variable h : host W.

  Definition reads {A} (f : W -> res A) : M W A := fun w => (f w, w).

  (** KernelModule.py:24-39 _get_usage_count() *)
  Definition get_usage_count (name : str) : M W (option Z) :=
    reads (fun w => let? t := h_modules h w in find_module name (splitlines t)).

  (** KernelModule.py:68-71 is_loaded() *)
  Definition is_loaded (name : str) : M W bool :=
    let! c := get_usage_count name in ret (match c with Some _ => true | None => false end).

  (** KernelModule.py:51-66 _run_mod_cmd(). Simplification: "dmesg" is run every time, and what it prints is left out. *)
  Definition run_mod_cmd (cmd : str) : M W unit :=
    reads (h_dmesg h) ;; h_run h cmd.

  (** KernelModule.py:73-82 _unload(), unload() *)
  Definition unload (name : str) : M W unit :=
    let! l := is_loaded name in
    if l then run_mod_cmd (s2l "rmmod " ++ name) else ret tt.

  (** KernelModule.py:84-101 load(). Simplification: not in debug mode. *)
  Definition load (name opts : str) (reload : bool) : M W unit :=
    let! go := if reload then unload name ;; ret true else (let! l := is_loaded name in ret (negb l)) in
    if go then run_mod_cmd (s2l "modprobe " ++ name ++ s2l " " ++ opts) else ret tt.

  (** FSHelpers.py:86-106 wait_for_a_file(). Simplification: the loop ends after timeout / interval + 1 polls at the latest, which it does
      because a sleep takes at least the interval and the clock is not set back. *)
  Fixpoint wait_loop (n : nat) (path : str) (interval timeout start : Z) : M W unit :=
    match n with
    | O => throw EError
    | S n =>
        let! now := gets (h_now h) in
        if now - start <? timeout then
          let! e := reads (h_exists h path) in
          if e : bool then ret tt
          else modify (h_sleep h interval) ;; wait_loop n path interval timeout start
        else throw EError
    end.
  Definition wait_for_a_file (path : str) (interval timeout : Z) : M W unit :=
    let! start := gets (h_now h) in
    wait_loop (S (Z.to_nat (timeout / interval))) path interval timeout start.

  (** FSHelpers.py:55-84 mount_debugfs(), the mount point given being resolved already. Without a process manager 'pman.run_verify' is
      an AttributeError (EIndex here). *)
  Definition debugfs_mnt : str := s2l "/sys/kernel/debug".
  Definition mount_debugfs (given : option str) (pman : bool) : M W (str * bool) :=
    let mnt := match given with None | Some [] => debugfs_mnt | Some p => p end in
    let! found := reads (fun w => let? t := h_mounts h w in find_debugfs mnt (splitlines t)) in
    if found : bool then ret (mnt, false)
    else if pman then h_run h (s2l "mount -t debugfs none '" ++ mnt ++ s2l "'") ;; ret (mnt, true)
    else throw EIndex.

  (** "except Error" *)
  Definition wrap (e : exc) (m : M W unit) : M W unit :=
    fun w => match m w with (Exn e', w') => (Exn (if catches_error e' then e else e'), w') | x => x end.

  (** The driver of an object: is the attribute '_msr_drv' (or '_drv') set, and '_unload_msr_drv' (or '_unload_drv')? *)
  Record dobj := DOBJ { d_drv : bool; d_unload : bool }.

  (** MSR.py:584-611 _ensure_dev_msr(), for the constructor (MSR.py:612-654) *)
  Definition msr_dev (cpu : Z) : str := s2l "/dev/cpu/" ++ dec cpu ++ s2l "/msr".
  Definition msr_open (cpus : list Z) : M W dobj :=
    match cpus with
    | [] => throw EIndex
    | cpu :: _ =>
        let! e := reads (h_exists h (msr_dev cpu)) in
        if e : bool then ret (DOBJ false false)
        else
          let! loaded := fun w => match is_loaded (s2l "msr") w with
                                  | (Exn e, w') => (Exn (if catches_error e then EError else e), w')
                                  | x => x
                                  end in
          if loaded : bool then throw EError
          else
            wrap EError (load (s2l "msr") [] false ;; wait_for_a_file (msr_dev cpu) 1000 1000) ;;
            ret (DOBJ true true)
    end.

  (** MSR.py:656-664 and _UncoreFreq.py:653-661 close(). A call of a method of None is an AttributeError (EIndex here). *)
  Definition drv_close (name : str) (o : dobj) : M W dobj :=
    (if d_unload o then (if d_drv o then unload name else throw EIndex) else ret tt) ;;
    ret (DOBJ false (d_unload o)).
  Definition msr_close : dobj -> M W dobj := drv_close (s2l "msr").

  (** _UncoreFreq.py:540-600 _probe_driver(); [ratio]: has the CPU model got the uncore ratio limit register? *)
  Definition uncore_base : str := s2l "/sys/devices/system/cpu/intel_uncore_frequency".
  Definition uncore_drv (ratio : bool) : str :=
    if ratio then s2l "intel_uncore_frequency" else s2l "intel_uncore_frequency_tpmi".
  Definition probe_driver (ratio : bool) : M W dobj :=
    let drvname := uncore_drv ratio in
    let! x := fun w => match is_loaded drvname w with
                       | (Ok l, w') => (Ok (l, false), w')
                       | (Exn e, w') => if catches_error e then (Ok (false, true), w') else (Exn e, w')
                       end in
    let! x := if fst x : bool then ret (false, true)
              else fun w => match load drvname [] false w with
                            | (Ok _, w') => match wait_for_a_file uncore_base 1000 1000 w' with
                                            | (Ok _, w'') => (Ok (true, snd x), w'')
                                            | (Exn e, w'') => if catches_error e then (Ok (true, true), w'') else (Exn e, w'')
                                            end
                            | (Exn e, w') => if catches_error e then (Ok (false, true), w') else (Exn e, w')
                            end in
    if snd x : bool then throw ENotSupported else ret (DOBJ true (fst x)).

  (** _UncoreFreq.py:602-651 __init__() *)
  Definition uncore_open (intel ratio : bool) : M W dobj :=
    if negb intel then throw ENotSupported
    else
      let! e := reads (h_exists h uncore_base) in
      if e : bool then ret (DOBJ false false) else probe_driver ratio.
  Definition uncore_close (ratio : bool) : dobj -> M W dobj := drv_close (uncore_drv ratio).

  (** Tpmi.py:1015-1019 of the constructor: debugfs is mounted, then the directories and files are looked at ([rest]); the flag is
      '_unmount_debugfs'. *)
  Definition tpmi_open (rest : M W unit) : M W bool :=
    let! x := mount_debugfs None true in
    rest ;; ret (snd x).
  (** Tpmi.py:1021-1028 close(). Simplification: run() is run_verify() with the failure ignored; other exceptions than Error are not. *)
  Definition tpmi_close (flag : bool) : M W unit :=
    if flag then fun w => match h_run h (s2l "unmount " ++ debugfs_mnt) w with
                          | (Exn e, w') => if catches_error e then (Ok tt, w') else (Exn e, w')
                          | x => x
                          end
    else ret tt.
End Driver.
