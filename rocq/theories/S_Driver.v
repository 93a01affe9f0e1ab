(** Specification of loading drivers and mounting debugfs (C75). *)
From Coq Require Import Ascii String.
From Verif Require Import Base M_Text M_Driver S_Systemd.
Open Scope list_scope.
Open Scope Z_scope.

Definition newline : ascii := "010"%char.
(** Lines, every one ended by a newline character. *)
Definition text_of (ls : list str) : str := concat (map (fun l => l ++ [newline]) ls).
Definition one_line (l : str) : Prop := ~ In newline l.

(** A line of "/proc/modules": the name, the size, the usage count, and more. *)
Definition module_line (n l : str) : Prop :=
  one_line l /\ exists size cnt x more, has_words l (n :: size :: dec cnt :: x :: more) /\ 0 <= cnt.
(** A line of "/proc/mounts": the device, the mount point, the file-system type, the options, and more. *)
Definition mount_line (m : str * str) (l : str) : Prop :=
  one_line l /\ exists dev opts x more, has_words l (dev :: fst m :: snd m :: opts :: x :: more).

Definition uncore_module (ratio : bool) : str := if ratio then s2l "intel_uncore_frequency" else s2l "intel_uncore_frequency_tpmi".
Definition uncore_dir : str := s2l "/sys/devices/system/cpu/intel_uncore_frequency".

Section Spec.
  Context {W : Type}.
  Variable h : host W.
  (** The names of the loaded modules; the mount points and their file-system types. *)
  Variable mods : W -> list str.
  Variable mnts : W -> list (str * str).

  Definition tells_modules : Prop := forall w, exists ls, h_modules h w = Ok (text_of ls) /\ Forall2 module_line (mods w) ls.
  Definition tells_mounts : Prop := forall w, exists ls, h_mounts h w = Ok (text_of ls) /\ Forall2 mount_line (mnts w) ls.

  Definition same_modules (w w' : W) : Prop := forall m, In m (mods w') <-> In m (mods w).

  (** What "modprobe" and "rmmod" do for the module; sleeping does nothing to modules. A command that fails does nothing. *)
  Definition modprobe_loads (n : str) : Prop := forall w r w', h_run h (s2l "modprobe " ++ n ++ s2l " ") w = (r, w') ->
    match r with Ok _ => forall m, In m (mods w') <-> In m (mods w) \/ m = n | Exn _ => same_modules w w' end.
  Definition rmmod_unloads (n : str) : Prop := forall w r w', h_run h (s2l "rmmod " ++ n) w = (r, w') ->
    match r with Ok _ => forall m, In m (mods w') <-> In m (mods w) /\ m <> n | Exn _ => same_modules w w' end.
  Definition sleep_harmless : Prop := forall z w, same_modules w (h_sleep h z w).
  (** Every module can be loaded and unloaded. *)
  Definition module_works (n : str) : Prop :=
    (forall w, h_dmesg h w = Ok tt) /\
    (forall w, exists w', h_run h (s2l "modprobe " ++ n ++ s2l " ") w = (Ok tt, w')) /\
    (forall w, exists w', h_run h (s2l "rmmod " ++ n) w = (Ok tt, w')).

  (** A sleep takes at least as long as asked for. *)
  Definition clock_goes : Prop := forall z w, 0 <= z -> h_now h w + z <= h_now h (h_sleep h z w).

  (** The polls of a wait: at the beginning, and after every sleep. *)
  Fixpoint after (k : nat) (interval : Z) (w : W) : W :=
    match k with O => w | S k => after k interval (h_sleep h interval w) end.

  Definition mounted (p : str) (w : W) : Prop := In (p, s2l "debugfs") (mnts w).
  Definition mount_command (p : str) : str := s2l "mount -t debugfs none '" ++ p ++ s2l "'".
End Spec.
