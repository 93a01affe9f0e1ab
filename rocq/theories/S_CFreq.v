(** Specification of the settings of Linux CPU frequency drivers, by the names and the contents of the files. *)
From Coq Require Import Ascii String.
From Verif Require Import Base M_Text M_Sysfs S_Sysfs S_SysView M_CFreq.
Open Scope list_scope.

(** The file of a cpufreq policy. *)
Definition policy_file (cpu : Z) (name : string) : str :=
  s2l "/sys/devices/system/cpu/cpufreq/policy" ++ dec cpu ++ s2l "/" ++ s2l name.

(** The driver of a CPU: what its "scaling_driver" file tells, where "intel_cpufreq" is another name of
    "intel_pstate". Without that file it is "intel_pstate" if the directory of this driver exists. *)
Definition has_driver (k : senv) (has_dir : bool) (s : sstate) (cpu : Z) (d : str) : Prop :=
  (exists name, seen k s (policy_file cpu "scaling_driver") = Ok name /\
     ((name = s2l "intel_cpufreq" /\ d = s2l "intel_pstate") \/ (name <> s2l "intel_cpufreq" /\ d = name))) \/
  (seen k s (policy_file cpu "scaling_driver") = Exn ENotSupported /\ has_dir = true /\ d = s2l "intel_pstate").

(** The file with the turbo setting of a driver, and the number that stands for turbo being enabled or not. *)
Inductive turbo_knob : str -> bool -> str -> Z -> Prop :=
| TPstate_on : turbo_knob (s2l "intel_pstate") true (s2l "/sys/devices/system/cpu/intel_pstate/no_turbo") 0
| TPstate_off : turbo_knob (s2l "intel_pstate") false (s2l "/sys/devices/system/cpu/intel_pstate/no_turbo") 1
| TAcpi_on : turbo_knob (s2l "acpi-cpufreq") true (s2l "/sys/devices/system/cpu/cpufreq/boost") 1
| TAcpi_off : turbo_knob (s2l "acpi-cpufreq") false (s2l "/sys/devices/system/cpu/cpufreq/boost") 0.

(** Turbo is enabled or disabled for CPUs with this driver: numbers other than 0 and 1 mean the same as 1. *)
Definition turbo_is (k : senv) (s : sstate) (d : str) (b : bool) : Prop :=
  exists f n, seen_int k s f = Ok n /\
    ((n = 0 /\ turbo_knob d b f 0) \/ (n <> 0 /\ turbo_knob d b f 1)).

Definition onoff_text (b : bool) : str := if b then s2l "on" else s2l "off".

(** What is written to file 'p' is what is read afterwards: it is remembered, or the kernel stores it. *)
Definition shows_written (k : senv) (s : sstate) (p v : str) : Prop :=
  se_cache k = true \/ (ss_intr s = false /\ k_unreadable k p = false /\ stores k p v).

(** The file exists and the kernel takes the value. *)
Definition accepts (k : senv) (s : sstate) (p v : str) : Prop :=
  ss_fs s p <> None /\ forall old, k_write k p old v <> None.

(** Nothing that can be seen has changed. *)
Definition nothing_changed (k : senv) (s s' : sstate) : Prop :=
  (forall p, seen k s' p = seen k s p) /\ ss_fs s' = ss_fs s /\ ss_buf s' = ss_buf s /\
  ss_intr s' = ss_intr s /\ ss_log s' = ss_log s.

Definition status_file : str := s2l "/sys/devices/system/cpu/intel_pstate/status".

(** The names in the file "scaling_available_governors" *)
Definition governors_listed (k : senv) (s : sstate) (cpu : Z) (gs : list str) : Prop :=
  exists t, seen k s (policy_file cpu "scaling_available_governors") = Ok t /\ t = join " " gs /\
  Forall (fun g => g <> [] /\ forall c, In c g -> is_space c = false) gs.

(** A list of numbers, one for each of the CPUs, in the order of the CPUs *)
Definition one_each {A} (cpus : list Z) (l : list (Z * A)) (P : Z -> A -> Prop) : Prop :=
  map fst l = cpus /\ forall c v, In (c, v) l -> P c v.

(** The files with the base frequency of a CPU *)
Definition base_file (cpu : Z) : str := policy_file cpu "base_frequency".
Definition bios_file (cpu : Z) : str := s2l "/sys/devices/system/cpu/cpu" ++ dec cpu ++ s2l "/cpufreq/bios_limit".
Definition cppc_file (cpu : Z) (name : string) : str :=
  s2l "/sys/devices/system/cpu/cpu" ++ dec cpu ++ s2l "/acpi_cppc/" ++ s2l name.

(** Writing 'v' to file 'p' works. Outside a transaction: the file exists and the kernel takes the value. In a
    transaction: what was written to this file since its start, if anything, was written in the same way. *)
Definition can_write (k : senv) (s : sstate) (p v : str) (what : string) : Prop :=
  (ss_intr s = false /\ accepts k s p v) \/
  (ss_intr s = true /\ se_cache k = true /\
   forall ti, dget str_eqb (ss_buf s) p = Some ti -> exists v', ti = STI v' (Some (s2l what)) true 0 0).

(** Nothing changed that a reader of numbers can see. *)
Definition numbers_kept (k : senv) (s s' : sstate) : Prop :=
  (forall p, seen_int k s' p = seen_int k s p) /\ ss_fs s' = ss_fs s /\ ss_buf s' = ss_buf s /\
  ss_intr s' = ss_intr s /\ ss_log s' = ss_log s.

(** File 'name' of ACPI CPPC has a number other than 0. *)
Definition cppc_number (k : senv) (s : sstate) (cpu : Z) (name : string) (n : Z) : Prop :=
  seen_int k s (cppc_file cpu name) = Ok n /\ n <> 0.
