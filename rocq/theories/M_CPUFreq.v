(** Model of CPU frequency access via sysfs: class CPUFreqSysfs of pepclibs/_CPUFreq.py. *)
From Verif Require Import Base M_Text M_Sysfs.

(** The keys "min" and "max": true is "min". *)
Definition fkey_text (is_min : bool) : str := if is_min then s2l "min" else s2l "max".

(** _CPUFreq.py:125-148 _get_policy_sysfs_path(), _get_cpu_freq_sysfs_path(). Simplification: the path is
    computed every time instead of being remembered in '_path_cache'. *)
Definition cpufreq_path (is_min : bool) (cpu : Z) (limit : bool) : str :=
  s2l "/sys/devices/system/cpu/cpufreq/policy" ++ dec cpu ++ s2l "/" ++
  (if limit then s2l "cpuinfo_" else s2l "scaling_") ++ fkey_text is_min ++ s2l "_freq".

(** _CPUFreq.py:225 *)
Definition cpufreq_what (is_min : bool) : str := fkey_text is_min ++ s2l ". CPU frequency".

Section CPUFreq.
  (** The kernel and the cache; the 'verify' argument of the constructor; the CPUs of an Intel processor that
      have the "hwp" flag (_CPUFreq.py:229-230). *)
  Variable k : senv.
  Variable verify : bool.
  Variable hwp : Z -> bool.

  (** _CPUFreq.py:150-159: one step of the generator _get_freq_sysfs(). The warning of
      _warn_no_ecores_bug() is not modelled. *)
  Definition get_cpu_freq (is_min limit : bool) (cpu : Z) : M sstate Z :=
    let! v := s_read_int k (cpufreq_path is_min cpu limit) in
    ret (v * 1000).

  (** _CPUFreq.py:150-159 _get_freq_sysfs(), run to its end *)
  Definition get_freq_sysfs (is_min limit : bool) (cpus : list Z) : M sstate (list (Z * Z)) :=
    mmap cpus (fun cpu => let! f := get_cpu_freq is_min limit cpu in ret (cpu, f)).

  (** _CPUFreq.py:227-248: one iteration of the loop of _set_freq_sysfs(). The time to sleep is in tenths of
      a second. The attribute added to the exception is not modelled. *)
  Definition set_cpu_freq_file (is_min : bool) (freq cpu : Z) : M sstate unit :=
    let path := cpufreq_path is_min cpu false in
    let what := Some (cpufreq_what is_min) in
    if negb verify then s_write_int k path (dec (freq / 1000)) what
    else s_write_verify_int k path (dec (freq / 1000)) what (if hwp cpu then 2 else 0) (if hwp cpu then 1 else 0).

  (** _CPUFreq.py:218-248 _set_freq_sysfs() *)
  Definition set_freq_sysfs (is_min : bool) (freq : Z) (cpus : list Z) : M sstate unit :=
    mfor cpus (set_cpu_freq_file is_min freq).
End CPUFreq.
