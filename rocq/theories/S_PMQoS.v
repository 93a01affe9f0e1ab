(** Specification of the PM QoS latency limits. *)
From Coq Require Import QArith Qabs.
From Verif Require Import Base M_Text M_Sysfs S_Sysfs S_SysView.

(** The kernel file with the limit of a CPU, in microseconds. *)
Definition limit_file (cpu : Z) : str :=
  s2l "/sys/devices/system/cpu/cpu" ++ dec cpu ++ s2l "/power/pm_qos_resume_latency_us".

(** 'us' is a nearest whole number of microseconds to 'lim' seconds. *)
Definition nearest_us (lim : Q) (us : Z) : Prop :=
  (Qabs (inject_Z us - lim * inject_Z 1000000) <= 1 # 2)%Q.

(** 'v' seconds is 'lim' seconds to microsecond resolution. *)
Definition to_the_microsecond (lim v : Q) : Prop := (Qabs (v - lim) <= 1 # 2000000)%Q.

(** 'lim' is a whole number of microseconds. *)
Definition whole_us (lim : Q) : Prop := exists us, (lim * inject_Z 1000000 == inject_Z us)%Q.

(** The four bytes the kernel encodes 'n' in, lowest first. *)
Definition four_bytes (n : Z) : list Z :=
  [n mod 2 ^ 8; (n / 2 ^ 8) mod 2 ^ 8; (n / 2 ^ 16) mod 2 ^ 8; (n / 2 ^ 24) mod 2 ^ 8].
