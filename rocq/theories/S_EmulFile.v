(** Specification of the emulated files (C81). *)
From Coq Require Import Ascii String.
From Verif Require Import Base M_Text S_Text S_Systemd M_EmulFile.
Open Scope list_scope.

(** What is in a file. *)
Definition content (s : fs) (path : str) : option str := dget str_eqb s path.
(** Nothing but this file changed. *)
Definition only_changed (path : str) (s s' : fs) : Prop := forall p, p <> path -> content s' p = content s p.

(** The three kinds of sysfs files, by path. *)
Definition aspm_file (path : str) : Prop := exists a, path = a ++ s2l "pcie_aspm/parameters/policy".
Definition epb_file (path : str) : Prop := exists a, path = a ++ s2l "/energy_perf_bias".
Definition plain_file (path : str) : Prop := ~ aspm_file path /\ ~ epb_file path.

(** The names that the kernel has for values of the energy/performance bias. *)
Definition bias_names : list (string * string) :=
  [("performance", "0"); ("balance-performance", "4"); ("normal", "6"); ("balance-power", "8"); ("power", "15")]%string.
(** The text names a bias, with white space around it. *)
Definition names_bias (x : str) (name : string) : Prop := exists a b, S_Systemd.spaces a /\ S_Systemd.spaces b /\ x = a ++ s2l name ++ b.

(** The policies of ASPM and what the kernel shows if one of them is in force. *)
Inductive policy := Default | Performance | Powersave | Powersupersave.
Definition policy_name (p : policy) : string :=
  match p with Default => "default" | Performance => "performance" | Powersave => "powersave" | Powersupersave => "powersupersave" end.
Definition policy_text (p : policy) : str :=
  s2l match p with
      | Default => "[default] performance powersave powersupersave"
      | Performance => "default [performance] powersave powersupersave"
      | Powersave => "default performance [powersave] powersupersave"
      | Powersupersave => "default performance powersave [powersupersave]"
      end.

(** The names of the directories of the CPUs and the files that say whether they are online. *)
Definition cpu_dir (name : str) (c : Z) : Prop := exists ds, name = s2l "cpu" ++ ds /\ numeral ds c.
(** A name of another kind: not "cpu...", or "cpu" and a letter other than a prefix of a number, like "cpufreq". *)
Definition other_dir (name : str) : Prop :=
  (forall t, name <> s2l "cpu" ++ t) \/
  exists c t, name = s2l "cpu" ++ c :: t /\ (97 <= Z.of_nat (nat_of_ascii c) <= 122)%Z.
Definition online_file (name : str) : str := s2l "/sys/devices/system/cpu/" ++ name ++ s2l "/online".
(** There is the directory of the CPU, and no file in it, or one with "1". *)
Definition is_online (s : fs) (names : list str) (c : Z) : Prop :=
  exists name, In name names /\ cpu_dir name c /\
    (content s (online_file name) = None \/ exists a b, S_Systemd.spaces a /\ S_Systemd.spaces b /\ content s (online_file name) = Some (a ++ s2l "1" ++ b)).

(** The value last given to an address. *)
Inductive last_value (a : nat) : list (nat * str) -> str -> Prop :=
| last_here v l : ~ In a (map fst l) -> last_value a ((a, v) :: l) v
| last_later x v l : last_value a l v -> last_value a (x :: l) v.
