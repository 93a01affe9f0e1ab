(** Specification of '--list-mechanisms', the modules of an emulated system, '--override-cpu-model' and the 'tuned' check (C79). *)
From Coq Require Import Ascii String.
From Verif Require Import Base M_Text S_Text M_Route M_Prelude.
Open Scope list_scope.
Open Scope Z_scope.

(** The commands that have the option, and their properties. *)
Inductive lists_for : string -> ptable -> Prop :=
| LPInfo : lists_for "_pstates_info_command" pstates_table
| LPConf : lists_for "_pstates_config_command" pstates_table
| LCInfo : lists_for "_cstates_info_command" cstates_table
| LCConf : lists_for "_cstates_config_command" cstates_table
| LWInfo : lists_for "_power_info_command" power_table
| LWConf : lists_for "_power_config_command" power_table
| LQInfo : lists_for "_pmqos_info_command" pmqos_table
| LQConf : lists_for "_pmqos_config_command" pmqos_table.

(** A property of the class has the mechanism. *)
Definition has_mechanism (t : ptable) (m : string) : Prop := exists p l w, In (p, (l, w)) t /\ In m l.

(** The command [cmd] [sub] and the modules its work needs. *)
Definition command (cmd sub : string) : str := s2l ("_" ++ cmd ++ "_" ++ sub ++ "_command").
Inductive needs : string -> string -> list string -> Prop :=
| NAspm s : In s ["info"; "config"]%string -> needs "aspm" s ["ASPM"; "Systemctl"]%string
| NCStates s : In s ["info"; "config"; "save"; "restore"]%string -> needs "cstates" s ["CPUInfo"; "CStates"; "Systemctl"]%string
| NPStates s : In s ["info"; "config"; "save"; "restore"]%string -> needs "pstates" s ["CPUInfo"; "PStates"; "Systemctl"]%string
| NPower s : In s ["info"; "config"; "save"; "restore"]%string -> needs "power" s ["CPUInfo"; "Power"]%string
| NTopology : needs "topology" "info" ["CPUInfo"]%string
| NHotplug s : In s ["info"; "online"; "offline"]%string -> needs "cpu_hotplug" s ["CPUInfo"; "CPUOnline"; "Systemctl"]%string
| NTpmi s : In s ["ls"; "read"; "write"]%string -> needs "tpmi" s ["TPMI"]%string.

(** Hexadecimal digits. *)
Inductive hex_digit : ascii -> Z -> Prop :=
| HD_dec c : (48 <= nat_of_ascii c <= 57)%nat -> hex_digit c (Z.of_nat (nat_of_ascii c) - 48)
| HD_low c : (97 <= nat_of_ascii c <= 102)%nat -> hex_digit c (Z.of_nat (nat_of_ascii c) - 87)
| HD_up c : (65 <= nat_of_ascii c <= 70)%nat -> hex_digit c (Z.of_nat (nat_of_ascii c) - 55).
Inductive hex_from : Z -> str -> Z -> Prop :=
| HX_end v : hex_from v [] v
| HX_digit v c d s r : hex_digit c d -> hex_from (16 * v + d) s r -> hex_from v (c :: s) r.
Definition hex (s : str) (n : Z) : Prop := s <> [] /\ hex_from 0 s n.

(** An exception of the project. *)
Definition project_error (e : exc) : Prop := ~ In e [EOverflow; EKey; EValue; EIndex; EUnbound].

(** A printable character that is no part of a number. *)
Definition foreign (c : ascii) : Prop :=
  (33 <= nat_of_ascii c <= 126)%nat /\ (forall d, ~ hex_digit c d) /\ ~ In c ["_"; "+"; "-"; "x"; "X"]%char.
