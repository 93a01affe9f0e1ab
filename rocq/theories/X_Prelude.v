(** Examples and counterexamples for C79. *)
From Coq Require Import Ascii String Lia.
From Verif Require Import Base M_Text S_Text M_Human M_CFreq M_Route M_Prelude S_Prelude L_Text L_Prelude.
Open Scope list_scope.
Open Scope Z_scope.

Example list_pstates : list_mechanisms (s2l "_pstates_info_command") =
  Ok [("sysfs", "Linux sysfs file-system"); ("msr", "Model Specific Register (MSR)");
      ("cppc", "ACPI Collaborative Processor Performance Control (CPPC)"); ("doc", "Hardware documentation")]%string.
Proof. vm_compute. reflexivity. Qed.
Example list_pstates_hyps : lists_for "_pstates_info_command" pstates_table /\ pstates_table <> pmqos_table.
Proof. split; [constructor|discriminate]. Qed.
Example modules_hotplug : emul_modules (command "cpu_hotplug" "offline") = Ok ["CPUInfo"; "CPUOnline"; "Systemctl"]%string.
Proof. vm_compute. reflexivity. Qed.
Example needs_hotplug : needs "cpu_hotplug" "offline" ["CPUInfo"; "CPUOnline"; "Systemctl"]%string.
Proof. constructor. cbn. auto. Qed.
Definition bad_second (m : string) : res unit := if String.eqb m "CStates" then Exn EError else Ok tt.
Example second_fails : get_emul_pman bad_second (command "cstates" "info") = (Exn EError, ["CPUInfo"%string], false).
Proof. vm_compute. reflexivity. Qed.
Example model_dec : override_cpu_model (s2l "106") 85 = (Ok tt, 106).
Proof. vm_compute. reflexivity. Qed.
Example model_0x : override_cpu_model (s2l "0x6A") 85 = (Ok tt, 106).
Proof. vm_compute. reflexivity. Qed.
Example model_hex : override_cpu_model (s2l "6a") 85 = (Ok tt, 106).
Proof. vm_compute. reflexivity. Qed.
Example model_hex_hyps : hex (s2l "6a") 106 /\ Exists (fun c => ~ is_digit c) (s2l "6a").
Proof.
  split.
  - split; [discriminate|]. cbn [s2l list_ascii_of_string].
    apply (HX_digit 0 "6"%char 6); [exact (HD_dec "6"%char ltac:(cbn; lia))|].
    apply (HX_digit 6 "a"%char 10); [exact (HD_low "a"%char ltac:(cbn; lia))|]. exact (HX_end 106).
  - right. left. unfold is_digit. cbn. lia.
Qed.
Example model_bad : override_cpu_model (s2l "6a.1") 85 = (Exn EError, 85).
Proof. vm_compute. reflexivity. Qed.
Example foreign_dot : foreign "."%char.
Proof. split; [cbn; lia|]. split; [intros d H; inversion H as [? X|? X|? X]; cbn in X; lia|]. intros H. repeat (destruct H as [H|H]; [discriminate H|]). destruct H. Qed.
Example tuned_here : check_tuned (Ok true) = (Ok tt, [TunedActive]).
Proof. reflexivity. Qed.

(** 'pepc pmqos' *)
Lemma pmqos_list : exists f, lists_for f pmqos_table /\ has_mechanism pmqos_table "sysfs" /\ list_mechanisms (s2l f) = Exn EError.
Proof.
  exists "_pmqos_info_command"%string. split; [constructor|]. split; [|vm_compute; reflexivity].
  exists "latency_limit"%string, ["sysfs"%string], true. split; left; reflexivity.
Qed.
Lemma pmqos_emul : forall init sub, In sub ["info"; "config"; "save"; "restore"]%string -> get_emul_pman init (command "pmqos" sub) = (Exn EError, [], false).
Proof. intros init sub H. cbn in H. repeat (destruct H as [<- |H]; [reflexivity|]). destruct H. Qed.

(** An exception that is not an 'Error' *)
Lemma emul_leak : exists init cmd sub modules e l, needs cmd sub modules /\ get_emul_pman init (command cmd sub) = (Exn e, l, true).
Proof.
  exists (fun _ => Exn EKey), "tpmi"%string, "ls"%string, ["TPMI"%string], EKey, []. split; [|reflexivity].
  constructor. now left.
Qed.

(** A negative model *)
Lemma negative_model : exists s, override_cpu_model s 85 = (Ok tt, -106).
Proof. exists (s2l "-106"). vm_compute. reflexivity. Qed.
