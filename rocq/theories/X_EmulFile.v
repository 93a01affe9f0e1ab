(** Cases and counterexamples for the emulated files (C81). *)
From Coq Require Import Ascii String.
From Verif Require Import Base M_Text S_Text S_Systemd M_CFreq M_EmulFile S_EmulFile L_EmulFile.
Open Scope list_scope.

Definition x_gov : str := s2l "/sys/devices/system/cpu/cpu0/cpufreq/scaling_governor".
Definition x_epb : str := s2l "/sys/devices/system/cpu/cpu0/power/energy_perf_bias".
Definition x_aspm : str := s2l "/sys/module/pcie_aspm/parameters/policy".
Definition x_l1 : str := s2l "/sys/bus/pci/devices/0000:00:02.0/link/l1_aspm".
Definition x_names : list str := map s2l ["cpufreq"; "cpu1"; "online"; "cpu0"; "cpu10"; "cpu2"]%string.
Definition x_s : fs :=
  [(x_gov, s2l "performance"); (x_epb, s2l "6"); (x_aspm, policy_text Default ++ [ascii_of_nat 10]); (x_l1, s2l "1");
   (online_file (s2l "cpu1"), s2l "1" ++ [ascii_of_nat 10]); (online_file (s2l "cpu2"), s2l "0"); (online_file (s2l "cpu10"), s2l "1")].

Lemma write_mode_witness : exists s path x e s', sysfs_session path MWrite [x] s = (Exn e, s') /\ content s' path <> content s path.
Proof. exists x_s, x_l1, (s2l "0"), EError. eexists. split; [reflexivity|]. vm_compute. discriminate. Qed.

Lemma aspm_witness : exists s path p, aspm_file path /\ content s path = Some (policy_text p) /\
  exists q b s', S_Systemd.spaces b /\ sysfs_session path MUpdate [s2l (policy_name q) ++ b] s = (Ok tt, s') /\
    forall r t, content s' path <> Some (policy_text r ++ t).
Proof.
  exists [(x_aspm, policy_text Default)], x_aspm, Default. split; [exists (s2l "/sys/module/"); reflexivity|]. split; [reflexivity|].
  exists Powersave, [ascii_of_nat 10]. eexists. split; [repeat constructor|]. split; [vm_compute; reflexivity|].
  intros r t. destruct r; vm_compute; discriminate.
Qed.

Lemma read_only_witness : exists data x e, ro_write data x = Exn e /\ catches_error e = false.
Proof. exists [], [], EValue. split; reflexivity. Qed.
