(** C81: the emulated files. *)
From Coq Require Import Ascii String Sorting.Sorted.
From Verif Require Import Base M_Text S_Text S_Systemd M_CFreq M_EmulFile S_EmulFile L_EmulFile L_EmulFile2 X_EmulFile.
Open Scope list_scope.

(** After any writes an ordinary sysfs file has exactly the text last written, whatever was in it, and no other file changed (case: x_write). *)
Theorem C81_last_write : forall s path d xs x, plain_file path -> content s path = Some d ->
  exists s', sysfs_session path MUpdate (xs ++ [x]) s = (Ok tt, s') /\ content s' path = Some x /\ only_changed path s s'.
Proof. exact last_write_l. Qed.
Print Assumptions C81_last_write.

Example x_write : plain_file x_gov /\ content x_s x_gov = Some (s2l "performance") /\
  content (snd (sysfs_session x_gov MUpdate [s2l "a-longer-governor"; s2l "powersave"] x_s)) x_gov = Some (s2l "powersave").
Proof.
  split; [|split; vm_compute; reflexivity]. split; intros (a & E); apply (f_equal (fun l => hd "0"%char (rev l))) in E; rewrite rev_app_distr in E; discriminate E.
Qed.

(** The file of the energy/performance bias takes names, and then has the number and a line break; other texts are kept (case: x_bias). *)
Theorem C81_bias : forall s path d xs x, epb_file path -> content s path = Some d ->
  exists s', sysfs_session path MUpdate (xs ++ [x]) s = (Ok tt, s') /\ only_changed path s s' /\
    (forall name v, In (name, v) bias_names -> names_bias x name -> content s' path = Some (s2l v ++ [ascii_of_nat 10])) /\
    ((forall name v, In (name, v) bias_names -> ~ names_bias x name) -> content s' path = Some x).
Proof. exact epb_l. Qed.
Print Assumptions C81_bias.

Example x_bias : epb_file x_epb /\ names_bias (s2l "balance-power" ++ [ascii_of_nat 10]) "balance-power" /\
  content (snd (sysfs_session x_epb MUpdate [s2l "power"; s2l "balance-power" ++ [ascii_of_nat 10]] x_s)) x_epb = Some (s2l "8" ++ [ascii_of_nat 10]) /\
  content (snd (sysfs_session x_epb MUpdate [s2l "power"; s2l "7"] x_s)) x_epb = Some (s2l "7").
Proof.
  split; [exists (s2l "/sys/devices/system/cpu/cpu0/power"); reflexivity|]. split; [exists [], [ascii_of_nat 10]; repeat constructor|].
  split; vm_compute; reflexivity.
Qed.

(** The file of the ASPM policy shows all the policies, and the one last written in brackets (case: x_policy). *)
Theorem C81_policy : forall s path p b ps q, aspm_file path -> S_Systemd.spaces b -> content s path = Some (policy_text p ++ b) ->
  exists s', sysfs_session path MUpdate (map (fun r => s2l (policy_name r)) (ps ++ [q])) s = (Ok tt, s') /\
    content s' path = Some (policy_text q) /\ only_changed path s s'.
Proof. exact aspm_l. Qed.
Print Assumptions C81_policy.

Example x_policy : aspm_file x_aspm /\ content x_s x_aspm = Some (policy_text Default ++ [ascii_of_nat 10]) /\
  content (snd (sysfs_session x_aspm MUpdate (map (fun r => s2l (policy_name r)) [Performance; Powersave]) x_s)) x_aspm =
    Some (s2l "default performance [powersave] powersupersave").
Proof. split; [exists (s2l "/sys/module/"); reflexivity|]. split; vm_compute; reflexivity. Qed.

(** FINDING: a policy followed by a line break, which the kernel takes, leaves the file without a policy in force. *)
Theorem C81_policy_refuted : exists s path p, aspm_file path /\ content s path = Some (policy_text p) /\
  exists q b s', S_Systemd.spaces b /\ sysfs_session path MUpdate [s2l (policy_name q) ++ b] s = (Ok tt, s') /\
    forall r t, content s' path <> Some (policy_text r ++ t).
Proof. exact aspm_witness. Qed.
Print Assumptions C81_policy_refuted.

(** A file open for reading cannot be written; nothing changes (case: x_modes). *)
Theorem C81_read_mode : forall s path xs r s', sysfs_session path MRead xs s = (r, s') ->
  s' = s /\ (xs <> [] -> content s path <> None -> r = Exn EError).
Proof. exact read_mode_l. Qed.
Print Assumptions C81_read_mode.

(** A file that is not there cannot be read or updated; nothing changes (case: x_modes). *)
Theorem C81_missing : forall s path m xs, m <> MWrite -> content s path = None -> sysfs_session path m xs s = (Exn ENotFound, s).
Proof. exact missing_l. Qed.
Print Assumptions C81_missing.

(** To open a sysfs file with "w" is always refused, but empties it; no other file changes (case: x_modes). *)
Theorem C81_write_mode : forall s path xs, exists s', sysfs_session path MWrite xs s = (Exn EError, s') /\ content s' path = Some [] /\ only_changed path s s'.
Proof. exact write_mode_l. Qed.
Print Assumptions C81_write_mode.

Example x_modes : sysfs_session x_gov MRead [s2l "x"] x_s = (Exn EError, x_s) /\ content x_s (s2l "/sys/none") = None /\
  fst (sysfs_session x_l1 MWrite [s2l "0"] x_s) = Exn EError /\ content (snd (sysfs_session x_l1 MWrite [s2l "0"] x_s)) x_l1 = Some [].
Proof. repeat split; vm_compute; reflexivity. Qed.

(** FINDING: so the failed write is not without effect: ASPM.toggle_l1_state() opens with "w", fails on emulated systems, and the file is empty. *)
Theorem C81_write_mode_refuted : exists s path x e s', sysfs_session path MWrite [x] s = (Exn e, s') /\ content s' path <> content s path.
Proof. exact write_mode_witness. Qed.
Print Assumptions C81_write_mode_refuted.

(** The file of the online CPUs lists exactly the CPUs whose own files say so or are missing (case: x_online). *)
Theorem C81_online : forall s names, Forall (fun n => (exists c, cpu_dir n c) \/ other_dir n) names ->
  exists t r, online_read s names = Ok t /\ parse_int_list "," false [NStr t] = Ok r /\ StronglySorted Z.le r /\ forall c, In c r <-> is_online s names c.
Proof. exact online_l. Qed.
Print Assumptions C81_online.

(** To write "0" or "1" to the file of a CPU puts exactly this CPU offline or online (case: x_online). *)
Theorem C81_toggle : forall s names name c d xs (on : bool), In name names -> cpu_dir name c -> content s (online_file name) = Some d ->
  exists s', sysfs_session (online_file name) MUpdate (xs ++ [s2l (if on then "1" else "0")]) s = (Ok tt, s') /\
    (is_online s' names c <-> on = true) /\ (forall c', c' <> c -> (is_online s' names c' <-> is_online s names c')).
Proof. exact toggle_l. Qed.
Print Assumptions C81_toggle.

Example x_online : Forall (fun n => (exists c, cpu_dir n c) \/ other_dir n) x_names /\ online_read x_s x_names = Ok (s2l "0,1,10") /\
  online_read (snd (sysfs_session (online_file (s2l "cpu2")) MUpdate [s2l "1"] x_s)) x_names = Ok (s2l "0-2,10").
Proof.
  assert (D : forall c, (Nat.leb 48 (nat_of_ascii c) && Nat.leb (nat_of_ascii c) 57)%bool = true -> is_digit c).
  { intros c H. apply Bool.andb_true_iff in H as (H1 & H2). apply Nat.leb_le in H1, H2. now split. }
  split; [|split; vm_compute; reflexivity]. unfold x_names. cbn [map].
  constructor. { right. right. exists "f"%char, (s2l "req"). split; [reflexivity|]. vm_compute. split; discriminate. }
  constructor. { left. exists 1%Z, (s2l "1"). split; [reflexivity|]. split; [discriminate|]. split; [repeat constructor; apply D; reflexivity|]. split; [reflexivity|discriminate]. }
  constructor. { right. left. intros t E. discriminate E. }
  constructor. { left. exists 0%Z, (s2l "0"). split; [reflexivity|]. split; [discriminate|]. split; [repeat constructor; apply D; reflexivity|]. split; reflexivity. }
  constructor. { left. exists 10%Z, (s2l "10"). split; [reflexivity|]. split; [discriminate|]. split; [repeat constructor; apply D; reflexivity|]. split; [reflexivity|discriminate]. }
  constructor. { left. exists 2%Z, (s2l "2"). split; [reflexivity|]. split; [discriminate|]. split; [repeat constructor; apply D; reflexivity|]. split; [reflexivity|discriminate]. }
  constructor.
Qed.

(** FINDING: a write to a read-only file is not an 'Error'. *)
Theorem C81_read_only_refuted : exists data x e, ro_write data x = Exn e /\ catches_error e = false.
Proof. exact read_only_witness. Qed.
Print Assumptions C81_read_only_refuted.

(** A register reads as it was written, and writing one register changes no other (case: x_registers). *)
Theorem C81_register : forall a x d, length x = 8%nat -> msr_read a (msr_write a x d) = x.
Proof. exact msr_same_l. Qed.
Print Assumptions C81_register.

Theorem C81_other_registers : forall a b x d, length x = 8%nat -> a <> b -> (b * 8 + 8 <= length d)%nat -> msr_read b (msr_write a x d) = msr_read b d.
Proof. exact msr_other_l. Qed.
Print Assumptions C81_other_registers.

(** The registers of a new emulated system have the recorded values, the last ones given; those in between that are not recorded are zero
    (case: x_registers). *)
Theorem C81_recorded : forall a v pairs, Forall (fun av => length (snd av) = 8%nat) pairs -> last_value a pairs v -> msr_read a (init_msrs pairs) = v.
Proof. exact init_l. Qed.
Print Assumptions C81_recorded.

Theorem C81_not_recorded : forall a b pairs, Forall (fun av => length (snd av) = 8%nat) pairs -> ~ In a (map fst pairs) -> In b (map fst pairs) -> (a < b)%nat ->
  msr_read a (init_msrs pairs) = repeat Ascii.zero 8.
Proof. exact init_zero_l. Qed.
Print Assumptions C81_not_recorded.

Definition x_pairs : list (nat * str) := [(3%nat, s2l "aaaaaaaa"); (1%nat, s2l "bbbbbbbb"); (3%nat, s2l "cccccccc")].
Example x_registers : Forall (fun av => length (snd av) = 8%nat) x_pairs /\ last_value 3 x_pairs (s2l "cccccccc") /\
  msr_read 3 (init_msrs x_pairs) = s2l "cccccccc" /\ msr_read 2 (init_msrs x_pairs) = repeat Ascii.zero 8 /\
  msr_read 1 (msr_write 3 (s2l "dddddddd") (init_msrs x_pairs)) = s2l "bbbbbbbb".
Proof. split; [repeat constructor|]. split; [do 2 constructor; constructor; intros []|]. repeat split; vm_compute; reflexivity. Qed.
