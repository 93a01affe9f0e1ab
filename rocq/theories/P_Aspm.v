(** C62: PCI ASPM.  The host is a file system [a_fs] and a kernel that decides what a write does ([ae_write]); [a_log] is
    what was written, [a_out] what was printed. *)
From Verif Require Import Base L_Base M_Text S_Text M_Kver M_Osa S_Osa M_Aspm S_Aspm L_Aspm L_Aspm2 X_Aspm.

(** C62. "aspm info" prints the policy that is in brackets, all policies, and the state of the device, and changes
    nothing. *)
Theorem C62_info : forall env policy policies l1 dev s names cur t,
  a_fs s policy_path = Some t -> ae_unreadable env policy_path = false -> menu names cur t ->
  (l1 = true -> given dev) ->
  (forall addr, given dev -> dev = Some addr -> ae_unreadable env (l1_path addr) = false /\ exists f on, a_fs s (l1_path addr) = Some f /\ flag on f) ->
  exists s' lines, info env policy policies l1 dev s = (Ok tt, s') /\
    a_out s' = a_out s ++ lines ++
      (if policy || negb (policy || policies || l1) then [MPolicy cur] else []) ++
      (if policies || negb (policy || policies || l1) then [MPolicies names] else []) /\
    (~ given dev -> lines = []) /\
    forall addr on f, given dev -> dev = Some addr -> a_fs s (l1_path addr) = Some f -> flag on f -> lines = [ML1 on addr].
Proof. exact C62_info_l. Qed.
Print Assumptions C62_info.

Example C62_info_case :
  a_fs (a_init x_fs) policy_path = Some x_text /\ menu x_names (s2l "performance") x_text /\
  a_fs (a_init x_fs) (l1_path x_addr) = Some (s2l "0" ++ nl) /\ flag false (s2l "0" ++ nl) /\
  a_out (snd (info x_env true true true (Some x_addr) (a_init x_fs))) = [ML1 false x_addr; MPolicy (s2l "performance"); MPolicies x_names].
Proof. exact C62_info_case_l. Qed.

Theorem C62_info_changes_nothing : forall env policy policies l1 dev s, untouched s (snd (info env policy policies l1 dev s)).
Proof. exact C62_info_changes_nothing_l. Qed.
Print Assumptions C62_info_changes_nothing.

(** The "config" command without values only prints. *)
Theorem C62_config_reads : forall env policy l1 dev s,
  (forall n, policy = Some (Some n) -> n = []) -> (forall st, l1 = Some (Some st) -> st = []) ->
  untouched s (snd (config env policy l1 dev s)).
Proof. exact C62_reads_l. Qed.
Print Assumptions C62_config_reads.

Example C62_config_reads_case :
  a_out (snd (config x_env (Some None) (Some None) (Some x_addr) (a_init x_fs))) = [MPolicy (s2l "performance"); ML1 false x_addr].
Proof. vm_compute. reflexivity. Qed.

(** Success of "--policy" means: the name was listed, it was written to the policy file and to nothing else, and it is
    the current policy now.  The message tells the previous policy. *)
Theorem C62_policy_set : forall env name dev s s', name <> [] -> config env (Some (Some name)) None dev s = (Ok tt, s') ->
  ~ given dev /\ a_log s' = a_log s ++ [(policy_path, name)] /\ only [policy_path] (a_fs s) (a_fs s') /\
  (forall names cur t, a_fs s' policy_path = Some t -> menu names cur t -> cur = name) /\
  forall names cur t, a_fs s policy_path = Some t -> menu names cur t ->
    In name names /\ (cur <> name -> a_out s' = a_out s ++ [MChanged cur name]) /\ (cur = name -> a_out s' = a_out s ++ [MAgain name]).
Proof. exact C62_policy_set_l. Qed.
Print Assumptions C62_policy_set.

(** A listed name can be set. *)
Theorem C62_policy_succeeds : forall env name s names cur t,
  obeys env -> a_fs s policy_path = Some t -> menu names cur t -> In name names ->
  exists s', config env (Some (Some name)) None None s = (Ok tt, s') /\ exists t', a_fs s' policy_path = Some t' /\ menu names name t'.
Proof. exact C62_policy_succeeds_l. Qed.
Print Assumptions C62_policy_succeeds.

Example C62_policy_succeeds_case : obeys x_env /\ menu x_names (s2l "performance") x_text /\ In (s2l "powersave") x_names.
Proof. split; [exact x_obeys|]. split; [exact x_menu|]. vm_compute. tauto. Qed.

(** A name that is not listed is rejected, and so is a device: nothing is written or printed. *)
Theorem C62_policy_rejected : forall env name dev s names cur t, name <> [] ->
  a_fs s policy_path = Some t -> menu names cur t -> ~ In name names \/ given dev \/ ae_unreadable env policy_path = true ->
  config env (Some (Some name)) None dev s = (Exn EError, s).
Proof. exact C62_policy_rejected_l. Qed.
Print Assumptions C62_policy_rejected.

Example C62_policy_rejected_case : ~ In (s2l "[performance]") x_names /\ ~ In (s2l "Powersave") x_names.
Proof. split; vm_compute; intuition discriminate. Qed.

(** When "--policy" fails nothing is printed, and either nothing was written or the kernel has chosen another policy. *)
Theorem C62_policy_failed : forall env name dev s e s', name <> [] -> config env (Some (Some name)) None dev s = (Exn e, s') ->
  a_out s' = a_out s /\
  (untouched s s' \/
   a_log s' = a_log s ++ [(policy_path, name)] /\ only [policy_path] (a_fs s) (a_fs s') /\
   forall names cur t, a_fs s' policy_path = Some t -> menu names cur t -> cur <> name /\ e = EError).
Proof. exact C62_policy_failed_l. Qed.
Print Assumptions C62_policy_failed.

(** "--l1-aspm" writes 1 for "on", "true" and "enable", 0 for "off", "false" and "disable", in any letter case, to the
    file of the device and to nothing else. *)
Theorem C62_l1_set : forall env addr st s s', addr <> [] -> st <> [] -> config env None (Some (Some st)) (Some addr) s = (Ok tt, s') ->
  exists on old new, means_state on st /\ a_fs s (l1_path addr) = Some old /\
    ae_write env (l1_path addr) old (if on then s2l "1" else s2l "0") = Some new /\ a_fs s' (l1_path addr) = Some new /\
    only [l1_path addr] (a_fs s) (a_fs s') /\ a_log s' = a_log s ++ [(l1_path addr, if on then s2l "1" else s2l "0")] /\
    a_out s' = a_out s ++ [MToggled (lower st) addr].
Proof. exact C62_l1_set_l. Qed.
Print Assumptions C62_l1_set.

Theorem C62_l1_succeeds : forall env addr st s on old new, addr <> [] -> means_state on st -> a_fs s (l1_path addr) = Some old ->
  ae_write env (l1_path addr) old (if on then s2l "1" else s2l "0") = Some new ->
  exists s', config env None (Some (Some st)) (Some addr) s = (Ok tt, s') /\ a_fs s' (l1_path addr) = Some new.
Proof. exact C62_l1_succeeds_l. Qed.
Print Assumptions C62_l1_succeeds.

Example C62_l1_succeeds_case : means_state true (s2l "ON") /\ x_fs (l1_path x_addr) = Some (s2l "0" ++ nl) /\
  ae_write x_env (l1_path x_addr) (s2l "0" ++ nl) (s2l "1") = Some (s2l "1" ++ nl).
Proof. split; [exact x_means_on|]. split; vm_compute; reflexivity. Qed.

(** Any other word is rejected before anything is written, and a failure leaves everything as it was. *)
Theorem C62_l1_rejected : forall env addr st s, st <> [] -> ~ means_state true st -> ~ means_state false st ->
  config env None (Some (Some st)) addr s = (Exn EError, s).
Proof. exact C62_l1_rejected_l. Qed.
Print Assumptions C62_l1_rejected.

Example C62_l1_rejected_case : ~ means_state true (s2l "1") /\ ~ means_state false (s2l "1").
Proof. split; intros H; apply state_words in H; vm_compute in H; discriminate. Qed.

Theorem C62_l1_failed : forall env addr st s e s', addr <> [] -> st <> [] -> config env None (Some (Some st)) (Some addr) s = (Exn e, s') ->
  untouched s s' /\ a_out s' = a_out s.
Proof. exact C62_l1_failed_l. Qed.
Print Assumptions C62_l1_failed.

(** A device that has no L1 state is reported as "not supported", a device that does not exist as an error, when the
    state is read and when it is set. *)
Theorem C62_l1_missing : forall env addr s,
  addr <> [] -> a_fs s (l1_path addr) = None -> ae_dir env (link_path addr) = false -> a_kver s = None ->
  (forall v, ae_uname env = Ok v -> exists k, split_kver v = Ok k) ->
  forall on st, means_state on st ->
  let e := if ae_dir env (dev_path addr) then ENotSupported else EError in
  fst (is_l1_enabled env addr s) = Exn e /\ fst (config env None (Some (Some st)) (Some addr) s) = Exn e.
Proof. exact C62_l1_missing_l. Qed.
Print Assumptions C62_l1_missing.

Example C62_l1_missing_case : x_fs (l1_path (s2l "0000:00:1f.6")) = None /\ (exists k, split_kver (s2l "6.8.0-45-generic") = Ok k).
Proof. split; [vm_compute; reflexivity|eexists; vm_compute; reflexivity]. Qed.

(** Both options in one command: success means that both have been done. *)
Theorem C62_both : forall env name addr st s s', name <> [] -> addr <> [] -> st <> [] ->
  config env (Some (Some name)) (Some (Some st)) (Some addr) s = (Ok tt, s') ->
  exists on, means_state on st /\
    a_log s' = a_log s ++ [(policy_path, name); (l1_path addr, if on then s2l "1" else s2l "0")] /\
    only [policy_path; l1_path addr] (a_fs s) (a_fs s') /\
    forall names cur t, a_fs s' policy_path = Some t -> menu names cur t -> cur = name.
Proof. exact C62_both_l. Qed.
Print Assumptions C62_both.

Example C62_both_case : let c := config x_env (Some (Some (s2l "powersave"))) (Some (Some (s2l "ON"))) (Some x_addr) (a_init x_fs) in
  fst c = Ok tt /\ a_fs (snd c) policy_path = Some (s2l "default performance [powersave] powersupersave " ++ nl) /\
  a_fs (snd c) (l1_path x_addr) = Some (s2l "1" ++ nl) /\
  a_out (snd c) = [MChanged (s2l "performance") (s2l "powersave"); MToggled (s2l "on") x_addr].
Proof. exact C62_both_case_l. Qed.

(** ** What is not true *)

(** The value of "--l1-aspm" is looked at after the policy was changed: a bad value is an error, and the policy stays
    changed. *)
Theorem C62_half_refuted : exists env s policy st addr s', obeys env /\ st <> [] /\ ~ means_state true st /\ ~ means_state false st /\
  config env (Some (Some policy)) (Some (Some st)) (Some addr) s = (Exn EError, s') /\ a_fs s' policy_path <> a_fs s policy_path.
Proof. exact C62_half_refuted_l. Qed.
Print Assumptions C62_half_refuted.

(** The L1 state is not read back, unlike the policy: "Changed L1 ASPM to 'on'" is printed even if the kernel keeps it
    off. *)
Theorem C62_l1_unverified_refuted : exists env s st addr s' t, means_state true st /\ addr <> [] /\
  config env None (Some (Some st)) (Some addr) s = (Ok tt, s') /\ a_out s' = [MToggled (s2l "on") addr] /\
  a_fs s' (l1_path addr) = Some t /\ flag false t.
Proof. exact C62_l1_unverified_refuted_l. Qed.
Print Assumptions C62_l1_unverified_refuted.
