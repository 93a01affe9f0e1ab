(** Property theorems C17: CPU onlining and offlining. *)
From Verif Require Import Base L_Base M_CPUInfo S_CPUInfo L_Hotplug X_CPUInfo M_Online S_Online L_Online X_Online.

(** A successful call leaves exactly the requested CPUs that have a control file in the requested
    state, all other CPUs as they were, and the CPUInfo object up to date. *)
Theorem C17_success : forall online cpus skip s s',
  machine_ok s -> ostep (OCall online cpus skip) s = (Ok tt, s') ->
  toggled_to cpus online s s' /\ same_machine s s' /\ machine_ok s' /\ ci_online (o_ci s') = o_online s'.
Proof. exact C17_success_l. Qed.
Print Assumptions C17_success.

(** Whatever the outcome: only requested CPUs which have a control file and are not yet in the
    requested state are written to, each at most once, and no other CPU changes its state. *)
Theorem C17_writes : forall online cpus skip s r s',
  machine_ok s -> ostep (OCall online cpus skip) s = (r, s') ->
  same_machine s s' /\ machine_ok s' /\
  exists w, o_log s' = o_log s ++ map (fun c => (c, online)) w /\ NoDup w /\
    (forall c, In c w -> wanted s cpus c /\ present s c /\ o_file s c = true /\ ~ in_state s c online) /\
    (forall c, ~ In c w -> (on_now s' c <-> on_now s c)) /\
    (forall c, In c w -> in_state s' c online \/ (on_now s' c <-> on_now s c)) /\
    (r = Ok tt -> forall c, wanted s cpus c -> o_file s c = true -> ~ in_state s c online -> In c w).
Proof. exact C17_writes_l. Qed.
Print Assumptions C17_writes.

(** A CPU that does not exist, or whose control file is missing (and which is not to be skipped), is
    rejected. *)
Theorem C17_rejects : forall online l skip s c,
  machine_ok s -> In c l ->
  (~ present s c) \/ (o_file s c = false /\ ~ in_state s c online /\ (skip = false \/ o_dir s c = false)) ->
  exists e s', ostep (OCall online (Some l) skip) s = (Exn e, s').
Proof. exact C17_rejects_l. Qed.
Print Assumptions C17_rejects.

(** A CPU that does not exist is rejected before anything is written. *)
Theorem C17_unknown_cpu_changes_nothing : forall online l skip s c,
  machine_ok s -> In c l -> ~ present s c ->
  exists e s', ostep (OCall online (Some l) skip) s = (Exn e, s') /\
               o_online s' = o_online s /\ o_log s' = o_log s.
Proof. exact C17_unknown_l. Qed.
Print Assumptions C17_unknown_cpu_changes_nothing.

(** A call succeeds if the CPUs exist, those without a control file may be skipped, and the kernel
    does as told. *)
Theorem C17_succeeds : forall online cpus skip s,
  machine_ok s ->
  (forall c, wanted s cpus c -> present s c) ->
  (forall c, wanted s cpus c -> o_file s c = false -> ~ in_state s c online ->
             o_dir s c = true /\ (skip = true \/ cpus = None)) ->
  (forall c, wanted s cpus c -> o_beh s c online = KObey) ->
  exists s', ostep (OCall online cpus skip) s = (Ok tt, s').
Proof. exact C17_succeeds_l. Qed.
Print Assumptions C17_succeeds.

(** After any number of successful calls every CPU is in the state the last call naming it asked
    for, or in its first state if there was none. *)
Theorem C17_history : forall calls s s',
  machine_ok s -> oruns calls s = (Ok tt, s') ->
  forall c, present s c -> (on_now s' c <-> asked calls s c (inb c (o_online s)) = true).
Proof. exact C17_history_l. Qed.
Print Assumptions C17_history.

(** is_online() tells the kernel's state, if CPUs without a control file are online. *)
Theorem C17_is_online : forall s c b s',
  (forall x, o_dir s x = true -> o_file s x = false -> on_now s x) ->
  is_online c s = (Ok b, s') -> s' = s /\ (b = true <-> on_now s c).
Proof. exact C17_is_online_l. Qed.
Print Assumptions C17_is_online.

(** After a failed call the CPUInfo object may still report the old online CPUs. *)
Theorem C17_topology_current_after_failure_refuted : exists s cpus s' c,
  machine_ok s /\ ostep (OCall false cpus false) s = (Exn EError, s') /\
  ~ on_now s' c /\ In c (get_cpus (o_ci s')).
Proof. exact C17_stale_refuted_l. Qed.
Print Assumptions C17_topology_current_after_failure_refuted.

Definition x_calls : list ocall :=
  [OCall false (Some [3; 1; 3; 5]) false; OCall true None false; OCall false (Some [0; 7]) true].

Example C17_applies :
  machine_ok x_ost /\
  fst (oruns x_calls x_ost) = Ok tt /\
  o_online (snd (oruns x_calls x_ost)) = [0; 2; 4; 6; 1; 3; 5] /\
  o_log (snd (oruns x_calls x_ost)) =
    [(3, false); (1, false); (5, false); (1, true); (3, true); (5, true); (7, false)] /\
  fst (ostep (OCall false (Some [0]) false) x_ost) = Exn ENotSupported /\
  fst (ostep (OCall false (Some [9]) false) x_ost) = Exn EError /\
  fst (ostep (OCall false None false) x_ost) = Exn EError /\
  fst (is_online 3 x_ost) = Ok true.
Proof. split; [exact x_ost_ok|]. vm_compute. repeat split. Qed.
