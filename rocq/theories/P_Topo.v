(** C59: the topology table, built level by level and updated after CPU hotplug. *)
From Verif Require Import Base M_Text M_CPUInfo M_Topo S_Topo L_Topo7 X_Topo.

(** After any history of requests (some may have failed on unreadable files) and hotplug events, a table
    that is returned is right: one line for each CPU that is online now, with the numbers of the machine
    on the requested levels, sorted as documented; other lines are dies the uncore driver reports. *)
Theorem C59_table : forall m on evs h ls o rows s', machine_ok m -> online_set m on -> possible m on evs ->
  shows m (online_after on evs) h -> query h ls o (after evs new_obj) = (Ok rows, s') ->
  right_table m (online_after on evs) (requested ls) o rows.
Proof. exact table_l. Qed.
Print Assumptions C59_table.

(** If the files can be read now the table is returned, whatever failed before. *)
Theorem C59_succeeds : forall m on evs h ls o, machine_ok m -> online_set m on -> possible m on evs ->
  shows m (online_after on evs) h -> readable m (online_after on evs) h ->
  exists rows s', query h ls o (after evs new_obj) = (Ok rows, s').
Proof. exact succeeds_l. Qed.
Print Assumptions C59_succeeds.

(** If the first request is about dies and every die that has CPUs has one online then, this table and all
    later ones list exactly the I/O dies: those without CPUs. *)
Theorem C59_io : forall m on h0 ls0 o0 rows0 s0 evs h ls o rows s',
  machine_ok m -> online_set m on -> all_dies_online m on ->
  shows m on h0 -> about_dies ls0 o0 -> query h0 ls0 o0 new_obj = (Ok rows0, s0) ->
  possible m on evs -> shows m (online_after on evs) h -> query h ls o (after evs s0) = (Ok rows, s') ->
  forall p d, (In (io_line p d) rows0 <-> io_die m p d) /\ (In (io_line p d) rows <-> io_die m p d).
Proof. exact io_l. Qed.
Print Assumptions C59_io.

(** Without that condition, a die with an online CPU may be listed as an I/O die. *)
Theorem C59_stale_refuted : exists m on evs h ls o rows s' p d,
  machine_ok m /\ online_set m on /\ possible m on evs /\
  shows m (online_after on evs) h /\ readable m (online_after on evs) h /\
  query h ls o (after evs new_obj) = (Ok rows, s') /\ In (io_line p d) rows /\
  exists c, In c (online_after on evs) /\ number m LPkg c = p /\ number m LDie c = d.
Proof. exact stale_refuted_l. Qed.
Print Assumptions C59_stale_refuted.

(** The I/O dies in the table depend on the history, not only on the system and the request. *)
Theorem C59_history_refuted : exists m on1 on2 evs1 evs2 h ls o rows1 rows2 s1 s2 r,
  machine_ok m /\ online_set m on1 /\ online_set m on2 /\ possible m on1 evs1 /\ possible m on2 evs2 /\
  online_after on1 evs1 = online_after on2 evs2 /\
  shows m (online_after on1 evs1) h /\ readable m (online_after on1 evs1) h /\
  query h ls o (after evs1 new_obj) = (Ok rows1, s1) /\ query h ls o (after evs2 new_obj) = (Ok rows2, s2) /\
  In r rows1 /\ ~ In r rows2.
Proof. exact history_refuted_l. Qed.
Print Assumptions C59_history_refuted.

(** If a CPU that is reported to be online is not described in /proc/cpuinfo the request fails: no line of the
    table is made up or left out. *)
Theorem C59_missing : forall m on h ls o tl l t c,
  h_online h = Ok tl -> list_file tl l -> In c l ->
  h_cpuinfo h = Ok t -> on <> [] -> cpuinfo_file m on t -> ~ In c on ->
  exists e, fst (query h ls o new_obj) = Exn e.
Proof. exact missing_l. Qed.
Print Assumptions C59_missing.

Example C59_missing_case :
  let h := files mach3 [0; 1] in
  let h' := Host (h_online h) (h_cpuinfo (files mach3 [0])) (h_l2_id h) (h_l2_cpus h) (h_die_id h) (h_die_cpus h)
                 (h_nodes h) (h_node_cpus h) (h_pli h) (h_uncore h) in
  fst (query h' [LPkg] LPkg new_obj) = Exn EError.
Proof. vm_compute. reflexivity. Qed.

(** Every machine has files that show it and can be read. *)
Theorem C59_files : forall m on, machine_ok m -> online_set m on -> natural m ->
  shows m on (files m on) /\ readable m on (files m on).
Proof. exact (fun m on H1 H2 H3 => conj (files_shows m on H1 H2 H3) (files_readable m on)). Qed.
Print Assumptions C59_files.

Example C59_case : machine_ok mach3 /\ online_set mach3 [0; 1] /\ possible mach3 [0; 1] case_evs /\
  all_dies_online mach3 [0; 1] /\ online_after [0; 1] case_evs = [0; 1] /\
  shows mach3 [0; 1] (files mach3 [0; 1]) /\ readable mach3 [0; 1] (files mach3 [0; 1]) /\
  io_die mach3 1 1 /\
  fst (query (files mach3 [0; 1]) [] LPkg (after case_evs new_obj)) =
    Ok [PL 0 (Some 0) (Some 0) (Some 0) (Some 0) (Some 0); io_line 0 1;
        PL 1 (Some 0) (Some 1) (Some 0) (Some 1) (Some 1); io_line 1 1].
Proof. exact case_l. Qed.
