(** C60: "pepc topology info". *)
From Verif Require Import Base M_Text S_Text M_CPUInfo S_CPUInfo M_OpTarget S_OpTarget M_TopoInfo S_TopoInfo L_TopoInfo
  X_TopoInfo.

(** The output is right: a header with the titles of the columns, then one line for every targeted CPU that
    is online and every targeted I/O die (if there is a "die" column) in the documented order, then the
    targeted offline CPUs, with "?" for what is not known. Each line has the numbers of the topology, and
    lines that would look the same are printed once. *)
Theorem C60_lines : forall e a o out, ok_system e a -> topology_info e a o = Ok out ->
  exists pcores, (te_hybrid e = true -> te_pcores e = Ok pcores) /\ right_output e a o pcores out.
Proof. exact lines_ok. Qed.
Print Assumptions C60_lines.

(** The command succeeds exactly if columns, order and targets are valid and some CPU is targeted. *)
Theorem C60_succeeds : forall e a o, ok_system e a ->
  ((exists out, topology_info e a o = Ok out) <->
   (exists cols, shows_columns e o cols) /\ (exists order, names_level (to_order o) order) /\
   valid_args (te_ci e) (opts a o) /\ (te_hybrid e = true -> exists p, te_pcores e = Ok p) /\
   exists c, target_cpu (te_ci e) (opts a o) c).
Proof. exact succeeds_ok. Qed.
Print Assumptions C60_succeeds.

(** With the default columns no targeted CPU is missing: its number is the first word of a line. *)
Theorem C60_each : forall e a o out c, ok_system e a -> topology_info e a o = Ok out -> to_columns o = None ->
  target_cpu (te_ci e) (opts a o) c ->
  exists line w ws, In line out /\ reads (w :: ws) line /\ numeral w c.
Proof. exact each_l. Qed.
Print Assumptions C60_each.

(** A line can be read in one way only. *)
Theorem C60_readable : forall ws1 ws2 line, reads ws1 line -> reads ws2 line -> ws1 = ws2.
Proof. exact reads_unique. Qed.
Print Assumptions C60_readable.

(** Naming only an I/O die is an error, although there is a line to be printed for it. *)
Theorem C60_io_die_refuted : exists e a o cols t, ok_system e a /\ valid_args (te_ci e) (opts a o) /\
  shows_columns e o cols /\ names_level (to_order o) LCPU /\ shown e (opts a o) cols t /\
  topology_info e a o = Exn ENoCPUTarget.
Proof. exact io_die_refuted_l. Qed.
Print Assumptions C60_io_die_refuted.

(** On a hybrid system the columns are not the ones asked for: "Hybrid" is always added. *)
Theorem C60_columns_refuted : exists e a o out line, ok_system e a /\
  to_columns o = Some (s2l "CPU,core") /\ topology_info e a o = Ok out /\ hd_error out = Some line /\
  reads (map s2l ["CPU"; "Core"; "Hybrid"]%string) line.
Proof. exact columns_refuted_l. Qed.
Print Assumptions C60_columns_refuted.

(** An I/O die is called an E-core. *)
Theorem C60_io_core_refuted : exists e a o out line t, ok_system e a /\
  topology_info e a o = Ok out /\ In line out /\ In t (ci_topo (te_ci e)) /\ ~ cpu_line t /\
  shows_columns e o (map CLvl [LCPU; LDie; LPkg] ++ [CHyb]) /\
  t_die t = 2 /\ t_pkg t = 0 /\ reads (map s2l ["-"; "2"; "0"; "E-core"]%string) line.
Proof. exact io_core_refuted_l. Qed.
Print Assumptions C60_io_core_refuted.

(** The table is not in CPU order if CPUs are offline: CPU 2 comes after CPU 6. *)
Theorem C60_order_refuted : exists e a o out l1 l2 before between after, ok_system e a /\
  names_level (to_order o) LCPU /\ topology_info e a o = Ok out /\
  out = before ++ l1 :: between ++ l2 :: after /\
  reads [s2l "6"; s2l "0"] l1 /\ reads [s2l "2"; s2l "?"] l2.
Proof. exact order_refuted_l. Qed.
Print Assumptions C60_order_refuted.

(** A hybrid system with I/O dies and offline CPUs. *)
Example C60_case : ok_system xenv xall /\ topology_info xenv xall xdefault = Ok xout /\ to_columns xdefault = None.
Proof. split; [exact xenv_ok|]. split; [exact xout_ok|reflexivity]. Qed.
