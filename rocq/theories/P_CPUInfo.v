(** Property theorems C10-C16: CPU topology. *)
From Verif Require Import Base L_Base M_CPUInfo S_CPUInfo L_CPUInfo L_CPUInfo2 L_Hotplug X_CPUInfo.

(** ** C10: CPU number normalisation *)

Theorem C10_normalize_cpus : forall ci l off r,
  normalize_cpus ci (Some l) off = Ok r ->
  (forall x, In x r <-> In x l) /\ (forall x, In x r -> available ci off x) /\ in_order_of l r.
Proof. exact normalize_cpus_ok_l. Qed.
Print Assumptions C10_normalize_cpus.

Theorem C10_normalize_cpus_fails_iff : forall ci l off,
  (exists e, normalize_cpus ci (Some l) off = Exn e) <-> exists x, In x l /\ ~ available ci off x.
Proof. exact normalize_cpus_fails_l. Qed.
Print Assumptions C10_normalize_cpus_fails_iff.

Theorem C10_normalize_all : forall ci off,
  wf_ci ci ->
  exists r, normalize_cpus ci None off = Ok r /\ StronglySorted Z.lt r /\
            forall x, In x r <-> available ci off x.
Proof. exact normalize_cpus_all_l. Qed.
Print Assumptions C10_normalize_all.

Example C10_ex1 : normalize_cpus xci2 (Some [2; 6; 2; 0; 6]) false = Ok [2; 6; 0].
Proof. reflexivity. Qed.
Example C10_ex2 : normalize_cpus xci2 (Some [2; 3]) false = Exn EError.
Proof. reflexivity. Qed.
Example C10_ex3 : normalize_cpus xci2 None true = Ok [0; 1; 2; 3; 4; 5; 6; 7].
Proof. reflexivity. Qed.

(** ** C11: package division *)

Theorem C11_div_packages : forall ci cpus found rem,
  wf_ci ci -> cpus_div_packages ci (Some cpus) None = Ok (found, rem) ->
  is_division (is_pkg (ci_topo ci)) (cpu_in_pkg (ci_topo ci)) cpus found rem.
Proof. exact cpus_div_packages_l. Qed.
Print Assumptions C11_div_packages.

Theorem C11_div_packages_succeeds : forall ci cpus,
  wf_ci ci -> (forall c, In c cpus -> In c (ci_all ci)) ->
  exists found rem, cpus_div_packages ci (Some cpus) None = Ok (found, rem).
Proof. exact cpus_div_packages_succeeds_l. Qed.
Print Assumptions C11_div_packages_succeeds.

Example C11_ex : wf_ci xci /\ cpus_div_packages xci (Some [5; 6; 3; 7; 4; 0]) None = Ok ([1], [3; 0]).
Proof. split; [exact xci_wf|reflexivity]. Qed.

(** A package all of whose CPUs went offline stays in the table because of its I/O die, and is then
    reported as covered by an empty list of CPUs. *)
Theorem C11_offline_package_refuted :  exists sys on hist,
  sys_ok sys /\ online_ok sys on /\ Forall (online_ok sys) hist /\
  exists p, cpus_div_packages (after_hotplug sys on hist) (Some []) None = Ok ([p], []) /\
            ~ exists c, cpu_in_pkg (ci_topo (after_hotplug sys on hist)) p c.
Proof. exact C11_offline_package_refuted_l. Qed.
Print Assumptions C11_offline_package_refuted.

(** ** C12: core and die division *)

Theorem C12_div_cores : forall ci cpus found rem,
  wf_ci ci -> cpus_div_cores ci (Some cpus) = Ok (found, rem) ->
  is_division (is_core (ci_topo ci)) (cpu_in_core (ci_topo ci)) cpus found rem.
Proof. exact cpus_div_cores_l. Qed.
Print Assumptions C12_div_cores.

Theorem C12_div_cores_succeeds : forall ci cpus,
  wf_ci ci -> (forall c, In c cpus -> In c (ci_all ci)) ->
  exists found rem, cpus_div_cores ci (Some cpus) = Ok (found, rem).
Proof. exact cpus_div_cores_succeeds_l. Qed.
Print Assumptions C12_div_cores_succeeds.

(** Partial: needs the cached I/O die set to be exact, which hotplug can break (below). *)
Theorem C12_div_dies_partial : forall ci cpus found rem,
  wf_ci ci -> io_dies_exact ci -> cpus_div_dies ci (Some cpus) = Ok (found, rem) ->
  is_division (fun pd => exists c, cpu_in_die (ci_topo ci) pd c)
              (cpu_in_die (ci_topo ci)) cpus found rem.
Proof. exact cpus_div_dies_l. Qed.
Print Assumptions C12_div_dies_partial.

Theorem C12_div_dies_succeeds : forall ci cpus,
  wf_ci ci -> (forall c, In c cpus -> In c (ci_all ci)) ->
  exists found rem, cpus_div_dies ci (Some cpus) = Ok (found, rem).
Proof. exact cpus_div_dies_succeeds_l. Qed.
Print Assumptions C12_div_dies_succeeds.

(** The hypothesis of the previous theorem holds after any hotplug history, if every die that has
    CPUs had one online when the table was first built. *)
Theorem C12_io_dies_exact_after_hotplug : forall sys on hist,
  sys_ok sys -> online_ok sys on -> Forall (online_ok sys) hist -> dies_covered sys on ->
  io_dies_exact (after_hotplug sys on hist).
Proof. exact hotplug_io_exact_l. Qed.
Print Assumptions C12_io_dies_exact_after_hotplug.

Example C12_ex1 : wf_ci xci /\ cpus_div_cores xci (Some [3; 0; 1; 6; 4]) = Ok ([(0, 1); (1, 0)], [0]).
Proof. split; [exact xci_wf|reflexivity]. Qed.
Example C12_ex2 : wf_ci xci /\ io_dies_exact xci /\
  cpus_div_dies xci (Some [3; 0; 1; 6; 4]) = Ok ([(0, 1); (1, 0)], [0]).
Proof.
  split; [exact xci_wf|]. split; [|reflexivity].
  apply hotplug_io_exact_l; [exact xsys_ok|exact x_on_ok|constructor|exact x_covered].
Qed.

(** A die that was fully offline when the table was built is treated as an I/O die for ever, and is
    missed when its CPUs are back online. *)
Theorem C12_div_dies_refuted :  exists sys on hist cpus found rem,
  sys_ok sys /\ online_ok sys on /\ Forall (online_ok sys) hist /\
  cpus_div_dies (after_hotplug sys on hist) (Some cpus) = Ok (found, rem) /\
  exists pd, ~ In pd found /\
    (exists c, cpu_in_die (ci_topo (after_hotplug sys on hist)) pd c) /\
    (forall c, cpu_in_die (ci_topo (after_hotplug sys on hist)) pd c -> In c cpus).
Proof. exact C12_div_dies_refuted_l. Qed.
Print Assumptions C12_div_dies_refuted.

(** ** C13: siblings *)

Theorem C13_siblings_exact :  forall ci c s,
  wf_ci ci -> s <> SModule -> In c (ci_online ci) ->
  exists l, get_cpu_siblings ci c s = Ok l /\ StronglySorted Z.lt l /\
            forall x, In x l <-> same_unit (ci_topo ci) s c x.
Proof. exact C13_siblings_exact_l. Qed.
Print Assumptions C13_siblings_exact.

(** Partial: module numbers must be globally unique. *)
Theorem C13_module_siblings_exact_partial :  forall ci c,
  wf_ci ci -> modules_unique (ci_topo ci) -> In c (ci_online ci) ->
  exists l, get_cpu_siblings ci c SModule = Ok l /\ StronglySorted Z.lt l /\
            forall x, In x l <-> same_unit (ci_topo ci) SModule c x.
Proof. exact C13_module_siblings_exact_partial_l. Qed.
Print Assumptions C13_module_siblings_exact_partial.

Theorem C13_siblings_partition : forall ci s c x lc lx,
  wf_ci ci -> (s = SModule -> modules_unique (ci_topo ci)) ->
  In c (ci_online ci) -> In x (ci_online ci) ->
  get_cpu_siblings ci c s = Ok lc -> get_cpu_siblings ci x s = Ok lx ->
  In c lc /\ (In x lc <-> In c lx) /\ (lc = lx \/ forall y, ~ (In y lc /\ In y lx)).
Proof. exact siblings_partition_l. Qed.
Print Assumptions C13_siblings_partition.

Example C13_ex : wf_ci xci2 /\ modules_unique (ci_topo xci2) /\ In 2 (ci_online xci2) /\
  get_cpu_siblings xci2 2 SCore = Ok [0; 2] /\ get_cpu_siblings xci2 2 SPackage = Ok [0; 1; 2] /\
  get_cpu_siblings xci2 6 SModule = Ok [6] /\ get_cpu_siblings xci2 1 SDie = Ok [1] /\
  get_cpu_siblings xci2 2 SGlobal = Ok [0; 1; 2; 6].
Proof.
  split; [exact xci2_wf|]. split; [exact xci2_modules|]. vm_compute. auto 10.
Qed.

(** With the fall-back module numbering the siblings of CPU 0 include CPUs of another package. *)
Theorem C13_module_siblings_refuted :  exists sys on c l x,
  sys_ok sys /\ online_ok sys on /\
  get_cpu_siblings (topo_init sys on) c SModule = Ok l /\ In x l /\
  ~ same_unit (ci_topo (topo_init sys on)) SModule c x.
Proof. exact C13_module_siblings_refuted_l. Qed.
Print Assumptions C13_module_siblings_refuted.

(** ** C14: sibling index selection *)

Theorem C14_select_core_siblings : forall ci cpus indexes r,
  wf_ci ci -> select_core_siblings ci cpus indexes = Ok r ->
  in_order_of cpus r /\
  forall c, In c r <-> In c cpus /\ In c (ci_online ci) /\
                       exists i, In i indexes /\ rank_in_unit (ci_topo ci) SCore c i.
Proof. exact select_core_siblings_l. Qed.
Print Assumptions C14_select_core_siblings.

(** Partial: module numbers must be globally unique. *)
Theorem C14_select_module_siblings_partial : forall ci cpus indexes r,
  wf_ci ci -> modules_unique (ci_topo ci) -> select_module_siblings ci cpus indexes = Ok r ->
  in_order_of cpus r /\
  forall c, In c r <-> In c cpus /\ In c (ci_online ci) /\
                       exists i, In i indexes /\ rank_in_unit (ci_topo ci) SModule c i.
Proof. exact select_module_siblings_l. Qed.
Print Assumptions C14_select_module_siblings_partial.

Example C14_ex1 : wf_ci xci /\ select_core_siblings xci [7; 2; 0; 5; 6] [1] = Ok [7; 2; 6].
Proof. split; [exact xci_wf|reflexivity]. Qed.
Example C14_ex2 : wf_ci xci2 /\ modules_unique (ci_topo xci2) /\
  select_module_siblings xci2 [2; 0; 1; 3] [0] = Ok [0; 1].
Proof. split; [exact xci2_wf|]. split; [exact xci2_modules|reflexivity]. Qed.

(** With the fall-back module numbering two CPUs of the same module get the same index. *)
Theorem C14_select_module_siblings_refuted :  exists sys on r a b,
  sys_ok sys /\ online_ok sys on /\
  select_module_siblings (topo_init sys on) on [0] = Ok r /\ In a r /\ In b r /\ a <> b /\
  same_unit (ci_topo (topo_init sys on)) SModule a b.
Proof. exact C14_select_module_siblings_refuted_l. Qed.
Print Assumptions C14_select_module_siblings_refuted.

(** ** C15: CPU numbers of units *)

Theorem C15_packages_to_cpus : forall ci nums r,
  wf_ci ci -> packages_to_cpus ci nums = Ok r ->
  StronglySorted Z.lt r /\
  forall c, In c r <-> exists p, nums_has nums p /\ cpu_in_pkg (ci_topo ci) p c.
Proof. exact packages_to_cpus_l. Qed.
Print Assumptions C15_packages_to_cpus.

Theorem C15_cores_to_cpus : forall ci cores pkgs r,
  wf_ci ci -> cores_to_cpus ci cores pkgs = Ok r ->
  StronglySorted Z.lt r /\
  forall c, In c r <-> exists p k, nums_has pkgs p /\ nums_has cores k /\
                                   cpu_in_core (ci_topo ci) (p, k) c.
Proof. exact cores_to_cpus_l. Qed.
Print Assumptions C15_cores_to_cpus.

Theorem C15_dies_to_cpus : forall ci dies pkgs r,
  wf_ci ci -> dies_to_cpus ci dies pkgs = Ok r ->
  StronglySorted Z.lt r /\
  forall c, In c r <-> exists p d, nums_has pkgs p /\ nums_has dies d /\
                                   cpu_in_die (ci_topo ci) (p, d) c.
Proof. exact dies_to_cpus_l. Qed.
Print Assumptions C15_dies_to_cpus.

Theorem C15_modules_to_cpus : forall ci nums r,
  wf_ci ci -> modules_to_cpus ci nums = Ok r ->
  StronglySorted Z.lt r /\
  forall c, In c r <-> exists t, In t (ci_topo ci) /\ cpu_line t /\ t_cpu t = c /\
                                 nums_has nums (t_module t).
Proof. exact modules_to_cpus_l. Qed.
Print Assumptions C15_modules_to_cpus.

(** A query by package numbers succeeds exactly when every number is that of a known package. *)
Theorem C15_packages_to_cpus_ok_iff : forall ci l,
  (exists r, packages_to_cpus ci (Some l) = Ok r) <->
  forall x, In x l -> exists t, In t (ci_topo ci) /\ t_pkg t <> NA /\ t_pkg t = x.
Proof. exact packages_to_cpus_ok_iff_l. Qed.
Print Assumptions C15_packages_to_cpus_ok_iff.

Example C15_ex : wf_ci xci2 /\ packages_to_cpus xci2 (Some [0]) = Ok [0; 1; 2] /\
  cores_to_cpus xci2 (Some [0]) None = Ok [0; 2; 6] /\
  dies_to_cpus xci2 (Some [1; 0]) (Some [0]) = Ok [0; 1; 2] /\
  modules_to_cpus xci2 (Some [2]) = Ok [6] /\ packages_to_cpus xci2 (Some [3]) = Exn EError.
Proof. split; [exact xci2_wf|]. vm_compute. auto 10. Qed.

(** ** C16: hotplug *)

Theorem C16_hotplug_lines : forall sys on hist,
  sys_ok sys -> online_ok sys on -> Forall (online_ok sys) hist ->
  let ci := after_hotplug sys on hist in
  ci_online ci = last_online on hist /\
  (forall c, In c (last_online on hist) -> get_cpu_tline ci c = Ok (sys_line sys c)) /\
  (forall c, c <> NA -> ~ In c (last_online on hist) -> exists e, get_cpu_tline ci c = Exn e) /\
  (forall t, In t (ci_topo ci) -> cpu_line t -> In (t_cpu t) (last_online on hist)) /\
  NoDup (map t_cpu (filter (fun t => negb (t_cpu t =? NA)) (ci_topo ci))).
Proof. exact hotplug_lines_l. Qed.
Print Assumptions C16_hotplug_lines.

(** Every table reached by hotplug is well-formed, so C10-C15 apply to it. *)
Theorem C16_hotplug_wf : forall sys on hist,
  sys_ok sys -> online_ok sys on -> Forall (online_ok sys) hist -> wf_ci (after_hotplug sys on hist).
Proof. exact hotplug_wf_l. Qed.
Print Assumptions C16_hotplug_wf.

(** Sibling queries answer as an object created from scratch would. *)
Theorem C16_hotplug_siblings_fresh : forall sys on hist c s,
  sys_ok sys -> online_ok sys on -> Forall (online_ok sys) hist ->
  (s = SModule -> sys_modules_unique sys) ->
  In c (last_online on hist) ->
  get_cpu_siblings (after_hotplug sys on hist) c s =
  get_cpu_siblings (topo_init sys (last_online on hist)) c s.
Proof. exact hotplug_siblings_l. Qed.
Print Assumptions C16_hotplug_siblings_fresh.

Example C16_ex : sys_ok xsys /\ online_ok xsys x_on /\ Forall (online_ok xsys) x_hist /\
  sys_modules_unique xsys /\ last_online x_on x_hist = [0; 1; 2; 6] /\ In 6 (last_online x_on x_hist).
Proof.
  split; [exact xsys_ok|]. split; [exact x_on_ok|]. split; [exact x_hist_ok|].
  split; [exact x_modules|]. split; [reflexivity|]. cbn. tauto.
Qed.
