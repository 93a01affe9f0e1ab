(** Property theorems C41, C42: what an operation is performed on. *)
From Verif Require Import Base L_Base M_CPUInfo S_CPUInfo X_CPUInfo M_OpTarget S_OpTarget L_OpTarget3 L_OpTarget5
  X_OpTarget.

(** The target options are accepted exactly when everything named exists and core and die numbers given
    without packages are not ambiguous. *)
Theorem C41_valid : forall ci a, wf_ci ci -> args_proper a ->
  ((exists ot, ot_init ci a = Ok ot) <-> valid_args ci a).
Proof. intros ci a wf. exact (ot_init_iff ci a wf). Qed.
Print Assumptions C41_valid.

Example C41_valid_case :
  wf_ci xci /\ args_proper xa2 /\ (exists ot, ot_init xci xa2 = Ok ot) /\ ot_init xci xa5 = Exn EError.
Proof.
  split; [exact xci_wf|]. split; [apply xa_proper|]. split; [eexists; vm_compute; reflexivity|vm_compute; reflexivity].
Qed.

(** The CPUs operated on are exactly the targeted ones, each once, whatever was asked before. *)
Theorem C41_cpus : forall ci a qs ot r ot',
  wf_ci ci -> io_dies_exact ci -> ci_online ci <> [] -> siblings_ok ci a -> args_proper a ->
  asked ci a qs ot -> ot_get_cpus ci ot = (Ok r, ot') ->
  r <> [] /\ NoDup r /\ forall c, In c r <-> target_cpu ci a c.
Proof. intros ci a qs ot r ot' wf h1 h2 h3 h4 h5. exact (cpus_l ci a qs ot wf h1 h2 h3 h4 h5 r ot'). Qed.
Print Assumptions C41_cpus.

Definition xobj2 : optarget := fold_left (fun o q => ask xci q o) [QDies false; QPackages true; QCpus] (xobj xa2).

Example C41_cpus_case :
  wf_ci xci /\ io_dies_exact xci /\ ci_online xci <> [] /\ siblings_ok xci xa2 /\ args_proper xa2 /\
  asked xci xa2 [QDies false; QPackages true; QCpus] xobj2 /\
  ot_get_cpus xci xobj2 = (Ok [0; 1; 3], snd (ot_get_cpus xci xobj2)).
Proof.
  split; [exact xci_wf|]. split; [exact xci_io|]. split; [exact xci_on|]. split; [exact (xa_siblings _)|].
  split; [apply xa_proper|].
  split; [apply (xobj_asked xa2); eexists; vm_compute; reflexivity|vm_compute; reflexivity].
Qed.

(** If there is a CPU to operate on, asking for the CPUs succeeds. *)
Theorem C41_cpus_found : forall ci a qs ot,
  wf_ci ci -> io_dies_exact ci -> ci_online ci <> [] -> siblings_ok ci a -> args_proper a ->
  asked ci a qs ot -> (exists c, target_cpu ci a c) -> exists r ot', ot_get_cpus ci ot = (Ok r, ot').
Proof. intros ci a qs ot wf h1 h2 h3 h4 h5. exact (cpus_live_l ci a qs ot wf h1 h2 h3 h4 h5). Qed.
Print Assumptions C41_cpus_found.

(** Asking for the CPUs fails only if there is none, and the error tells apart the case that only I/O
    dies were named. *)
Theorem C41_no_target : forall ci a qs ot e ot',
  wf_ci ci -> io_dies_exact ci -> ci_online ci <> [] -> siblings_ok ci a -> args_proper a ->
  asked ci a qs ot -> ot_get_cpus ci ot = (Exn e, ot') ->
  (~ exists c, target_cpu ci a c) /\
  ((only_io_dies_named ci a /\ e = ENoCPUTarget) \/ (~ only_io_dies_named ci a /\ e = ENoTarget)).
Proof. intros ci a qs ot e ot' wf h1 h2 h3 h4 h5. exact (no_cpus_l ci a qs ot wf h1 h2 h3 h4 h5 e ot'). Qed.
Print Assumptions C41_no_target.

Example C41_no_target_case :
  asked xci xa3 [] (xobj xa3) /\ fst (ot_get_cpus xci (xobj xa3)) = Exn ENoCPUTarget /\
  asked xci xa4 [] (xobj xa4) /\ fst (ot_get_cpus xci (xobj xa4)) = Exn ENoTarget.
Proof.
  split; [apply (xobj_asked xa3 []); eexists; vm_compute; reflexivity|]. split; [vm_compute; reflexivity|].
  split; [apply (xobj_asked xa4 []); eexists; vm_compute; reflexivity|]. vm_compute; reflexivity.
Qed.

(** The dies operated on are the dies completely covered by the targeted CPUs and the dies named. A strict
    question is answered only if no targeted CPU is left over. *)
Theorem C42_dies : forall ci a qs ot strict r ot',
  wf_ci ci -> io_dies_exact ci -> ci_online ci <> [] -> siblings_ok ci a -> args_proper a ->
  asked ci a qs ot -> ot_get_dies ci strict ot = (Ok r, ot') ->
  NoDup r /\ (forall pd, In pd r <-> full_die ci a pd \/ named_die ci a pd) /\
  (strict = true -> ~ In (QDies false) qs -> dies_only ci a).
Proof.
  intros ci a qs ot strict r ot' wf h1 h2 h3 h4 h5. exact (dies_l ci a qs ot wf h1 h2 h3 h4 h5 strict r ot').
Qed.
Print Assumptions C42_dies.

(** It is refused only if some targeted CPU is left over. *)
Theorem C42_dies_refused : forall ci a qs ot strict e ot',
  wf_ci ci -> io_dies_exact ci -> ci_online ci <> [] -> siblings_ok ci a -> args_proper a ->
  asked ci a qs ot -> ot_get_dies ci strict ot = (Exn e, ot') ->
  e = ENoTarget /\ strict = true /\ ~ dies_only ci a.
Proof.
  intros ci a qs ot strict e ot' wf h1 h2 h3 h4 h5. exact (dies_fail_l ci a qs ot wf h1 h2 h3 h4 h5 strict e ot').
Qed.
Print Assumptions C42_dies_refused.

Example C42_dies_case :
  fst (ot_get_dies xci true (xobj xa6)) = Ok [(0, 1); (1, 0); (1, 1)] /\ asked xci xa6 [] (xobj xa6) /\
  fst (ot_get_dies xci true (xobj xa2)) = Exn ENoTarget /\ asked xci xa2 [] (xobj xa2).
Proof.
  split; [vm_compute; reflexivity|]. split; [apply (xobj_asked xa6 []); eexists; vm_compute; reflexivity|].
  split; [vm_compute; reflexivity|]. apply (xobj_asked xa2 []); eexists; vm_compute; reflexivity.
Qed.

(** The same for packages. *)
Theorem C42_packages : forall ci a qs ot strict r ot',
  wf_ci ci -> io_dies_exact ci -> ci_online ci <> [] -> siblings_ok ci a -> args_proper a ->
  asked ci a qs ot -> ot_get_packages ci strict ot = (Ok r, ot') ->
  NoDup r /\ (forall p, In p r <-> full_package ci a p \/ named_package ci a p) /\
  (strict = true -> ~ In (QPackages false) qs -> packages_only ci a).
Proof.
  intros ci a qs ot strict r ot' wf h1 h2 h3 h4 h5. exact (packages_l ci a qs ot wf h1 h2 h3 h4 h5 strict r ot').
Qed.
Print Assumptions C42_packages.

Theorem C42_packages_refused : forall ci a qs ot strict e ot',
  wf_ci ci -> io_dies_exact ci -> ci_online ci <> [] -> siblings_ok ci a -> args_proper a ->
  asked ci a qs ot -> ot_get_packages ci strict ot = (Exn e, ot') ->
  e = ENoTarget /\ strict = true /\ ~ packages_only ci a.
Proof.
  intros ci a qs ot strict e ot' wf h1 h2 h3 h4 h5. exact (packages_fail_l ci a qs ot wf h1 h2 h3 h4 h5 strict e ot').
Qed.
Print Assumptions C42_packages_refused.

Example C42_packages_case :
  fst (ot_get_packages xci false (xobj xa6)) = Ok [1] /\ fst (ot_get_packages xci true (xobj xa6)) = Exn ENoTarget.
Proof. split; vm_compute; reflexivity. Qed.

(** A property of package (die) scope is accessed on packages (dies) if the targeted CPUs are whole packages
    (dies); otherwise it is accessed on the targeted CPUs, like all other properties. *)
Theorem C42_scope : forall ci a qs ot sname,
  wf_ci ci -> io_dies_exact ci -> ci_online ci <> [] -> siblings_ok ci a -> args_proper a ->
  asked ci a qs ot -> all_strict qs ->
  let answer := fst (sname_and_nums ci sname ot) in
  let on_cpus := (exists r, answer = Ok (OnCPUs r) /\ r <> [] /\ NoDup r /\
                    forall c, In c r <-> target_cpu ci a c) in
  match sname with
  | SPackage =>
      (packages_only ci a /\ exists r, answer = Ok (OnPackages r) /\ NoDup r /\
         forall p, In p r <-> full_package ci a p \/ named_package ci a p) \/
      (~ packages_only ci a /\ on_cpus)
  | SDie =>
      (dies_only ci a /\ exists r, answer = Ok (OnDies r) /\ NoDup r /\
         forall pd, In pd r <-> full_die ci a pd \/ named_die ci a pd) \/
      (~ dies_only ci a /\ on_cpus)
  | _ => on_cpus \/
      ((~ exists c, target_cpu ci a c) /\
       ((only_io_dies_named ci a /\ answer = Exn ENoCPUTarget) \/
        (~ only_io_dies_named ci a /\ answer = Exn ENoTarget)))
  end.
Proof. intros ci a qs ot sname wf h1 h2 h3 h4 h5 h6. exact (scope_l ci a qs ot wf h1 h2 h3 h4 h5 sname h6). Qed.
Print Assumptions C42_scope.

Example C42_scope_case :
  fst (sname_and_nums xci SPackage (xobj xa6)) = Ok (OnCPUs [1; 3; 4; 5; 6; 7]) /\
  fst (sname_and_nums xci SDie (xobj xa6)) = Ok (OnDies [(0, 1); (1, 0); (1, 1)]) /\ all_strict [QCpus; QDies true].
Proof.
  split; [vm_compute; reflexivity|]. split; [vm_compute; reflexivity|].
  split; cbn; intuition discriminate.
Qed.

(** Not true: only packages that are covered or wanted on their own are targeted. A package that only says
    which package a die belongs to is targeted too if that die has no CPUs. *)
Theorem C42_io_die_package_refuted : exists ci a ot r ot' p c,
  wf_ci ci /\ io_dies_exact ci /\ asked ci a [] ot /\
  oa_dies a = UNums (Some [2]) /\ ot_get_packages ci true ot = (Ok r, ot') /\ In p r /\
  cpu_in_pkg (ci_topo ci) p c /\ ~ target_cpu ci a c.
Proof. exact C42_io_die_package_refuted_l. Qed.
Print Assumptions C42_io_die_package_refuted.

(** Not true: a sibling index that leaves no CPU leaves no package. All packages are targeted. *)
Theorem C42_filtered_package_refuted : exists ci a ot r ot' p c,
  wf_ci ci /\ io_dies_exact ci /\ asked ci a [] ot /\
  oa_core_sib a = [5] /\ ot_get_packages ci true ot = (Ok r, ot') /\ In p r /\
  cpu_in_pkg (ci_topo ci) p c /\ ~ target_cpu ci a c.
Proof. exact C42_filtered_package_refuted_l. Qed.
Print Assumptions C42_filtered_package_refuted.

(** Not true: a strict question is always refused if targeted CPUs are left over. After a non-strict question
    it is answered from the cache. *)
Theorem C42_strict_refuted : exists ci a qs ot r ot',
  wf_ci ci /\ io_dies_exact ci /\ asked ci a qs ot /\
  ot_get_packages ci true ot = (Ok r, ot') /\ ~ packages_only ci a.
Proof. exact C42_strict_refuted_l. Qed.
Print Assumptions C42_strict_refuted.
