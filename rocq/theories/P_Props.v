(** C18-C21, C47: reading and writing properties. *)
From Verif Require Import Base L_Base M_CPUInfo S_CPUInfo L_CPUInfo L_CPUInfo2 L_Hotplug X_CPUInfo
  M_Props S_Props L_Props L_Props2 L_Props3 L_Props4 X_Props.

(** ** C18: reading goes through the first mechanism that supports the property *)

Theorem C18_get_cpus : forall (St V : Type) (cls : pclass St V) pname cpus mnames s out s',
  wf_ci (pc_ci cls) -> one_value_per_cpu cls ->
  get_prop_cpus cls pname cpus mnames s = (Ok out, s') ->
  exists l, req_cpus cls cpus l /\ map pv_key out = l /\ Forall (fun pv => pv_pname pv = pname) out /\
    ps_sets s' = ps_sets s /\
    (l = [] /\ s' = s \/ exists ms, allowed cls pname mnames ms /\
      ((scope_known cls pname (ps_st s) (ps_st s') /\ exists pre m vals,
          tried_first ms pre m /\ Forall (lacks cls (ps_st s') pname l) pre /\
          gives cls (ps_st s') pname l m vals /\
          map (fun pv => (pv_key pv, pv_val pv)) out = vals /\
          Forall (fun pv => pv_mname pv = m) out /\
          ps_gets s' = ps_gets s ++ pre ++ [m]) \/
       (scope_known cls pname (ps_st s) (ps_st s') /\ Forall (lacks cls (ps_st s') pname l) ms /\
          Forall (fun pv => pv_val pv = None) out /\ ps_gets s' = ps_gets s ++ ms) \/
       (scope_unsupported cls pname (ps_st s) (ps_st s') /\
          Forall (fun pv => pv_val pv = None) out /\ ps_gets s' = ps_gets s))).
Proof. exact @get_prop_cpus_l. Qed.
Print Assumptions C18_get_cpus.

Example C18_ex1 : wf_ci (pc_ci xcls) /\ one_value_per_cpu xcls /\
  get_prop_cpus xcls 0 (Some [5; 1; 5]) None xst =
    (Ok [PV 0 5 2 (Some 14); PV 0 1 2 (Some 11)], PS (ps_st xst) [0; 2] []).
Proof. split; [exact xci_wf|]. split; [exact xcls_one|]. vm_compute. reflexivity. Qed.
Example C18_ex2 : get_prop_cpus xcls 7 (Some [5]) None xst = (Ok [PV 7 5 1 None], PS (ps_st xst) [0; 1] []).
Proof. vm_compute. reflexivity. Qed.
Example C18_ex3 : get_prop_cpus xcls 5 (Some [5]) None xst = (Ok [PV 5 5 2 None], xst).
Proof. vm_compute. reflexivity. Qed.

(** The only ways to fail: wrong arguments, a scope that cannot be looked up, no mechanism to try, or
    a mechanism that raised another error or gave up half way. *)
Theorem C18_get_cpus_fails : forall (St V : Type) (cls : pclass St V) pname cpus mnames s e s',
  get_prop_cpus cls pname cpus mnames s = (Exn e, s') ->
  ps_sets s' = ps_sets s /\
  (bad_read_args cls pname cpus mnames /\ s' = s \/
   (exists x, pc_set_sname cls pname (ps_st s) = (Exn x, ps_st s') /\ (x = e \/ x = ENotSupported /\ e = EIndex /\
        (mnames = Some [] \/ allowed cls pname mnames []))) \/
   exists l ms, normalize_cpus (pc_ci cls) cpus false = Ok l /\ allowed cls pname mnames ms /\
     scope_known cls pname (ps_st s) (ps_st s') /\
     (ms = [] \/ exists pre m vals e', tried_first ms pre m /\ Forall (lacks cls (ps_st s') pname l) pre /\
        pc_get cls pname l m (ps_st s') = (vals, Some e') /\
        ps_gets s' = ps_gets s ++ pre ++ [m] /\
        (e = e' /\ e' <> ENotSupported \/ e = EError /\ e' = ENotSupported /\ vals <> []))).
Proof. exact @get_prop_cpus_fails_l. Qed.
Print Assumptions C18_get_cpus_fails.

Example C18_fails_ex : get_prop_cpus xcls 0 (Some [5; 9]) None xst = (Exn EError, xst) /\
  get_prop_cpus xcls 0 None (Some [1]) xst = (Exn ENotSupported, xst).
Proof. vm_compute. auto. Qed.

(** "Raise if not supported", as asked by the internal callers. *)
Theorem C18_raises : forall (St V : Type) (cls : pclass St V) pname cpus mnames s p,
  dget Z.eqb (pc_props cls) pname = Some p -> cpus <> [] -> mnames <> [] ->
  Forall (lacks cls (ps_st s) pname cpus) mnames ->
  get_pvinfo_cpus cls pname cpus mnames true s =
    (Exn ENotSupported, PS (ps_st s) (ps_gets s ++ mnames) (ps_sets s)).
Proof. exact @get_pvinfo_raises_l. Qed.
Print Assumptions C18_raises.

Example C18_raises_ex : Forall (lacks xcls (ps_st xst) 7 [5; 1]) [0; 1].
Proof. repeat constructor. Qed.

Theorem C18_get_packages : forall (St V : Type) (cls : pclass St V) (Hwf : wf_ci (pc_ci cls)) pname packages mnames s out s',
  keyed cls -> veq_equiv cls ->
  get_prop_packages cls pname packages mnames s = (Ok out, s') ->
  let topo := ci_topo (pc_ci cls) in
  exists l, NoDup l /\ (forall p, In p l <-> is_pkg topo p /\ nums_has packages p) /\
    map pv_key out = l /\ Forall (fun pv => pv_pname pv = pname) out /\ ps_sets s' = ps_sets s /\
    (l = [] /\ s' = s \/ exists ms, allowed cls pname mnames ms /\
      ((scope_unsupported cls pname (ps_st s) (ps_st s') /\
          Forall (fun pv => pv_val pv = None) out /\ ps_gets s' = ps_gets s) \/
       (scope_known cls pname (ps_st s) (ps_st s') /\
        (pc_sname cls (ps_st s') pname = Some SPackage \/ pc_sname cls (ps_st s') pname = Some SGlobal) /\
        (pc_sname cls (ps_st s') pname <> pc_iosname cls (ps_st s') pname ->
           forall p, In p l -> agree cls (ps_st s') pname ms (cpu_in_pkg topo p)) /\
        ((exists pre m, tried_first ms pre m /\
            (forall x, In x pre -> exists p, In p l /\ unit_lacks cls (ps_st s') pname x (cpu_in_pkg topo p)) /\
            Forall (fun pv => pv_mname pv = m /\
                      unit_gives cls (ps_st s') pname m (cpu_in_pkg topo (pv_key pv)) (pv_val pv)) out /\
            (pc_sname cls (ps_st s') pname = pc_iosname cls (ps_st s') pname ->
               ps_gets s' = ps_gets s ++ pre ++ [m])) \/
         ((forall x, In x ms -> exists p, In p l /\ unit_lacks cls (ps_st s') pname x (cpu_in_pkg topo p)) /\
            Forall (fun pv => pv_val pv = None) out))))).
Proof. exact @get_prop_packages_l. Qed.
Print Assumptions C18_get_packages.

Theorem C18_get_dies : forall (St V : Type) (cls : pclass St V) (Hwf : wf_ci (pc_ci cls)) pname ds mnames s out s',
  keyed cls -> veq_equiv cls -> (exists d, In d ds /\ snd d <> Some []) ->
  get_prop_dies cls pname (Some ds) mnames s = (Ok out, s') ->
  let topo := ci_topo (pc_ci cls) in
  (forall pd, In pd (map pv_key out) <-> is_die topo pd /\ die_requested ds pd) /\
  ps_sets s' = ps_sets s /\
  exists ms, allowed cls pname mnames ms /\
      ((scope_unsupported cls pname (ps_st s) (ps_st s') /\
          Forall (fun pv => pv_val pv = None) out /\ ps_gets s' = ps_gets s) \/
       (scope_known cls pname (ps_st s) (ps_st s') /\
        Forall (fun pv => pv_pname pv = pname) out /\
        (exists sc, pc_sname cls (ps_st s') pname = Some sc /\ (sc = SDie \/ sc = SPackage \/ sc = SGlobal)) /\
        (pc_sname cls (ps_st s') pname <> pc_iosname cls (ps_st s') pname ->
           forall pd, In pd (map pv_key out) -> agree cls (ps_st s') pname ms (cpu_in_die topo pd)) /\
        ((exists pre m, tried_first ms pre m /\
            (forall x, In x pre -> exists pd, In pd (map pv_key out) /\ unit_lacks cls (ps_st s') pname x (cpu_in_die topo pd)) /\
            Forall (fun pv => pv_mname pv = m /\
                      unit_gives cls (ps_st s') pname m (cpu_in_die topo (pv_key pv)) (pv_val pv)) out /\
            (pc_sname cls (ps_st s') pname = pc_iosname cls (ps_st s') pname ->
               ps_gets s' = ps_gets s ++ pre ++ [m])) \/
         ((forall x, In x ms -> exists pd, In pd (map pv_key out) /\ unit_lacks cls (ps_st s') pname x (cpu_in_die topo pd)) /\
            Forall (fun pv => pv_val pv = None) out)))).
Proof. exact @get_prop_dies_l. Qed.
Print Assumptions C18_get_dies.

Example C18_units_ex : keyed xcls /\ veq_equiv xcls /\
  get_prop_packages xcls 2 (Some [1]) None xst = (Ok [PV 2 1 2 (Some 14)], PS (ps_st xst) [0; 2; 0; 2] []) /\
  get_prop_dies xcls 4 (Some [(1, Some [1; 0])]) None xst =
    (Ok [PV 4 (1, 1) 2 (Some 14); PV 4 (1, 0) 2 (Some 14)], PS (ps_st xst) [2; 2; 2] []) /\
  get_prop_packages xcls 2 None None xst = (Exn EUsePerCPU, PS (ps_st xst) [0; 2] []).
Proof. split; [exact xcls_keyed|]. split; [exact xcls_veq|]. vm_compute. auto. Qed.

(** The documented default argument dies="all" never works. *)
Theorem C18_dies_all_refuted : forall (St V : Type) (cls : pclass St V) pname mnames s,
  exists e, get_prop_dies cls pname None mnames s = (Exn e, s).
Proof. exact C18_dies_all_refuted_l. Qed.
Print Assumptions C18_dies_all_refuted.

(** The per-die answer for a property without a known scope is labelled with the package number. *)
Theorem C18_dies_label_refuted : exists out s',
  get_prop_dies xcls 5 (Some [(1, Some [0])]) None xst = (Ok out, s') /\
  exists pv, In pv out /\ pv_pname pv <> 5.
Proof. exact C18_dies_label_refuted_l. Qed.
Print Assumptions C18_dies_label_refuted.

(** ** C47: a per-package or per-die value is never picked from disagreeing CPUs *)

Theorem C47_packages_agree : forall (St V : Type) (cls : pclass St V) pname packages mnames s out s' st,
  wf_ci (pc_ci cls) -> keyed cls -> veq_equiv cls ->
  get_prop_packages cls pname packages mnames s = (Ok out, s') ->
  scope_known cls pname (ps_st s) st -> pc_sname cls st pname <> pc_iosname cls st pname ->
  forall pv, In pv out -> exists ms, allowed cls pname mnames ms /\
    agree cls st pname ms (cpu_in_pkg (ci_topo (pc_ci cls)) (pv_key pv)).
Proof. exact @packages_agree_l. Qed.
Print Assumptions C47_packages_agree.

Theorem C47_dies_agree : forall (St V : Type) (cls : pclass St V) pname ds mnames s out s' st,
  wf_ci (pc_ci cls) -> keyed cls -> veq_equiv cls ->
  get_prop_dies cls pname (Some ds) mnames s = (Ok out, s') ->
  scope_known cls pname (ps_st s) st -> pc_sname cls st pname <> pc_iosname cls st pname ->
  forall pv, In pv out -> exists ms, allowed cls pname mnames ms /\
    agree cls st pname ms (cpu_in_die (ci_topo (pc_ci cls)) (pv_key pv)).
Proof. exact @dies_agree_l. Qed.
Print Assumptions C47_dies_agree.

Example C47_ex : get_prop_packages xcls 2 (Some [0]) None xst = (Exn EUsePerCPU, PS (ps_st xst) [0; 2] []) /\
  scope_known xcls 2 (ps_st xst) (ps_st xst) /\
  pc_sname xcls (ps_st xst) 2 <> pc_iosname xcls (ps_st xst) 2.
Proof. split; [vm_compute; reflexivity|]. split; [reflexivity|discriminate]. Qed.

(** ** C19: writing goes through the first mechanism that does not refuse *)

Theorem C19_set_cpus : forall (St V : Type) (cls : pclass St V) pname val cpus mnames s m s',
  wf_ci (pc_ci cls) ->
  set_prop_cpus cls pname val cpus mnames s = (Ok m, s') ->
  exists v0 v p l st1 ms pre st2,
    val = Some v0 /\ pc_norm cls pname v0 = Ok v /\
    dget Z.eqb (pc_props cls) pname = Some p /\ pd_writable p = true /\
    req_cpus cls cpus l /\ l <> [] /\ scope_known cls pname (ps_st s) st1 /\
    allowed cls pname mnames ms /\ tried_first ms pre m /\
    all_refuse cls pname v l pre st1 st2 /\
    pc_set cls pname v l m st2 = (Ok tt, ps_st s') /\
    ps_sets s' = ps_sets s ++ map (fun x => (x, v, l)) (pre ++ [m]) /\ ps_gets s' = ps_gets s.
Proof. exact @set_prop_cpus_l. Qed.
Print Assumptions C19_set_cpus.

(** If refusing changes nothing, the mechanism that accepted starts from the original state. *)
Theorem C19_refusals_change_nothing : forall (St V : Type) (cls : pclass St V) pname v cpus pre st st2,
  refusal_is_clean cls -> all_refuse cls pname v cpus pre st st2 -> st2 = st.
Proof. exact @all_refuse_clean. Qed.
Print Assumptions C19_refusals_change_nothing.

Example C19_ex : wf_ci (pc_ci xcls) /\ refusal_is_clean xcls /\
  set_prop_cpus xcls 0 (Some 99) (Some [5; 1]) None xst =
    (Ok 2, PS [(0, 10); (1, 99); (2, 12); (3, 13); (4, 14); (5, 99); (6, 14); (7, 14)] []
              [(0, 99, [5; 1]); (2, 99, [5; 1])]).
Proof. split; [exact xci_wf|]. split; [exact xcls_clean|]. vm_compute. reflexivity. Qed.

(** A valid request always goes through the mechanisms in order, and stops at the first one that does
    not refuse. *)
Theorem C19_outcome : forall (St V : Type) (cls : pclass St V) (Hwf : wf_ci (pc_ci cls))
    pname val cpus mnames s l0 st1 sc r s',
  ~ bad_write_args cls pname val mnames -> req_cpus cls cpus l0 -> l0 <> [] ->
  scope_known cls pname (ps_st s) st1 -> pc_sname cls st1 pname = Some sc ->
  (sc = SCPU \/ sc = SGlobal \/ sc = SPackage \/ sc = SDie /\ io_dies_exact (pc_ci cls) \/ sc = SCore) ->
  whole_units cls sc l0 ->
  set_prop_cpus cls pname val cpus mnames s = (r, s') ->
  exists v0 v l ms tried, val = Some v0 /\ pc_norm cls pname v0 = Ok v /\ req_cpus cls cpus l /\
    allowed cls pname mnames ms /\
    mech_outcome cls pname v l ms ENotSupported tried st1 r (ps_st s') /\
    ps_gets s' = ps_gets s /\ ps_sets s' = ps_sets s ++ map (fun x => (x, v, l)) tried.
Proof. exact @set_outcome_l. Qed.
Print Assumptions C19_outcome.

Example C19_outcome_ex : ~ bad_write_args xcls 0 (Some 99) None /\ req_cpus xcls (Some [5; 1]) [5; 1] /\
  scope_known xcls 0 (ps_st xst) (ps_st xst) /\ pc_sname xcls (ps_st xst) 0 = Some SCPU /\
  whole_units xcls SCPU [5; 1].
Proof. exact C19_outcome_ex_l. Qed.

(** Wrong requests are rejected with nothing written or even looked up. *)
Theorem C19_set_rejects : forall (St V : Type) (cls : pclass St V) pname val mnames s,
  bad_write_args cls pname val mnames ->
  (forall cpus, exists e, set_prop_cpus cls pname val cpus mnames s = (Exn e, s)) /\
  (forall dies, exists e, set_prop_dies cls pname val dies mnames s = (Exn e, s)) /\
  (forall packages, exists e, set_prop_packages cls pname val packages mnames s = (Exn e, s)).
Proof. exact @set_rejects_l. Qed.
Print Assumptions C19_set_rejects.

Theorem C19_set_cpus_rejects : forall (St V : Type) (cls : pclass St V) pname val cpus mnames s,
  cpus = [] \/ (exists c, In c cpus /\ ~ In c (ci_online (pc_ci cls))) ->
  exists e, set_prop_cpus cls pname val (Some cpus) mnames s = (Exn e, s).
Proof. exact @set_cpus_rejects_l. Qed.
Print Assumptions C19_set_cpus_rejects.

Example C19_rejects_ex : bad_write_args xcls 3 (Some 1) None /\ bad_write_args xcls 6 (Some 1) (Some [3]).
Proof.
  split.
  - right. left. exists (PD [2] false). auto.
  - do 4 right. exists (PD [3] true), [3], 3. cbn. split; [reflexivity|]. split; [reflexivity|].
    split; [now left|]. right. discriminate.
Qed.

(** In the property tables of the code, writable properties list writable mechanisms only... *)
Theorem C19_tables : forall p, In p (pstates_props ++ cstates_props ++ power_props ++ pmqos_props) ->
  pd_writable p = true -> forall m, In m (pd_mnames p) -> dget Z.eqb mechanisms m = Some true.
Proof. exact C19_tables_l. Qed.
Print Assumptions C19_tables.

(** ... and then no write ever goes through a read-only mechanism. *)
Theorem C19_writable_only : forall (St V : Type) (cls : pclass St V) pname val cpus mnames s m s',
  wf_ci (pc_ci cls) ->
  (forall p, dget Z.eqb (pc_props cls) pname = Some p -> pd_writable p = true ->
     forall m, In m (pd_mnames p) -> dget Z.eqb (pc_mechs cls) m = Some true) ->
  set_prop_cpus cls pname val cpus mnames s = (Ok m, s') ->
  dget Z.eqb (pc_mechs cls) m = Some true.
Proof. exact @C19_writable_only_l. Qed.
Print Assumptions C19_writable_only.

(** The check by itself does not cover the default mechanisms. *)
Theorem C19_default_readonly_refuted : exists m s',
  set_prop_cpus xcls 6 (Some 99) (Some [4]) None xst = (Ok m, s') /\
  dget Z.eqb (pc_mechs xcls) m = Some false.
Proof. exact C19_default_readonly_refuted_l. Qed.
Print Assumptions C19_default_readonly_refuted.

(** ** C20: setting packages and dies reaches the I/O domain of every CPU *)

(** Partial: the I/O scope must not be wider than a package. *)
Theorem C20_packages_partial : forall (St V : Type) (cls : pclass St V) (Hwf : wf_ci (pc_ci cls)) pname val packages mnames s m s',
  let topo := ci_topo (pc_ci cls) in
  (forall st, pc_iosname cls st pname = Some SModule -> modules_unique topo) ->
  (forall st, pc_iosname cls st pname <> Some SGlobal /\ pc_iosname cls st pname <> Some SNode) ->
  set_prop_packages cls pname val packages mnames s = (Ok m, s') ->
  exists v st2 sets w, ps_sets s' = ps_sets s ++ sets ++ [(m, v, w)] /\
    pc_set cls pname v w m st2 = (Ok tt, ps_st s') /\
    (exists v0, val = Some v0 /\ pc_norm cls pname v0 = Ok v) /\
    (forall p c, nums_has packages p -> cpu_in_pkg topo p c ->
       exists sc x, pc_iosname cls st2 pname = Some sc /\ In x w /\ same_unit topo sc c x) /\
    (forall x, In x w -> exists p, nums_has packages p /\ cpu_in_pkg topo p x) /\
    (forall sc x y, pc_iosname cls st2 pname = Some sc -> In x w -> In y w -> same_unit topo sc x y -> x = y).
Proof. exact @C20_packages_l. Qed.
Print Assumptions C20_packages_partial.

(** Partial: the I/O domains must not reach out of the requested dies. *)
Theorem C20_dies_partial : forall (St V : Type) (cls : pclass St V) (Hwf : wf_ci (pc_ci cls)) pname val ds mnames s m s',
  let topo := ci_topo (pc_ci cls) in
  (forall st, pc_iosname cls st pname = Some SModule -> modules_unique topo) ->
  (forall st sc c x pd, pc_iosname cls st pname = Some sc -> die_requested ds pd -> cpu_in_die topo pd c ->
     same_unit topo sc c x -> exists pd', die_requested ds pd' /\ cpu_in_die topo pd' x) ->
  set_prop_dies cls pname val (Some ds) mnames s = (Ok m, s') ->
  exists v st2 sets w, ps_sets s' = ps_sets s ++ sets ++ [(m, v, w)] /\
    pc_set cls pname v w m st2 = (Ok tt, ps_st s') /\
    (exists v0, val = Some v0 /\ pc_norm cls pname v0 = Ok v) /\
    (forall pd c, die_requested ds pd -> cpu_in_die topo pd c ->
       exists sc x, pc_iosname cls st2 pname = Some sc /\ In x w /\ same_unit topo sc c x) /\
    (forall x, In x w -> exists pd, die_requested ds pd /\ cpu_in_die topo pd x) /\
    (forall sc x y, pc_iosname cls st2 pname = Some sc -> In x w -> In y w -> same_unit topo sc x y -> x = y).
Proof. exact @C20_dies_cover_l. Qed.
Print Assumptions C20_dies_partial.

(** Exactly which CPUs are written, for any I/O scope: those requested that are the lowest-numbered
    of their I/O domain. *)
Theorem C20_dies_written : forall (St V : Type) (cls : pclass St V) (Hwf : wf_ci (pc_ci cls)) pname val ds mnames s m s',
  let topo := ci_topo (pc_ci cls) in
  (forall st, pc_iosname cls st pname = Some SModule -> modules_unique topo) ->
  set_prop_dies cls pname val (Some ds) mnames s = (Ok m, s') ->
  let req c := exists pd, die_requested ds pd /\ cpu_in_die topo pd c in
  exists v st2 sets w, ps_sets s' = ps_sets s ++ sets ++ [(m, v, w)] /\
    pc_set cls pname v w m st2 = (Ok tt, ps_st s') /\
    (exists v0, val = Some v0 /\ pc_norm cls pname v0 = Ok v) /\
    (forall x, In x w -> req x) /\
    (forall sc, pc_iosname cls st2 pname = Some sc ->
       forall c, In c w <-> req c /\ lowest (same_unit topo sc c) c) /\
    (pc_iosname cls st2 pname = None -> ~ exists c, req c).
Proof. exact @C20_dies_l. Qed.
Print Assumptions C20_dies_written.

Example C20_ex : set_prop_packages xcls 2 (Some 99) (Some [1]) None xst =
  (Ok 2, PS [(0, 10); (1, 11); (2, 12); (3, 13); (4, 99); (5, 99); (6, 14); (7, 14)] []
            [(0, 99, [4; 5]); (2, 99, [4; 5])]).
Proof. vm_compute. reflexivity. Qed.

(** With global scope nothing is written for package 1, and the call succeeds. *)
Theorem C20_global_refuted : exists m s',
  set_prop_packages xcls 1 (Some 99) (Some [1]) None xst = (Ok m, s') /\
  ps_st s' = ps_st xst /\ cpu_in_pkg (ci_topo xci) 1 4 /\ dget Z.eqb (ps_st s') 4 = Some 14.
Proof. exact C20_global_refuted_l. Qed.
Print Assumptions C20_global_refuted.

(** The same for a die that does not have the first CPU of its package, with package I/O scope. *)
Theorem C20_die_refuted : exists m s',
  set_prop_dies xcls 4 (Some 99) (Some [(0, Some [1])]) None xst = (Ok m, s') /\
  ps_st s' = ps_st xst /\ cpu_in_die (ci_topo xci) (0, 1) 1.
Proof. exact C20_die_refuted_l. Qed.
Print Assumptions C20_die_refuted.

(** ** C21: CPUs must make whole scope units *)

Theorem C21_accepted_whole : forall (St V : Type) (cls : pclass St V) (Hwf : wf_ci (pc_ci cls)) pname val cpus mnames s m s',
  set_prop_cpus cls pname val cpus mnames s = (Ok m, s') ->
  exists st1 sc l, scope_known cls pname (ps_st s) st1 /\ pc_sname cls st1 pname = Some sc /\
    (sc = SCPU \/ sc = SGlobal \/ sc = SPackage \/ sc = SDie \/ sc = SCore) /\
    req_cpus cls cpus l /\ whole_units cls sc l.
Proof. exact @scope_accepted_l. Qed.
Print Assumptions C21_accepted_whole.

(** A list that cuts through a unit is rejected and nothing is written. *)
Theorem C21_cut_rejected : forall (St V : Type) (cls : pclass St V) (Hwf : wf_ci (pc_ci cls)) pname val cpus mnames s st1 sc c x,
  let ci := pc_ci cls in
  scope_known cls pname (ps_st s) st1 -> pc_sname cls st1 pname = Some sc ->
  nums_has cpus c -> In c (ci_online ci) -> same_unit (ci_topo ci) sc c x -> ~ nums_has cpus x ->
  exists e s', set_prop_cpus cls pname val cpus mnames s = (Exn e, s') /\
    (ps_st s' = ps_st s \/ ps_st s' = st1) /\ ps_sets s' = ps_sets s.
Proof. exact @scope_rejected_l. Qed.
Print Assumptions C21_cut_rejected.

(** Conversely whole units are never rejected by the scope check. *)
Theorem C21_whole_accepted : forall (St V : Type) (cls : pclass St V) (Hwf : wf_ci (pc_ci cls)) sc l,
  let ci := pc_ci cls in
  (forall c, In c l -> In c (ci_online ci)) -> l <> [] ->
  (sc = SCPU \/ sc = SGlobal \/ sc = SPackage \/ sc = SDie /\ io_dies_exact ci \/ sc = SCore) ->
  whole_units cls sc l -> validate_cpus_vs_scope cls (Some sc) l = Ok tt.
Proof. exact @validate_accepts. Qed.
Print Assumptions C21_whole_accepted.

Example C21_ex : set_prop_cpus xcls 2 (Some 99) (Some [4; 5; 6]) None xst = (Exn EError, xst) /\
  set_prop_cpus xcls 2 (Some 99) (Some [7; 4; 5; 6]) (Some [2]) xst =
    (Ok 2, PS [(0, 10); (1, 11); (2, 12); (3, 13); (4, 99); (5, 99); (6, 99); (7, 99)] []
              [(2, 99, [7; 4; 5; 6])]).
Proof. vm_compute. auto. Qed.
Example C21_cut_ex : scope_known xcls 2 (ps_st xst) (ps_st xst) /\ pc_sname xcls (ps_st xst) 2 = Some SPackage /\
  nums_has (Some [4; 5; 6]) 4 /\ same_unit (ci_topo xci) SPackage 4 7 /\ ~ nums_has (Some [4; 5; 6]) 7.
Proof.
  split; [reflexivity|]. split; [reflexivity|]. split; [now left|]. split.
  - exists (xline 4), (xline 7). vm_compute. intuition discriminate.
  - cbn. intuition discriminate.
Qed.
