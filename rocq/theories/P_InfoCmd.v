(** C71: what the 'info' commands print. *)
From Coq Require Import Ascii String ZifyBool.
From Verif Require Import Base L_Base M_CPUInfo S_CPUInfo X_CPUInfo M_Text S_Text M_Props S_Props X_Props M_OpTarget X_OpTarget M_Human M_CPUIdle S_CPUIdle X_CPUIdle
  M_CSave S_CSave M_Print S_Print X_Print M_InfoCmd S_InfoCmd L_InfoCmd2 L_InfoCmd3 L_InfoCmd4 L_InfoCmd5 X_InfoCmd.

(** ** C-states *)

(** C71. For people: a block of lines for every C-state that was asked for and that one of the CPUs has, in which each of the
    CPUs is listed exactly under "on" or "off" as the kernel has it, and which has the description, latency and residency of
    the C-state on each of the CPUs and no other. *)
Theorem C71_cstates : forall (V : Type) mc nst, idle_ok mc nst -> forall flags, flags_ok mc nst flags ->
  (forall c, In c (ci_online (mc_ci mc)) -> 0 <= c) -> (forall p, is_pkg (ci_topo (mc_ci mc)) p -> 0 <= p) ->
  forall ops gov tick wf csnames cpus descr group action ls (n : Z) s',
  print_cstates (V := V) mc descr false csnames cpus group action (irun mc ops (idle_init flags gov tick [] wf)) = (Ok ([OCs ls], n), s') ->
  (csnames = s2l "all"%string -> same_names mc nst cpus) ->
  let about c i name := In c cpus /\ 0 <= i < nst c /\ name = cs_name mc c i /\ asked (CsText csnames) (own_names mc nst c) name in
  exists blocks, n = Z.of_nat (length blocks) /\ NoDup (map cb_name blocks) /\
    ls = (match blocks with [] => [s2l "This system does not support C-states"%string] | _ => cs_text action group descr blocks end) /\
    (forall b, In b blocks -> NoDup (map (fun st => fst (fst st)) (cb_status b)) /\
       forall off l t, In (off, l, t) (cb_status b) -> l <> [] /\ NoDup l /\ cpus_text (mc_ci mc) t l /\
         forall c, In c l <-> exists i, about c i (cb_name b) /\ id_flags s' c i = flag_text off) /\
    (forall c i name, about c i name -> exists b off l t, In b blocks /\ cb_name b = name /\ In (off, l, t) (cb_status b) /\ In c l) /\
    (forall b key v, In b blocks -> In (key, v) (cb_detail b) -> In key cs_details /\ exists c i t, about c i (cb_name b) /\ v = says (mc_text mc c i key t)) /\
    (forall c i name key, about c i name -> In key cs_details -> exists b t, In b blocks /\ cb_name b = name /\ In (key, says (mc_text mc c i key t)) (cb_detail b)).
Proof. exact cstates_printed. Qed.
Print Assumptions C71_cstates.

Theorem C71_cstates_succeeds : forall (V : Type) mc nst, idle_ok mc nst -> forall flags, flags_ok mc nst flags ->
  forall ops gov tick wf csnames cpus descr group action, incl cpus (ci_online (mc_ci mc)) ->
  (csnames = s2l "all"%string -> same_names mc nst cpus) ->
  (forall c name, In c cpus -> asked (CsText csnames) (own_names mc nst c) name -> In name (own_names mc nst c)) ->
  exists ls n, fst (print_cstates (V := V) mc descr false csnames cpus group action (irun mc ops (idle_init flags gov tick [] wf))) = Ok ([OCs ls], n).
Proof. exact cstates_print_live. Qed.
Print Assumptions C71_cstates_succeeds.

Example C71_cstates_ex : idle_ok xm3 (fun _ => 3) /\ flags_ok xm3 (fun _ => 3) all_on /\ same_names xm3 (fun _ => 3) [0; 2; 5] /\
  cs_shown (fst (print_cstates (V := Z) xm3 (s2l "Linux"%string) false (s2l "all"%string) [0; 2; 5] true None (irun xm3 [xoff] x0))) = map s2l
  ["Source: Linux"; " - POLL: 'on' for CPU 0"; " - POLL: 'off' for CPUs 2,5"; "    - description: ACPI FFH"; "    - expected latency: 2 us"; "    - target residency: 1 us";
   " - C1_ACPI: 'on' for CPUs 0,2,5"; "    - description: ACPI FFH"; "    - expected latency: 2 us"; "    - target residency: 1 us";
   " - C6: 'on' for CPU 0"; " - C6: 'off' for CPUs 2,5"; "    - description: ACPI FFH"; "    - expected latency: 2 us"; "    - target residency: 1 us"]%string.
Proof. split; [exact xm3_ok|]. split; [apply all_on_ok|]. split; [apply xm3_names|exact xcs_l]. Qed.

(** What is printed after the C-states were changed. *)
Example C71_cstates_ex2 :
  cs_shown (fst (print_cstates (V := Z) xm3 (s2l "Linux"%string) false (s2l "C6"%string) [0; 2; 5] false (Some (s2l "set to"%string)) (irun xm3 [xoff] x0))) = map s2l
  ["C6: set to 'on' for CPU 0"; "C6: set to 'off' for CPUs 2,5"; " - description: ACPI FFH"; " - expected latency: 2 us"; " - target residency: 1 us"]%string.
Proof. vm_compute. reflexivity. Qed.

(** ** Properties *)

(** C71. For people: every value that was read is on a line of its mechanism with text that says exactly which CPUs, dies or
    packages have it, and every line is about values that were read. Without property options the unsupported properties are
    left out. The message that nothing is supported is there just if there is nothing to show. *)
Theorem C71_props : forall (St V : Type) (cls : pclass St V), (forall x y, pc_veqb cls x y = true <-> x = y) ->
  forall subs tab types global blank, NoDup (map fst tab) ->
  forall mechs oargs s out s', one_value_per_cpu cls -> wf_ci (pc_ci cls) -> even_dies (pc_ci cls) -> (forall k, exists_num (pc_ci cls) k -> nonneg_num k) ->
  NoDup (info_names (pc_props cls) subs oargs) ->
  props_info cls subs tab types global blank (IA false mechs oargs) s = (Ok out, s') ->
  exists ms l lines, mechs_named tab mechs ms /\
    reading (get_prop_sname cls ms) (pc_props cls) false (info_names (pc_props cls) subs oargs) s l s' /\
    with_message oargs l (OProps (match oargs with None => true | Some _ => false end) lines) out /\
    (forall m ls p v sfx, In (m, ls) lines -> In (p, v, sfx) ls -> ~ is_blank blank v /\
       exists sn n, line_says (pc_ci cls) global p sn n sfx /\ each_once sn n /\ forall k, holds sn n k -> was_read l m p v k /\ to_show oargs v) /\
    (forall m p v k, was_read l m p v k -> to_show oargs v -> ~ is_blank blank v ->
       exists ls sfx sn n, In (m, ls) lines /\ In (p, v, sfx) ls /\ line_says (pc_ci cls) global p sn n sfx /\ holds sn n k).
Proof. exact @props_human. Qed.
Print Assumptions C71_props.

Example C71_props_ex : one_value_per_cpu xcls /\ wf_ci (pc_ci xcls) /\ even_dies (pc_ci xcls) /\ NoDup (map fst xtab) /\
  info_names (pc_props xcls) xsubs (Some [0; 2]) = [0; 2; 4; 7] /\
  fst (xinfo (IA false [] (Some [0; 2])) xps2) = Ok [OProps false
  [(2, [(0, Some 10, Some (s2l "CPUs 0-3 (package 0)"%string)); (0, Some 14, Some (s2l "CPUs 4-7 (package 1)"%string));
        (2, Some 10, Some (s2l "package 0"%string)); (2, Some 14, Some (s2l "package 1"%string));
        (4, Some 10, Some (s2l "dies 0,1 in package 0"%string)); (4, Some 14, Some (s2l "dies 0,1 in package 1"%string))]);
   (1, [(7, None, Some (s2l "all CPUs"%string))])]].
Proof. split; [exact xcls_one|]. split; [exact xci_wf|]. split; [exact xci_even|]. split; [exact xtab_nodup|]. split; [reflexivity|exact xinfo_human2_l]. Qed.

(** C71. YAML says of every CPU, die or package exactly the values that were read. *)
Theorem C71_yaml : forall (St V : Type) (cls : pclass St V), (forall x y, pc_veqb cls x y = true <-> x = y) ->
  forall subs tab types global blank, NoDup (map fst tab) ->
  forall mechs oargs s out s', one_value_per_cpu cls -> wf_ci (pc_ci cls) -> (forall k, exists_num (pc_ci cls) k -> nonneg_num k) ->
  NoDup (info_names (pc_props cls) subs oargs) ->
  props_info cls subs tab types global blank (IA true mechs oargs) s = (Ok out, s') ->
  exists ms l y, mechs_named tab mechs ms /\
    reading (get_prop_sname cls ms) (pc_props cls) false (info_names (pc_props cls) subs oargs) s l s' /\
    with_message oargs l (OPropsYaml y) out /\
    forall p o k, yaml_says y p o k <-> exists m v, was_read l m p v k /\ to_show oargs v /\ written_as (types p) v o.
Proof. exact @props_yaml. Qed.
Print Assumptions C71_yaml.

Example C71_yaml_ex : fst (xinfo (IA true [] (Some [0; 4])) xps2) = Ok [OPropsYaml
  [(0, [(YoVal 10, RCPU, YText (s2l "0-3"%string)); (YoVal 14, RCPU, YText (s2l "4-7"%string))]);
   (4, [(YoVal 10, RDie, YDict [(0, s2l "0,1"%string)]); (YoVal 14, RDie, YDict [(1, s2l "0,1"%string)])])]].
Proof. exact xinfo_yaml_l. Qed.

(** C71. Printing fails only if reading does; in YAML also if a property that is a dictionary is not supported, which is an
    unhandled ValueError. *)
Theorem C71_succeeds : forall (St V : Type) (cls : pclass St V), (forall x y, pc_veqb cls x y = true <-> x = y) ->
  forall subs tab types global blank, NoDup (map fst tab) ->
  forall yaml mechs oargs ms l s s', one_value_per_cpu cls -> wf_ci (pc_ci cls) -> (forall k, exists_num (pc_ci cls) k -> nonneg_num k) -> is_pkg (ci_topo (pc_ci cls)) 0 ->
  NoDup (info_names (pc_props cls) subs oargs) ->
  (forall p, In p (info_names (pc_props cls) subs oargs) -> exists d, dget Z.eqb (pc_props cls) p = Some d) ->
  (mechs = [] /\ ms = None) \/ (exists ws l, ms = Some l /\ typed_list mechs ws /\ Forall2 (fun w m => In (w, m) tab) ws l) ->
  reading (get_prop_sname cls ms) (pc_props cls) false (info_names (pc_props cls) subs oargs) s l s' ->
  (yaml = true -> forall m p k, was_read l m p None k -> to_show oargs (None : option V) -> types p <> TDict) ->
  exists out, props_info cls subs tab types global blank (IA yaml mechs oargs) s = (Ok out, s').
Proof. exact @props_live. Qed.
Print Assumptions C71_succeeds.

Theorem C71_yaml_dict : forall (St V : Type) (cls : pclass St V), (forall x y, pc_veqb cls x y = true <-> x = y) ->
  forall subs tab types global blank, NoDup (map fst tab) ->
  forall mechs oargs ms l s s' m p k, one_value_per_cpu cls ->
  NoDup (info_names (pc_props cls) subs oargs) ->
  (forall p, In p (info_names (pc_props cls) subs oargs) -> exists d, dget Z.eqb (pc_props cls) p = Some d) ->
  (mechs = [] /\ ms = None) \/ (exists ws l, ms = Some l /\ typed_list mechs ws /\ Forall2 (fun w m => In (w, m) tab) ws l) ->
  reading (get_prop_sname cls ms) (pc_props cls) false (info_names (pc_props cls) subs oargs) s l s' ->
  was_read l m p None k -> oargs <> None -> types p = TDict ->
  props_info cls subs tab types global blank (IA true mechs oargs) s = (Exn EValue, s').
Proof. exact @props_yaml_dead. Qed.
Print Assumptions C71_yaml_dict.

Theorem C71_yaml_dict_refuted : exists args args' out,
  ia_yaml args = false /\ ia_yaml args' = true /\ ia_mechs args' = ia_mechs args /\ ia_oargs args' = ia_oargs args /\
  fst (xinfo args xps2) = Ok out /\ fst (xinfo args' xps2) = Exn EValue.
Proof. exact yaml_dict_refuted_l. Qed.
Print Assumptions C71_yaml_dict_refuted.

(** ** Mechanisms *)

(** C71. Every name of '--mechanisms' must be known, and every property asked for must have every one of the mechanisms. *)
Theorem C71_mechanisms : forall (St V : Type) (cls : pclass St V) subs tab types global blank, NoDup (map fst tab) ->
  forall yaml mechs ws oargs s out s', typed_list mechs ws ->
  props_info cls subs tab types global blank (IA yaml mechs oargs) s = (Ok out, s') ->
  (forall w, In w ws -> In w (map fst tab)) /\
  forall p w m, In p (info_names (pc_props cls) subs oargs) -> In w ws -> In (w, m) tab ->
    exists d, dget Z.eqb (pc_props cls) p = Some d /\ In m (pd_mnames d).
Proof. exact @props_mechs. Qed.
Print Assumptions C71_mechanisms.

(** Only these mechanisms are used. *)
Theorem C71_mechanisms_used : forall (St V : Type) (cls : pclass St V) l names s rl s', l <> [] ->
  reading (get_prop_sname cls (Some l)) (pc_props cls) false names s rl s' ->
  (forall m p v k, was_read rl m p v k -> In m l) /\
  forall p, In p names -> exists d, dget Z.eqb (pc_props cls) p = Some d /\ forall m, In m l -> In m (pd_mnames d).
Proof. exact @reading_mech. Qed.
Print Assumptions C71_mechanisms_used.

Theorem C71_mechanisms_text : forall tab, NoDup (map fst tab) -> forall t ws, typed_list t ws -> forall ms,
  parse_mechanisms tab t = Ok ms <-> Forall2 (fun w m => In (w, m) tab) ws ms.
Proof. exact mechs_ok. Qed.
Print Assumptions C71_mechanisms_text.

Theorem C71_mechanisms_unknown : forall tab t ws, typed_list t ws -> forall w, In w ws -> ~ In w (map fst tab) ->
  parse_mechanisms tab t = Exn ENotSupported.
Proof. exact mechs_refused. Qed.
Print Assumptions C71_mechanisms_unknown.

Example C71_mechanisms_ex : typed_list (s2l "msr,sysfs"%string) (map s2l ["msr"; "sysfs"]%string) /\
  fst (xinfo (IA false (s2l "msr,sysfs"%string) (Some [0])) xps2) = Ok [OProps false
  [(2, [(0, Some 10, Some (s2l "CPUs 0-3 (package 0)"%string)); (0, Some 14, Some (s2l "CPUs 4-7 (package 1)"%string))])]] /\
  fst (xinfo (IA false (s2l "msr"%string) None) xps2) = Exn ENotSupported /\
  fst (xinfo (IA false (s2l "mrs"%string) (Some [0])) xps2) = Exn ENotSupported.
Proof. split; [exact xtyped|exact xinfo_mech_l]. Qed.

(** '--mechanisms' without property options never works for P-states, C-states and PM QoS: no mechanism is common to all of
    their properties, and the properties that do not have it are not skipped. *)
Theorem C71_mechanism_alone_refuted : forall (St V : Type) (cls : pclass St V), NoDup (map fst (pc_props cls)) ->
  (map snd (pc_props cls) = pstates_props \/ map snd (pc_props cls) = cstates_props \/ map snd (pc_props cls) = pmqos_props) ->
  forall subs tab types global blank yaml mechs ws s, NoDup (map fst tab) -> typed_list mechs ws ->
  forall out s', props_info cls subs tab types global blank (IA yaml mechs None) s <> (Ok out, s').
Proof. exact no_mechs_at_all. Qed.
Print Assumptions C71_mechanism_alone_refuted.

Example C71_mechanism_alone_ex : NoDup (map fst (pc_props xpscls)) /\ map snd (pc_props xpscls) = pstates_props /\
  fst (props_info xpscls (fun _ => []) xtab (fun _ => TScalar) (fun _ => false) (fun _ => false) (IA false (s2l "msr"%string) (Some [1])) xps2) =
    Ok [OProps false [(2, [(1, Some 10, Some (s2l "CPUs 0-3 (package 0)"%string)); (1, Some 14, Some (s2l "CPUs 4-7 (package 1)"%string))])]] /\
  fst (props_info xpscls (fun _ => []) xtab (fun _ => TScalar) (fun _ => false) (fun _ => false) (IA false (s2l "msr"%string) None) xps2) = Exn ENotSupported.
Proof. exact xpscls_l. Qed.

(** ** The 'cstates info' command *)

(** C71. 'cstates info' prints the C-states (of all names, if no names are given) if neither C-states nor properties are
    named, or if C-states are; then what the properties part prints; and the message just if both printed nothing. *)
Theorem C71_command : forall (St V : Type) (cls : pclass St V) subs tab types global blank mc descr args cs s out s', ia_oargs args <> Some [] ->
  cstates_info cls subs tab types global blank mc descr args cs s = (Ok out, s') ->
  let default := ia_oargs args = None /\ cs = CsDefault in
  exists o1 n1 o2 n2 sp,
    out = o1 ++ o2 ++ (if n1 + n2 =? 0 then [ONothing] else []) /\
    ((default \/ cs <> CsDefault) /\
     (exists cpus group, on_target (ot_get_cpus (pc_ci cls)) (snd s) = (Ok cpus, sp) /\ (group = true <-> default) /\
        print_cstates (V := V) mc descr (ia_yaml args) (match cs with CsGiven t => t | _ => s2l "all"%string end) cpus group None (fst s) = (Ok (o1, n1), fst s'))
     \/ (~ default /\ cs = CsDefault) /\ o1 = [] /\ n1 = 0 /\ fst s' = fst s /\ sp = snd s) /\
    ((default \/ ia_oargs args <> None) /\
     props_info cls subs tab types global blank args sp = (Ok (o2 ++ (if n2 =? 0 then [ONothing] else [])), snd s') /\ o2 <> [] /\ ~ In ONothing o2
     \/ (~ default /\ ia_oargs args = None) /\ o2 = [] /\ n2 = 0 /\ snd s' = sp).
Proof. exact @cstates_command. Qed.
Print Assumptions C71_command.

Example C71_command_ex :
  match fst (cstates_info xcls xsubs xtab xtypes (fun p => p =? 1) (fun v => v =? 99) xm3 (s2l "Linux"%string) (IA false [] (Some [4])) (CsGiven (s2l "c6"%string)) (x0, xps2)) with
  | Ok [OCs l; OProps false p] => l = map s2l ["C6: 'on' for all CPUs"; " - description: ACPI FFH"; " - expected latency: 2 us"; " - target residency: 1 us"]%string /\
      p = [(2, [(4, Some 10, Some (s2l "dies 0,1 in package 0"%string)); (4, Some 14, Some (s2l "dies 0,1 in package 1"%string))])]
  | _ => False
  end.
Proof. vm_compute. split; reflexivity. Qed.

(** An empty list of names is answered with a wrong statement about the system. *)
Theorem C71_no_cstates_refuted : exists mc nst csnames, idle_ok mc nst /\ (forall c, In c (ci_online (mc_ci mc)) -> 0 < nst c) /\
  cs_shown (fst (print_cstates (V := Z) mc (s2l "Linux"%string) false csnames [0; 1] false None x0)) = [s2l "This system does not support C-states"%string].
Proof. exact no_cstates_refuted_l. Qed.
Print Assumptions C71_no_cstates_refuted.

(** The text does not say which CPUs have which latency: two systems that differ have the same text. *)
Theorem C71_latency_refuted : exists mc1 mc2 nst c i, idle_ok mc1 nst /\ idle_ok mc2 nst /\ In c (ci_online (mc_ci mc1)) /\ 0 <= i < nst c /\
  mc_text mc1 c i (s2l "latency"%string) 0 <> mc_text mc2 c i (s2l "latency"%string) 0 /\
  cs_shown (fst (print_cstates (V := Z) mc1 (s2l "Linux"%string) false (s2l "all"%string) [0; 1; 2] false None x0)) =
  cs_shown (fst (print_cstates (V := Z) mc2 (s2l "Linux"%string) false (s2l "all"%string) [0; 1; 2] false None x0)) /\
  length (cs_shown (fst (print_cstates (V := Z) mc1 (s2l "Linux"%string) false (s2l "all"%string) [0; 1; 2] false None x0))) = 15%nat.
Proof. exact latency_refuted_l. Qed.
Print Assumptions C71_latency_refuted.
