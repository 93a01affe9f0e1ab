(** C31: enabling, disabling and listing C-states. C49: the idle governor. *)
From Coq Require Import Ascii String ZifyBool.
From Verif Require Import Base M_CPUInfo S_CPUInfo M_Text M_Human M_CPUIdle S_CPUIdle L_CPUIdle7 X_CPUInfo X_CPUIdle.

(** C31. After any calls, with whatever errors of writing, the list of C-states has every requested CPU once, with
    exactly the C-states that were asked for, and what it says of each of them is what the kernel says. Missing: errors
    of reading (see C31_stale_refuted), "all" when the CPUs have different C-states (C31_all_refuted), CPUs with fewer
    than two C-states (C31_single_refuted, C31_none_refuted), an offline CPU 0 (C31_cpu0_refuted), and no caching
    (C31_nocache_refuted). *)
Theorem C31_info_partial : forall mc nst, idle_ok mc nst -> forall flags, flags_ok mc nst flags ->
  forall ops gov tick wf cpus csnames r s',
  get_cstates_info mc cpus csnames (irun mc ops (idle_init flags gov tick [] wf)) = (Ok r, s') ->
  (is_all csnames -> same_names mc nst (cs_targets mc cpus)) ->
  NoDup (map fst r) /\ (forall c, In c (cs_targets mc cpus) <-> In c (map fst r)) /\
  (forall c info, In (c, info) r -> tells mc nst (id_flags s') c (asked csnames (own_names mc nst c)) info).
Proof. exact info_exact. Qed.
Print Assumptions C31_info_partial.

(** Listing changes nothing. *)
Theorem C31_info_frame : forall mc nst, idle_ok mc nst -> forall flags, flags_ok mc nst flags ->
  forall ops gov tick rf wf cpus csnames,
  let s := irun mc ops (idle_init flags gov tick rf wf) in
  forall c i, id_flags (snd (get_cstates_info mc cpus csnames s)) c i = id_flags s c i.
Proof. exact info_frame. Qed.
Print Assumptions C31_info_frame.

Theorem C31_info_succeeds : forall mc nst, idle_ok mc nst -> forall flags, flags_ok mc nst flags ->
  forall ops gov tick wf cpus csnames,
  incl (cs_targets mc cpus) (ci_online (mc_ci mc)) ->
  (is_all csnames -> same_names mc nst (cs_targets mc cpus)) ->
  (forall c n, In c (cs_targets mc cpus) -> asked csnames (own_names mc nst c) n -> In n (own_names mc nst c)) ->
  exists r, fst (get_cstates_info mc cpus csnames (irun mc ops (idle_init flags gov tick [] wf))) = Ok r.
Proof. exact info_succeeds. Qed.
Print Assumptions C31_info_succeeds.

(** Toggling that succeeds sets exactly the named C-states of exactly the named CPUs, changes no other, and returns
    exactly these. Missing: as above, but errors of reading and writing may happen at any time. *)
Theorem C31_toggle_partial : forall mc nst, idle_ok mc nst -> forall flags, flags_ok mc nst flags ->
  forall ops gov tick rf wf csnames cpus en ts s',
  let s := irun mc ops (idle_init flags gov tick rf wf) in
  toggle_cstates mc csnames cpus en s = (Ok ts, s') ->
  (is_all csnames -> same_names mc nst (cs_targets mc cpus)) ->
  (forall c i, In c (cs_targets mc cpus) -> 0 <= i < nst c -> asked csnames (own_names mc nst c) (cs_name mc c i) ->
     id_flags s' c i = flag_text (negb en)) /\
  (forall c i, ~ (In c (cs_targets mc cpus) /\ 0 <= i < nst c /\ asked csnames (own_names mc nst c) (cs_name mc c i)) ->
     id_flags s' c i = id_flags s c i) /\
  NoDup (map fst ts) /\
  (forall c names, In (c, names) ts -> In c (cs_targets mc cpus) /\ NoDup names /\
     forall n, In n names <-> In n (own_names mc nst c) /\ asked csnames (own_names mc nst c) n) /\
  (forall c n, In c (cs_targets mc cpus) -> asked csnames (own_names mc nst c) n -> In c (map fst ts)).
Proof. exact toggle_exact. Qed.
Print Assumptions C31_toggle_partial.

(** Whatever the outcome, and whatever goes wrong, no other C-state changes, and every C-state is either on or off. *)
Theorem C31_toggle_frame : forall mc nst, idle_ok mc nst -> forall flags, flags_ok mc nst flags ->
  forall ops gov tick rf wf csnames cpus en c i,
  let s := irun mc ops (idle_init flags gov tick rf wf) in
  let s' := snd (toggle_cstates mc csnames cpus en s) in
  (~ toggles mc nst csnames cpus c i -> id_flags s' c i = id_flags s c i) /\
  (In c (ci_online (mc_ci mc)) -> 0 <= i < nst c -> exists off, id_flags s' c i = flag_text off).
Proof. exact toggle_frame. Qed.
Print Assumptions C31_toggle_frame.

Theorem C31_toggle_succeeds : forall mc nst, idle_ok mc nst -> obeys mc nst -> forall flags, flags_ok mc nst flags ->
  forall ops gov tick rf wf csnames cpus en,
  let s := irun mc ops (idle_init flags gov tick rf wf) in
  id_rf s = [] -> id_wf s = [] ->
  incl (cs_targets mc cpus) (ci_online (mc_ci mc)) ->
  (is_all csnames -> same_names mc nst (cs_targets mc cpus)) ->
  (forall c n, In c (cs_targets mc cpus) -> asked csnames (own_names mc nst c) n -> In n (own_names mc nst c)) ->
  exists ts, fst (toggle_cstates mc csnames cpus en s) = Ok ts.
Proof. exact toggle_succeeds. Qed.
Print Assumptions C31_toggle_succeeds.

(** A C-state that a CPU does not have, and a CPU that is not online, are refused. *)
Theorem C31_refused : forall mc nst, idle_ok mc nst -> forall flags, flags_ok mc nst flags ->
  forall ops gov tick rf wf csnames cpus en c n,
  let s := irun mc ops (idle_init flags gov tick rf wf) in
  (In c (cs_targets mc cpus) /\ ~ is_all csnames /\ asked csnames (own_names mc nst c) n /\ ~ In n (own_names mc nst c)) \/
  (In c (cs_targets mc cpus) /\ ~ In c (ci_online (mc_ci mc))) ->
  (forall r, fst (get_cstates_info mc cpus csnames s) <> Ok r) /\ (forall r, fst (toggle_cstates mc csnames cpus en s) <> Ok r).
Proof. exact unknown_refused. Qed.
Print Assumptions C31_refused.

(** Not so: "all" is the C-states of the first CPU, so that disabling "all" of them leaves some on... *)
Theorem C31_all_refuted : exists mc nst flags cpus ts s',
  idle_ok mc nst /\ obeys mc nst /\ flags_ok mc nst flags /\
  disable_cstates mc (CsText (s2l "all"%string)) cpus (idle_init flags [] 0 [] []) = (Ok ts, s') /\
  exists c i, In c (cs_targets mc cpus) /\ 0 <= i < nst c /\ id_flags s' c i = flag_text false.
Proof. exact all_refuted_l. Qed.
Print Assumptions C31_all_refuted.

(** ... or the C-states cannot be listed. *)
Theorem C31_all_fails_refuted : exists mc nst flags,
  idle_ok mc nst /\ flags_ok mc nst flags /\
  fst (get_cstates_info mc None (CsText (s2l "all"%string)) (idle_init flags [] 0 [] [])) = Exn EError.
Proof. exact all_fails_refuted_l. Qed.
Print Assumptions C31_all_fails_refuted.

(** Not so: when every CPU has one C-state, no C-state is listed. *)
Theorem C31_single_refuted : exists mc flags r,
  mc_cache mc = true /\
  (forall c f, In c (ci_online (mc_ci mc)) -> In f cst_fnames -> In (c, 0, f) (mc_files mc)) /\
  fst (get_cstates_info mc None (CsText (s2l "all"%string)) (idle_init flags [] 0 [] [])) = Ok r /\
  forall c info, In (c, info) r -> info = [].
Proof. exact single_refuted_l. Qed.
Print Assumptions C31_single_refuted.

(** Not so: when one CPU has no C-states, no C-states of any CPU can be listed. *)
Theorem C31_none_refuted : exists mc flags,
  mc_cache mc = true /\ (forall c, In c (ci_online (mc_ci mc)) -> c <> 7 -> forall i f, In i [0; 1; 2] -> In f cst_fnames -> In (c, i, f) (mc_files mc)) /\
  fst (get_cstates_info mc None (CsText (s2l "all"%string)) (idle_init flags [] 0 [] [])) = Exn ENotFound.
Proof. exact none_refuted_l. Qed.
Print Assumptions C31_none_refuted.

(** Not so: without caching, which is a choice of the caller, nothing can be listed. *)
Theorem C31_nocache_refuted : exists mc flags,
  mc_cache mc = false /\ idle_ok (MC (mc_ci mc) true (mc_files mc) (mc_text mc) (mc_store mc) (mc_driver mc) (mc_avail mc) (mc_hasgov mc) (mc_gstore mc)) (fun _ => 3) /\
  fst (get_cstates_info mc None (CsText (s2l "all"%string)) (idle_init flags [] 0 [] [])) = Exn ENotFound.
Proof. exact nocache_refuted_l. Qed.
Print Assumptions C31_nocache_refuted.

(** Not so: with CPU 0 offline nothing can be listed. *)
Theorem C31_cpu0_refuted : exists mc flags,
  mc_driver mc <> None /\ ~ In 0 (ci_online (mc_ci mc)) /\
  (forall c i f, In c (ci_online (mc_ci mc)) -> In i [0; 1; 2] -> In f cst_fnames -> In (c, i, f) (mc_files mc)) /\
  fst (get_cstates_info mc None (CsText (s2l "all"%string)) (idle_init flags [] 0 [] [])) = Exn EError.
Proof. exact cpu0_refuted_l. Qed.
Print Assumptions C31_cpu0_refuted.

(** Not so: when the C-state was set but reading it back failed, the list says the opposite of the kernel. *)
Theorem C31_stale_refuted : exists mc nst flags rf r s',
  idle_ok mc nst /\ obeys mc nst /\ flags_ok mc nst flags /\
  let s := irun mc [IToggle (CsList [s2l "C6"%string]) (Some [3]) false] (idle_init flags [] 0 rf []) in
  id_rf s = [] /\ get_cpu_cstate_info mc 3 (s2l "C6"%string) s = (Ok (Some r), s') /\
  exists cs, In (s2l "C6"%string, cs) r /\ shows_off cs false /\ id_flags s' 3 2 = flag_text true.
Proof. exact stale_refuted_l. Qed.
Print Assumptions C31_stale_refuted.

(** A case: eight CPUs with three C-states each; two of them are disabled on two CPUs. *)
Example C31_case :
  idle_ok xm3 (fun _ => 3) /\ flags_ok xm3 (fun _ => 3) all_on /\ obeys xm3 (fun _ => 3) /\
  fst (toggle_cstates xm3 (CsText (s2l "c6,Poll"%string)) (Some [2; 5]) false x0) =
    Ok [(2, [s2l "C6"%string; s2l "POLL"%string]); (5, [s2l "C6"%string; s2l "POLL"%string])] /\
  map (fun t => id_flags (irun xm3 [xoff] x0) (fst t) (snd t)) [(2, 0); (2, 1); (2, 2); (5, 2); (4, 2)] =
    [flag_text true; flag_text false; flag_text true; flag_text true; flag_text false] /\
  (exists r, fst (get_cstates_info xm3 (Some [5; 4; 5]) all_cs (irun xm3 [xoff] x0)) = Ok r /\ map fst r = [5; 4] /\
     map (fun ci => map (fun nc => (fst nc, dget str_eqb (snd nc) (s2l "disable"%string))) (snd ci)) r =
     [[(s2l "POLL"%string, Some (CInt 1)); (s2l "C1_ACPI"%string, Some (CInt 0)); (s2l "C6"%string, Some (CInt 1))];
      [(s2l "POLL"%string, Some (CInt 0)); (s2l "C1_ACPI"%string, Some (CInt 0)); (s2l "C6"%string, Some (CInt 0))]]).
Proof. exact idle_case_l. Qed.

Example C31_names_case : forall cpus, same_names xm3 (fun _ => 3) cpus.
Proof. exact xm3_names. Qed.

Example C31_refused_case :
  In 3 (cs_targets xm3 (Some [3])) /\ ~ is_all (CsList [s2l "C8"%string]) /\
  asked (CsList [s2l "C8"%string]) (own_names xm3 (fun _ => 3) 3) (s2l "C8"%string) /\
  ~ In (s2l "C8"%string) (own_names xm3 (fun _ => 3) 3) /\
  fst (toggle_cstates xm3 (CsList [s2l "C8"%string]) (Some [3]) false x0) = Exn EError /\
  In 9 (cs_targets xm3 (Some [9])) /\ ~ In 9 (ci_online (mc_ci xm3)).
Proof. exact idle_refused_case_l. Qed.

(** C49. What is read as the governor is what the kernel uses. *)
Theorem C49_read : forall mc nst, idle_ok mc nst -> gov_stores mc -> forall flags, flags_ok mc nst flags ->
  forall ops gov tick rf wf g s',
  let s := irun mc ops (idle_init flags gov tick rf wf) in
  get_current_governor mc s = (Ok g, s') -> g = strip (id_gov s) /\ id_gov s' = id_gov s.
Proof. exact gov_read. Qed.
Print Assumptions C49_read.

(** Setting the governor that succeeds sets it, and it is one the kernel offers; setting that fails changes nothing;
    C-states are never affected. *)
Theorem C49_set : forall mc nst, idle_ok mc nst -> gov_stores mc -> forall flags, flags_ok mc nst flags ->
  forall ops gov tick rf wf g r s',
  let s := irun mc ops (idle_init flags gov tick rf wf) in
  set_current_governor mc g s = (r, s') ->
  (r = Ok tt -> strip (id_gov s') = g /\ offered mc g) /\
  (r <> Ok tt -> id_gov s' = id_gov s) /\
  (forall c i, id_flags s' c i = id_flags s c i).
Proof. exact gov_set. Qed.
Print Assumptions C49_set.

(** The governor last set is the one that is read, whatever other calls are made in between. *)
Theorem C49_last_set : forall mc nst, idle_ok mc nst -> gov_stores mc -> forall flags, flags_ok mc nst flags ->
  forall ops ops2 gov tick rf wf g s1 g' s2,
  set_current_governor mc g (irun mc ops (idle_init flags gov tick rf wf)) = (Ok tt, s1) ->
  (forall o g, In o ops2 -> o <> ISetGovernor g) ->
  get_current_governor mc (irun mc ops2 s1) = (Ok g', s2) -> g' = g.
Proof. exact gov_last_set. Qed.
Print Assumptions C49_last_set.

(** No other call changes the governor. *)
Theorem C49_frame : forall mc nst, idle_ok mc nst -> forall flags, flags_ok mc nst flags ->
  forall ops gov tick rf wf o,
  let s := irun mc ops (idle_init flags gov tick rf wf) in
  (forall g, o <> ISetGovernor g) -> id_gov (istep mc o s) = id_gov s.
Proof. exact gov_untouched. Qed.
Print Assumptions C49_frame.

(** A governor that the kernel does not offer is refused. *)
Theorem C49_refused : forall mc nst, idle_ok mc nst -> forall flags, flags_ok mc nst flags ->
  forall ops gov tick rf wf g,
  let s := irun mc ops (idle_init flags gov tick rf wf) in
  ~ offered mc g -> fst (set_current_governor mc g s) <> Ok tt /\ id_gov (snd (set_current_governor mc g s)) = id_gov s.
Proof. exact gov_refused. Qed.
Print Assumptions C49_refused.

Theorem C49_set_succeeds : forall mc nst, idle_ok mc nst -> gov_accepts mc -> forall flags, flags_ok mc nst flags ->
  forall ops gov tick rf wf g,
  let s := irun mc ops (idle_init flags gov tick rf wf) in
  id_rf s = [] -> id_wf s = [] -> offered mc g -> fst (set_current_governor mc g s) = Ok tt.
Proof. exact gov_set_succeeds. Qed.
Print Assumptions C49_set_succeeds.

Theorem C49_get_succeeds : forall mc nst, idle_ok mc nst -> mc_hasgov mc = true -> forall flags, flags_ok mc nst flags ->
  forall ops gov tick rf wf,
  let s := irun mc ops (idle_init flags gov tick rf wf) in
  id_rf s = [] -> exists g, fst (get_current_governor mc s) = Ok g.
Proof. exact gov_get_succeeds. Qed.
Print Assumptions C49_get_succeeds.

(** Without [gov_stores]: a kernel that accepts the write and keeps its governor is not noticed. *)
Theorem C49_unnoticed_refuted : exists mc nst flags gov g s',
  idle_ok mc nst /\ offered mc g /\ set_current_governor mc g (idle_init flags gov 0 [] []) = (Ok tt, s') /\
  fst (get_current_governor mc s') = Ok g /\ strip (id_gov s') <> g.
Proof. exact gov_unnoticed_l. Qed.
Print Assumptions C49_unnoticed_refuted.

Example C49_case :
  idle_ok xmg (fun _ => 3) /\ gov_stores xmg /\ gov_accepts xmg /\ flags_ok xmg (fun _ => 3) all_on /\ offered xmg (s2l "teo"%string) /\ ~ offered xmg (s2l "haltpoll"%string) /\
  fst (set_current_governor xmg (s2l "teo"%string) x0) = Ok tt /\
  fst (get_current_governor xmg x0) = Ok (s2l "menu"%string) /\
  fst (get_current_governor xmg (irun xmg [xoff; IGovernor; ISetGovernor (s2l "teo"%string); ISetGovernor (s2l "haltpoll"%string); xoff] x0)) =
    Ok (s2l "teo"%string).
Proof. exact gov_case_l. Qed.
