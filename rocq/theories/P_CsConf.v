(** C66: 'pepc cstates config'. *)
From Coq Require Import Ascii String.
From Verif Require Import Base M_CPUInfo S_CPUInfo M_Text M_Human M_CPUIdle S_CPUIdle M_CsConf S_CsConf L_CsConf L_CsConf3 L_CsConf4 L_CsConf5 X_CPUIdle X_CsConf.

(** C66. After the command succeeded, whatever happened before, every C-state of the target CPUs is as the last option
    that names it says, and all others are as before. Of an option that is typed more than once the last value counts, at
    the place of the first. Missing: "all" when the CPUs have different C-states (C31_all_refuted). *)
Theorem C66_config_partial : forall mc nst, idle_ok mc nst -> forall flags, flags_ok mc nst flags ->
  forall ops gov tick rf wf cpus typed l s',
  let s := irun mc ops (idle_init flags gov tick rf wf) in
  kept typed l -> cstates_config mc cpus typed (cc_init s) = (Ok tt, s') -> all_same mc nst cpus l ->
  (forall c i en, decided mc nst cpus l c i en -> id_flags (cc_idle s') c i = flag_text (negb en)) /\
  (forall c i, (forall x en, In x l -> ~ asks mc nst cpus x c i en) -> id_flags (cc_idle s') c i = id_flags s c i).
Proof. exact config_exact. Qed.
Print Assumptions C66_config_partial.

(** Which options count is determined by what was typed, and when none is repeated, all of them do. *)
Theorem C66_kept : forall typed,
  (exists l, kept typed l) /\ (forall l l', kept typed l -> kept typed l' -> l = l') /\ (NoDup (map fst typed) -> kept typed typed).
Proof. intros typed. split; [exists (fold_left add_oarg typed []); apply collect_kept|]. split; [apply kept_unique|apply kept_same]. Qed.
Print Assumptions C66_kept.

(** Whatever the outcome, no C-state changes that no option names. *)
Theorem C66_only : forall mc nst, idle_ok mc nst -> forall flags, flags_ok mc nst flags ->
  forall ops gov tick rf wf cpus typed l c i,
  let s := irun mc ops (idle_init flags gov tick rf wf) in kept typed l ->
  (forall x en t, In x l -> toggle_opt x en t -> ~ toggles mc nst (CsText t) (Some cpus) c i) ->
  id_flags (cc_idle (snd (cstates_config mc cpus typed (cc_init s)))) c i = id_flags s c i.
Proof. exact config_frame. Qed.
Print Assumptions C66_only.

(** The other options: those with a value are set, all at once and after everything else, those without are printed. *)
Theorem C66_properties : forall mc nst, idle_ok mc nst -> forall flags, flags_ok mc nst flags ->
  forall ops gov tick rf wf cpus typed l s' sets questions,
  let s := irun mc ops (idle_init flags gov tick rf wf) in kept typed l ->
  cstates_config mc cpus typed (cc_init s) = (Ok tt, s') -> picks setting l sets -> picks question l questions ->
  (forall x, In (EvSet x) (cc_ev s') <-> x = sets /\ x <> []) /\ (forall x, In (EvPrint x) (cc_ev s') <-> x = questions /\ x <> []) /\
  (forall x a b, cc_ev s' = a ++ EvSet x :: b -> b = []).
Proof. exact config_events. Qed.
Print Assumptions C66_properties.

(** What is printed after the last change is what the kernel says. Missing: errors of reading (C31_stale_refuted). *)
Theorem C66_told_partial : forall mc nst, idle_ok mc nst -> forall flags, flags_ok mc nst flags ->
  forall ops gov tick wf cpus typed a x b en t s',
  let s := irun mc ops (idle_init flags gov tick [] wf) in
  kept typed (a ++ x :: b) -> toggle_opt x en t -> (forall y en' t', In y b -> ~ toggle_opt y en' t') ->
  cstates_config mc cpus typed (cc_init s) = (Ok tt, s') -> (is_all (CsText t) -> same_names mc nst cpus) ->
  exists r, In (EvList (CsText t) r) (cc_ev s') /\ NoDup (map fst r) /\ (forall c, In c cpus <-> In c (map fst r)) /\
    forall c info, In (c, info) r -> tells mc nst (id_flags (cc_idle s')) c (asked (CsText t) (own_names mc nst c)) info.
Proof. exact config_told. Qed.
Print Assumptions C66_told_partial.

(** '--enable' or '--disable' without a value lists all the C-states. *)
Theorem C66_lists_partial : forall mc nst, idle_ok mc nst -> forall flags, flags_ok mc nst flags ->
  forall ops gov tick wf cpus o s',
  let s := irun mc ops (idle_init flags gov tick [] wf) in
  o = s2l "enable"%string \/ o = s2l "disable"%string -> incl cpus (ci_online (mc_ci mc)) -> same_names mc nst cpus ->
  cstates_config mc cpus [(o, None)] (cc_init s) = (Ok tt, s') ->
  exists r, cc_ev s' = [EvList (CsText (s2l "all"%string)) r] /\ NoDup (map fst r) /\ (forall c, In c cpus <-> In c (map fst r)) /\
    forall c info, In (c, info) r -> tells mc nst (id_flags (cc_idle s')) c (fun n => In n (own_names mc nst c)) info.
Proof. exact config_lists. Qed.
Print Assumptions C66_lists_partial.

(** Whatever I/O errors happen: a command that succeeds lists the C-states again after every change, and lists all of
    them when '--enable' or '--disable' has no value. *)
Theorem C66_listed : forall mc nst, idle_ok mc nst -> forall flags, flags_ok mc nst flags ->
  forall ops gov tick rf wf cpus typed l s',
  let s := irun mc ops (idle_init flags gov tick rf wf) in
  kept typed l -> cstates_config mc cpus typed (cc_init s) = (Ok tt, s') ->
  (forall x en t, In x l -> toggle_opt x en t -> exists r, In (EvList (CsText t) r) (cc_ev s')) /\
  (forall o, o = s2l "enable"%string \/ o = s2l "disable"%string -> In (o, None) l \/ In (o, Some []) l ->
     exists r, In (EvList (CsText (s2l "all"%string)) r) (cc_ev s')).
Proof. exact config_listed. Qed.
Print Assumptions C66_listed.

(** The command succeeds when the CPUs are online and have the C-states named, and no I/O error happens. *)
Theorem C66_succeeds : forall mc nst, idle_ok mc nst -> obeys mc nst -> forall flags, flags_ok mc nst flags ->
  forall ops gov tick wf cpus typed l,
  let s := irun mc ops (idle_init flags gov tick [] wf) in
  id_wf s = [] -> typed <> [] -> kept typed l -> incl cpus (ci_online (mc_ci mc)) -> all_same mc nst cpus l ->
  (forall o, In (o, None) l \/ In (o, Some []) l -> o = s2l "enable"%string \/ o = s2l "disable"%string -> same_names mc nst cpus) ->
  (forall x en t c n, In x l -> toggle_opt x en t -> In c cpus -> asked (CsText t) (own_names mc nst c) n -> In n (own_names mc nst c)) ->
  exists s', cstates_config mc cpus typed (cc_init s) = (Ok tt, s').
Proof. exact config_succeeds. Qed.
Print Assumptions C66_succeeds.

(** A C-state that a CPU does not have, a CPU that is not online, and a command without options are refused. *)
Theorem C66_refused : forall mc nst, idle_ok mc nst -> forall flags, flags_ok mc nst flags ->
  forall ops gov tick rf wf cpus typed l x en t s',
  let s := irun mc ops (idle_init flags gov tick rf wf) in
  kept typed l -> In x l -> toggle_opt x en t ->
  (exists c n, In c cpus /\ t <> s2l "all"%string /\ asked (CsText t) (own_names mc nst c) n /\ ~ In n (own_names mc nst c)) \/
  (exists c, In c cpus /\ ~ In c (ci_online (mc_ci mc))) ->
  cstates_config mc cpus typed (cc_init s) <> (Ok tt, s').
Proof. exact config_refused. Qed.
Print Assumptions C66_refused.

Theorem C66_no_option : forall mc cpus s, cstates_config mc cpus [] s = (Exn EError, s).
Proof. exact config_none. Qed.
Print Assumptions C66_no_option.

(** Not so: the last option typed that names a C-state does not always decide ("--disable all --enable C1_ACPI --disable
    C6" leaves POLL enabled: the first value of '--disable' is forgotten). *)
Theorem C66_repeated_refuted : exists mc nst flags cpus typed s' c i en,
  idle_ok mc nst /\ obeys mc nst /\ flags_ok mc nst flags /\ same_names mc nst cpus /\
  cstates_config mc cpus typed (cc_init (idle_init flags [] 0 [] [])) = (Ok tt, s') /\
  decided mc nst cpus typed c i en /\ id_flags (cc_idle s') c i <> flag_text (negb en).
Proof. exact repeated_l. Qed.
Print Assumptions C66_repeated_refuted.

(** Not so: a command that fails, because of a name that does not exist, may have changed C-states. *)
Theorem C66_halfway_refuted : exists mc nst flags cpus typed e s' c i,
  idle_ok mc nst /\ obeys mc nst /\ flags_ok mc nst flags /\ NoDup (map fst typed) /\
  cstates_config mc cpus typed (cc_init (idle_init flags [] 0 [] [])) = (Exn e, s') /\ id_flags (cc_idle s') c i <> flags c i.
Proof. exact halfway_l. Qed.
Print Assumptions C66_halfway_refuted.

(** A case: "--disable all --pkg-cstate-limit PC2 --c1-demotion --enable c1_acpi". *)
Example C66_case :
  let s' := snd (cstates_config xm3 [2; 5] x_typed (cc_init x0)) in
  fst (cstates_config xm3 [2; 5] x_typed (cc_init x0)) = Ok tt /\
  map (fun t => id_flags (cc_idle s') (fst t) (snd t)) [(2, 0); (2, 1); (2, 2); (5, 0); (4, 0)] =
    [flag_text true; flag_text false; flag_text true; flag_text true; flag_text false] /\
  map (fun e => match e with EvList _ _ => 1 | EvPrint _ => 2 | EvSet _ => 3 end) (cc_ev s') = [2; 1; 1; 3] /\
  last (cc_ev s') (EvPrint []) = EvSet [(s2l "pkg_cstate_limit"%string, s2l "PC2"%string)].
Proof. exact x_case_l. Qed.

Example C66_applies : kept x_typed x_typed /\ all_same xm3 (fun _ => 3) [2; 5] x_typed /\
  (forall x en t c n, In x x_typed -> toggle_opt x en t -> In c [2; 5] ->
     asked (CsText t) (own_names xm3 (fun _ => 3) c) n -> In n (own_names xm3 (fun _ => 3) c)).
Proof. split; [exact x_kept|]. split; [exact x_all_same|exact x_possible]. Qed.
