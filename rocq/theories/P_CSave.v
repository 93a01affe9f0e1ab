(** C32: saving and restoring the settings of C-states. *)
From Coq Require Import Ascii String ZifyBool.
From Verif Require Import Base M_CPUInfo S_CPUInfo M_Text M_Human M_CPUIdle S_CPUIdle M_CSave S_CSave L_CSave L_CSave3 L_CSave4 X_CPUInfo X_CPUIdle X_CSave.

(** C32. Whatever was done before saving, and whatever happened between saving and restoring, and whatever I/O errors
    there are in the restoring process: when restoring succeeds, every C-state of every saved CPU is as it was when it was
    saved, and no other is changed. Missing: CPUs with different C-states, errors of reading before saving, and the
    properties, which are in the same file. A file with a C-state that is on for some CPUs and off for others cannot be
    restored at all (C32_mixed, C32_mixed_refuted). *)
Theorem C32_restore_partial : forall mc nst pnames, idle_ok mc nst -> plain_names mc nst pnames ->
  forall flags gov tick wf ops cpus d s1, flags_ok mc nst flags ->
  let s := irun mc ops (idle_init flags gov tick [] wf) in
  save_cstates mc cpus s = (Ok d, s1) -> same_names mc nst (cs_targets mc cpus) ->
  forall flags' gov' tick' rf' wf' ops' s2, flags_ok mc nst flags' ->
  let s' := irun mc ops' (idle_init flags' gov' tick' rf' wf') in
  restore mc pnames d s' = (Ok tt, s2) ->
  forall c i, (In c (cs_targets mc cpus) -> 0 <= i < nst c -> id_flags s2 c i = id_flags s c i) /\
    (~ (In c (cs_targets mc cpus) /\ 0 <= i < nst c) -> id_flags s2 c i = id_flags s' c i).
Proof. exact save_restore. Qed.
Print Assumptions C32_restore_partial.

(** Saving changes no setting. *)
Theorem C32_save_frame : forall mc nst, idle_ok mc nst -> forall flags gov tick rf wf ops cpus, flags_ok mc nst flags ->
  let s := irun mc ops (idle_init flags gov tick rf wf) in
  (forall c i, id_flags (snd (save_cstates mc cpus s)) c i = id_flags s c i) /\ id_gov (snd (save_cstates mc cpus s)) = id_gov s.
Proof. exact save_frame. Qed.
Print Assumptions C32_save_frame.

Theorem C32_save_succeeds : forall mc nst, idle_ok mc nst -> forall flags gov tick wf ops cpus, flags_ok mc nst flags ->
  incl (cs_targets mc cpus) (ci_online (mc_ci mc)) -> same_names mc nst (cs_targets mc cpus) ->
  exists d, fst (save_cstates mc cpus (irun mc ops (idle_init flags gov tick [] wf))) = Ok d.
Proof. exact save_succeeds. Qed.
Print Assumptions C32_save_succeeds.

(** Restoring succeeds when no C-state is on for some of the saved CPUs and off for others, and I/O works. *)
Theorem C32_restore_succeeds : forall mc nst pnames, idle_ok mc nst -> obeys mc nst -> plain_names mc nst pnames ->
  same_names mc nst (ci_online (mc_ci mc)) ->
  forall flags gov tick wf ops cpus d s1, flags_ok mc nst flags ->
  let s := irun mc ops (idle_init flags gov tick [] wf) in
  save_cstates mc cpus s = (Ok d, s1) -> uniform mc nst (id_flags s) (cs_targets mc cpus) ->
  forall flags' gov' tick' rf' wf' ops', flags_ok mc nst flags' ->
  let s' := irun mc ops' (idle_init flags' gov' tick' rf' wf') in
  id_rf s' = [] -> id_wf s' = [] -> fst (restore mc pnames d s') = Ok tt.
Proof. exact restore_succeeds. Qed.
Print Assumptions C32_restore_succeeds.

(** Whatever the outcome of restoring, nothing but the C-states of the saved CPUs changes, and every C-state is either on
    or off. *)
Theorem C32_restore_frame : forall mc nst pnames, idle_ok mc nst -> plain_names mc nst pnames ->
  forall flags gov tick wf ops cpus d s1, flags_ok mc nst flags ->
  let s := irun mc ops (idle_init flags gov tick [] wf) in
  save_cstates mc cpus s = (Ok d, s1) -> same_names mc nst (cs_targets mc cpus) ->
  forall flags' gov' tick' rf' wf' ops', flags_ok mc nst flags' ->
  let s' := irun mc ops' (idle_init flags' gov' tick' rf' wf') in
  let s2 := snd (restore mc pnames d s') in
  (forall c i, ~ (In c (cs_targets mc cpus) /\ 0 <= i < nst c) -> id_flags s2 c i = id_flags s' c i) /\
  (forall c i, In c (ci_online (mc_ci mc)) -> 0 <= i < nst c -> exists off, id_flags s2 c i = flag_text off) /\
  id_gov s2 = id_gov s'.
Proof. exact restore_frame. Qed.
Print Assumptions C32_restore_frame.

(** A file with a C-state that is on for some of the saved CPUs and off for others is never restored. *)
Theorem C32_mixed : forall mc nst pnames, idle_ok mc nst -> plain_names mc nst pnames ->
  forall flags gov tick wf ops cpus d s1, flags_ok mc nst flags ->
  let s := irun mc ops (idle_init flags gov tick [] wf) in
  save_cstates mc cpus s = (Ok d, s1) -> same_names mc nst (cs_targets mc cpus) ->
  ~ uniform mc nst (id_flags s) (cs_targets mc cpus) ->
  forall flags' gov' tick' rf' wf' ops', flags_ok mc nst flags' ->
  fst (restore mc pnames d (irun mc ops' (idle_init flags' gov' tick' rf' wf'))) <> Ok tt.
Proof. exact mixed_fails. Qed.
Print Assumptions C32_mixed.

Theorem C32_mixed_refuted : exists mc nst pnames flags gov ops d,
  idle_ok mc nst /\ obeys mc nst /\ plain_names mc nst pnames /\ same_names mc nst (ci_online (mc_ci mc)) /\ flags_ok mc nst flags /\
  let s := irun mc ops (idle_init flags gov 0 [] []) in
  fst (save_cstates mc None s) = Ok d /\ (forall ops', fst (restore mc pnames d (irun mc ops' (idle_init flags gov 0 [] []))) <> Ok tt).
Proof. exact mixed_refuted_l. Qed.
Print Assumptions C32_mixed_refuted.

Example C32_hyps : idle_ok xm3 (fun _ => 3) /\ obeys xm3 (fun _ => 3) /\ plain_names xm3 (fun _ => 3) xpnames /\ flags_ok xm3 (fun _ => 3) all_on /\
  same_names xm3 (fun _ => 3) (ci_online (mc_ci xm3)) /\ uniform xm3 (fun _ => 3) (id_flags (irun xm3 [xoff] x0)) [2; 5].
Proof. exact csave_hyps_l. Qed.

Example C32_case :
  fst (save_cstates xm3 (Some [2; 5]) (irun xm3 [xoff] x0)) = Ok xsaved /\
  fst (restore xm3 xpnames xsaved (irun xm3 [xother] x0)) = Ok tt /\
  map (fun t => id_flags (snd (restore xm3 xpnames xsaved (irun xm3 [xother] x0))) (fst t) (snd t)) [(2, 0); (2, 1); (2, 2); (5, 2); (4, 2); (3, 2)] =
    [flag_text true; flag_text false; flag_text true; flag_text true; flag_text true; flag_text false].
Proof. exact csave_case_l. Qed.

(** A file can also say "all" instead of CPU numbers: then the C-state is set on every online CPU, and no other setting
    changes. *)
Theorem C32_all : forall mc nst pnames, idle_ok mc nst -> plain_names mc nst pnames ->
  forall flags gov tick rf wf ops s2, flags_ok mc nst flags ->
  let s := irun mc ops (idle_init flags gov tick rf wf) in
  forall c0 i0 (off : bool), In c0 (ci_online (mc_ci mc)) -> 0 <= i0 < nst c0 ->
  restore mc pnames [(cs_name mc c0 i0, [(s2l "value"%string, CStr (s2l (if off then "off" else "on")%string), s2l "all"%string)])] s = (Ok tt, s2) ->
  forall c i, let chosen := In c (ci_online (mc_ci mc)) /\ 0 <= i < nst c /\ cs_name mc c i = cs_name mc c0 i0 in
    (chosen -> id_flags s2 c i = flag_text off) /\ (~ chosen -> id_flags s2 c i = id_flags s c i).
Proof. exact restore_all. Qed.
Print Assumptions C32_all.

Example C32_all_ex :
  let r := restore xm3 xpnames [(s2l "C6"%string, [(s2l "value"%string, CStr (s2l "off"%string), s2l "all"%string)])] (irun xm3 [xother] x0) in
  cs_name xm3 0 2 = s2l "C6"%string /\ fst r = Ok tt /\
  map (fun t => id_flags (snd r) (fst t) (snd t)) [(0, 2); (3, 2); (7, 2); (3, 1)] = [flag_text true; flag_text true; flag_text true; flag_text false].
Proof. split; [reflexivity|]. split; vm_compute; reflexivity. Qed.

(** ** C33: the C-states printed *)

(** Every C-state of every CPU is listed once under each of its values, with the CPUs that have it. *)
Theorem C33_cstates : forall items keys, dict_items items -> let a := build_aggr_rcsinfo items keys in
  (forall n key val cpus, says_cs a n key val cpus ->
     cpus <> [] /\ NoDup cpus /\ In key keys /\ forall c, In c cpus <-> known_cs items c n key val) /\
  (forall c n key val, known_cs items c n key val -> In key keys -> exists cpus, says_cs a n key val cpus /\ In c cpus) /\
  (forall n key val cpus1 cpus2, says_cs a n key val cpus1 -> says_cs a n key val cpus2 -> cpus1 = cpus2).
Proof. exact rcs_partition. Qed.
Print Assumptions C33_cstates.

(** A CPU is printed as having a C-state on (off) just if the kernel has it on (off). *)
Theorem C33_cstates_exact : forall mc nst, idle_ok mc nst -> forall flags, flags_ok mc nst flags ->
  forall ops gov tick wf csnames cpus skip_ro a s',
  aggr_cstates mc csnames cpus skip_ro (irun mc ops (idle_init flags gov tick [] wf)) = (Ok (Some a), s') ->
  (is_all csnames -> same_names mc nst (cs_targets mc cpus)) ->
  forall n off c,
  (exists l, says_cs a n (s2l "disable"%string) (CInt (if off : bool then 1 else 0)) l /\ In c l) <->
  (In c (cs_targets mc cpus) /\ asked csnames (own_names mc nst c) n /\
   exists i, 0 <= i < nst c /\ n = cs_name mc c i /\ id_flags s' c i = flag_text off).
Proof. exact printed_exact. Qed.
Print Assumptions C33_cstates_exact.

Example C33_cstates_ex :
  match aggr_cstates xm3 all_cs None true (irun xm3 [xoff] x0) with
  | (Ok (Some a), _) => a =
      [(s2l "POLL"%string, [(s2l "disable"%string, [(CInt 0, [0; 1; 3; 4; 6; 7]); (CInt 1, [2; 5])])]);
       (s2l "C1_ACPI"%string, [(s2l "disable"%string, [(CInt 0, [0; 1; 2; 3; 4; 5; 6; 7])])]);
       (s2l "C6"%string, [(s2l "disable"%string, [(CInt 0, [0; 1; 3; 4; 6; 7]); (CInt 1, [2; 5])])])]
  | _ => False
  end.
Proof. exact printed_case_l. Qed.
