(** C31 and C49: systems without an idle driver. *)
From Coq Require Import Ascii String.
From Verif Require Import Base M_CPUInfo S_CPUInfo X_CPUInfo M_Text M_CPUIdle S_CPUIdle X_CPUIdle L_CPUIdle8.

(** Without the file of the idle driver, after any calls and with any I/O errors, every call fails (with ErrorNotSupported, if reading works), and no
    C-state and no governor is changed (case: x_no_driver). *)
Theorem C31_no_driver : forall mc, mc_driver mc = None -> forall flags gov ops tick rf wf csnames cpus en g,
  let s := irun mc ops (idle_init flags gov tick rf wf) in
  (forall r, fst (get_idle_driver mc s) <> Ok r) /\ (forall r, fst (get_cstates_info mc cpus csnames s) <> Ok r) /\
  (forall r, fst (toggle_cstates mc csnames cpus en s) <> Ok r) /\ (forall r, fst (get_current_governor mc s) <> Ok r) /\
  (forall r, fst (set_current_governor mc g s) <> Ok r) /\
  (id_rf s = [] -> fst (get_idle_driver mc s) = Exn ENotSupported /\ fst (toggle_cstates mc csnames cpus en s) = Exn ENotSupported) /\
  (forall c i, id_flags s c i = flags c i) /\ id_gov s = gov.
Proof. exact no_driver_l. Qed.
Print Assumptions C31_no_driver.

(** With a driver file that has nothing but white space in it no C-states are listed or changed (case: x_no_driver). *)
Theorem C31_blank_driver : forall mc, (exists d, mc_driver mc = Some d /\ strip d = []) -> forall flags gov ops tick rf wf csnames cpus en,
  let s := irun mc ops (idle_init flags gov tick rf wf) in
  (forall r, fst (get_cstates_info mc cpus csnames s) <> Ok r) /\ (forall r, fst (toggle_cstates mc csnames cpus en s) <> Ok r) /\
  (forall c i, id_flags s c i = flags c i).
Proof. exact blank_driver_l. Qed.
Print Assumptions C31_blank_driver.

(** The example machine, which has C-states, with another driver file. *)
Definition x_driver (d : option str) : machine :=
  MC xci true (mc_files xm3) xtext (fun _ _ _ new => Some new) d (Some (xline_of "ladder menu teo")) true (fun _ new => Some new).
Example x_no_driver : mc_driver (x_driver None) = None /\ strip (xline_of " ") = [] /\
  fst (toggle_cstates (x_driver None) all_cs None false x0) = Exn ENotSupported /\
  fst (toggle_cstates (x_driver (Some (xline_of " "))) all_cs None false x0) = Exn ENotSupported /\
  (exists r, fst (toggle_cstates (x_driver (Some (xline_of "intel_idle"))) all_cs None false x0) = Ok r).
Proof. split; [reflexivity|]. split; [reflexivity|]. split; [reflexivity|]. split; [reflexivity|]. eexists. vm_compute. reflexivity. Qed.
