(** Example objects and refutation witnesses for operation targets. *)
From Verif Require Import Base L_Base M_CPUInfo S_CPUInfo L_CPUInfo L_CPUInfo2 L_Hotplug X_CPUInfo
  M_OpTarget S_OpTarget L_OpTarget L_OpTarget2 L_OpTarget3 L_OpTarget4 L_OpTarget5.

Lemma xci_io : io_dies_exact xci.
Proof. apply hotplug_io_exact_l; [exact xsys_ok|exact x_on_ok|constructor|exact x_covered]. Qed.
Lemma xci_modules : modules_unique (ci_topo xci).
Proof.
  destruct (after_hotplug_inv xsys [] x_on xsys_ok x_on_ok ltac:(constructor)).
  eapply inv_modules_unique; eauto. exact x_modules.
Qed.
Lemma xci_on : ci_online xci <> [].
Proof. vm_compute. discriminate. Qed.

(** CPU 0 and die 1 of package 0; package 1 is named as well, but counts for nothing beside dies. *)
Definition xa1 : otargs := OA (Some (Some [0])) UNone None (UDict [(0, [1])]) (Some (Some [1])) [] [] false.
(** CPU 0 and die 1 of package 0, both by number. *)
Definition xa2 : otargs := OA (Some (Some [0])) UNone None (UNums (Some [1])) (Some (Some [0])) [] [] false.
(** The I/O die of package 0. *)
Definition xa3 : otargs := OA None UNone None (UNums (Some [2])) (Some (Some [0])) [] [] false.
(** A sibling index no CPU has. *)
Definition xa4 : otargs := OA None UNone None UNone None [5] [] false.
(** Core 0 without a package is ambiguous. *)
Definition xa5 : otargs := OA None (UNums (Some [0])) None UNone None [] [] false.
(** Die 1 of package 0, given as CPUs, and all of package 1. *)
Definition xa6 : otargs := OA (Some (Some [1; 3])) UNone None UNone (Some (Some [1])) [] [] false.

Definition xobj (a : otargs) : optarget :=
  match ot_init xci a with Ok o => o | Exn _ => OT [] [] [] [] [] [] [] false None None None end.
Lemma xobj_asked a qs : (exists o, ot_init xci a = Ok o) ->
  asked xci a qs (fold_left (fun o q => ask xci q o) qs (xobj a)).
Proof. intros (o & E). exists o. split; [exact E|]. unfold xobj. now rewrite E. Qed.

Lemma xa_proper : args_proper xa1 /\ args_proper xa2 /\ args_proper xa3 /\ args_proper xa4 /\ args_proper xa6.
Proof.
  split; [|repeat split].
  split; [exact I|]. intros p l H. destruct H as [H|[]]. injection H as <- <-. discriminate.
Qed.
Lemma xa_siblings a : siblings_ok xci a.
Proof. right. exact xci_modules. Qed.

Lemma xa3_no_target : ~ exists c, target_cpu xci xa3 c.
Proof.
  assert (E : exists o s, ot_init xci xa3 = Ok o /\ ot_get_cpus xci o = (Exn ENoCPUTarget, s))
    by (do 2 eexists; split; vm_compute; reflexivity).
  destruct E as (o & s & E1 & E2).
  apply (no_cpus_l xci xa3 [] o xci_wf xci_io xci_on (xa_siblings _) (proj1 (proj2 (proj2 xa_proper)))
           (ex_intro _ o (conj E1 eq_refl)) ENoCPUTarget s E2).
Qed.
Lemma xa4_no_target : ~ exists c, target_cpu xci xa4 c.
Proof.
  assert (E : exists o s, ot_init xci xa4 = Ok o /\ ot_get_cpus xci o = (Exn ENoTarget, s))
    by (do 2 eexists; split; vm_compute; reflexivity).
  destruct E as (o & s & E1 & E2).
  apply (no_cpus_l xci xa4 [] o xci_wf xci_io xci_on (xa_siblings _) (proj1 (proj2 (proj2 (proj2 xa_proper))))
           (ex_intro _ o (conj E1 eq_refl)) ENoTarget s E2).
Qed.

(** Package 0 is targeted although only an I/O die of it was asked for. *)
Lemma C42_io_die_package_refuted_l : exists ci a ot r ot' p c,
  wf_ci ci /\ io_dies_exact ci /\ asked ci a [] ot /\
  oa_dies a = UNums (Some [2]) /\ ot_get_packages ci true ot = (Ok r, ot') /\ In p r /\
  cpu_in_pkg (ci_topo ci) p c /\ ~ target_cpu ci a c.
Proof.
  exists xci, xa3, (xobj xa3), [0], (snd (ot_get_packages xci true (xobj xa3))), 0, 0.
  split; [exact xci_wf|]. split; [exact xci_io|].
  split; [apply (xobj_asked xa3 []); eexists; vm_compute; reflexivity|].
  split; [reflexivity|]. split; [vm_compute; reflexivity|]. split; [now left|].
  split; [|intros H; apply xa3_no_target; eauto].
  exists (TL 0 0 0 0 0 0). vm_compute. split; [now left|]. repeat split; discriminate.
Qed.

(** Every package is targeted although the sibling filter leaves no CPU. *)
Lemma C42_filtered_package_refuted_l : exists ci a ot r ot' p c,
  wf_ci ci /\ io_dies_exact ci /\ asked ci a [] ot /\
  oa_core_sib a = [5] /\ ot_get_packages ci true ot = (Ok r, ot') /\ In p r /\
  cpu_in_pkg (ci_topo ci) p c /\ ~ target_cpu ci a c.
Proof.
  exists xci, xa4, (xobj xa4), [0; 1], (snd (ot_get_packages xci true (xobj xa4))), 0, 0.
  split; [exact xci_wf|]. split; [exact xci_io|].
  split; [apply (xobj_asked xa4 []); eexists; vm_compute; reflexivity|].
  split; [reflexivity|]. split; [vm_compute; reflexivity|]. split; [now left|].
  split; [|intros H; apply xa4_no_target; eauto].
  exists (TL 0 0 0 0 0 0). vm_compute. split; [now left|]. repeat split; discriminate.
Qed.

(** The strict question is answered from what a non-strict one left behind. *)
Lemma C42_strict_refuted_l : exists ci a qs ot r ot',
  wf_ci ci /\ io_dies_exact ci /\ asked ci a qs ot /\
  ot_get_packages ci true ot = (Ok r, ot') /\ ~ packages_only ci a.
Proof.
  set (o := ask xci (QPackages false) (xobj xa1)).
  exists xci, xa1, [QPackages false], o, [1], (snd (ot_get_packages xci true o)).
  split; [exact xci_wf|]. split; [exact xci_io|].
  split; [apply (xobj_asked xa1 [QPackages false]); eexists; vm_compute; reflexivity|].
  split; [vm_compute; reflexivity|].
  assert (E : exists oo s, ot_init xci xa1 = Ok oo /\ ot_get_packages xci true oo = (Exn ENoTarget, s))
    by (do 2 eexists; split; vm_compute; reflexivity).
  destruct E as (oo & s & E1 & E2).
  now apply (packages_fail_l xci xa1 [] oo xci_wf xci_io xci_on (xa_siblings _) (proj1 xa_proper)
           (ex_intro _ oo (conj E1 eq_refl)) true ENoTarget s).
Qed.
