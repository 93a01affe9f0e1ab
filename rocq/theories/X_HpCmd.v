(** Concrete machines for C63 and refutation witnesses. *)
From Coq Require Import Sorting.Sorted.
From Verif Require Import Base L_Base M_Text S_Text L_Text M_CPUInfo S_CPUInfo L_CPUInfo L_Hotplug X_CPUInfo
  M_OpTarget S_OpTarget L_OpTarget3 L_OpTarget5 X_OpTarget M_Online S_Online L_Online X_Online M_HpCmd S_HpCmd L_HpCmd.

(** [x_ost] (8 CPUs in two packages, CPU 0 has no control file, the kernel refuses to offline CPU 2) and
    the same machine with CPUs 1, 5 and 6 offline. *)
Definition x_part : ost :=
  OST xsys (fun c => negb (c =? 0)) (fun c => (0 <=? c) && (c <? 8))
      (fun c online => if (c =? 2) && negb online then KFail else KObey)
      [0; 2; 3; 4; 7] [] (after_hotplug xsys x_on []).

Lemma x_ost_host : host_ok x_ost.
Proof.
  split; [exact xsys_ok|]. split; [exact x_on_ok|]. cbn. repeat (constructor; [lia|]). constructor.
Qed.
Lemma x_part_host : host_ok x_part.
Proof.
  split; [exact xsys_ok|]. split; [|cbn; repeat (constructor; [lia|]); constructor].
  split; [|intros c; cbn; tauto]. repeat (constructor; [cbn; intuition discriminate|]). constructor.
Qed.

Lemma x_ost_off a : args_proper a -> off_ok x_ost a.
Proof.
  intros H. split; [exact x_ost_host|]. split; [exact xci_io|]. split; [vm_compute; discriminate|].
  split; [right; exact xci_modules|exact H].
Qed.

(** --packages 1 *)
Definition xo1 : otargs := OA None UNone None UNone (Some (Some [1])) [] [] false.
(** --cpus 5 --packages 0 *)
Definition xo2 : otargs := OA (Some (Some [5])) UNone None UNone (Some (Some [0])) [] [] false.
(** --cpus 0,3 *)
Definition xo3 : otargs := OA (Some (Some [0; 3])) UNone None UNone None [] [] false.
(** --cpus "" *)
Definition xo4 : otargs := OA (Some (Some [])) UNone None UNone None [] [] false.
(** --cpus 1-9 *)
Definition xo5 : otargs := OA (Some (Some [1; 9])) UNone None UNone None [] [] false.
(** --packages 1 --core-siblings 1 *)
Definition xo6 : otargs := OA None UNone None UNone (Some (Some [1])) [1] [] false.

Lemma xo_proper : args_proper xo1 /\ args_proper xo2 /\ args_proper xo3 /\ args_proper xo4 /\ args_proper xo5 /\
  args_proper xo6.
Proof. repeat split. Qed.

(** CPU 0 is part of package 0, it was not given by number, and yet the run fails because CPU 0 has no
    control file. CPU 5 is offline by then. *)
Lemma C63_indirect_refuted_l : exists s a s' c,
  off_ok s a /\ off_target s a c /\ (forall l, oa_cpus a = Some (Some l) -> ~ In c l) /\
  o_file s c = false /\ o_dir s c = true /\
  hp_run (HOffline a) s = (Exn ENotSupported, s') /\ exists x, on_now s x /\ ~ on_now s' x.
Proof.
  exists x_ost, xo2, (snd (hp_run (HOffline xo2) x_ost)), 0.
  split; [apply x_ost_off; apply xo_proper|]. split.
  { split; [|split; left; reflexivity]. right; right; right; right.
    split; [intros H; exact H|]. split; [intros H; exact H|]. exists 0. split; [left; now left|].
    exists (TL 0 0 0 0 0 0). vm_compute. split; [now left|]. repeat split; discriminate. }
  split. { intros l E. injection E as <-. cbn. intuition discriminate. }
  split; [reflexivity|]. split; [reflexivity|]. split; [vm_compute; reflexivity|].
  exists 5. split; [apply inb_In; vm_compute; reflexivity|apply inb_false; vm_compute; reflexivity].
Qed.

(** The same machine, but all CPUs have control files and the kernel does as told except for CPU 7. *)
Definition x_last : ost :=
  OST xsys (fun _ => true) (fun c => (0 <=? c) && (c <? 8))
      (fun c online => if (c =? 7) && negb online then KFail else KObey)
      [0; 1; 2; 3; 4; 5; 6; 7] [] (after_hotplug xsys x_on []).

Lemma x_last_off a : args_proper a -> off_ok x_last a.
Proof.
  intros H. split; [exact x_ost_host|]. split; [exact xci_io|]. split; [vm_compute; discriminate|].
  split; [right; exact xci_modules|exact H].
Qed.

(** An empty list of CPU numbers is taken as "all CPUs". *)
Lemma C63_empty_list_refuted_l : exists s a s' c,
  off_ok s a /\ oa_cpus a = Some (Some []) /\ oa_cores a = UNone /\ oa_modules a = None /\ oa_dies a = UNone /\
  oa_packages a = None /\ snd (hp_run (HOffline a) s) = s' /\ on_now s c /\ ~ on_now s' c.
Proof.
  exists x_last, xo4, (snd (hp_run (HOffline xo4) x_last)), 3.
  split; [apply x_last_off; apply xo_proper|]. repeat (split; [reflexivity|]).
  split; [apply inb_In; vm_compute; reflexivity|apply inb_false; vm_compute; reflexivity].
Qed.
