(** Concrete machine for C17: 8 present CPUs, all online at first; CPU 0 has no control file; the
    kernel refuses to offline CPU 2. *)
From Verif Require Import Base L_Base M_CPUInfo S_CPUInfo L_Hotplug X_CPUInfo M_Online S_Online L_Online.

Definition x_ost : ost :=
  OST xsys (fun c => negb (c =? 0)) (fun c => (0 <=? c) && (c <? 8))
      (fun c online => if (c =? 2) && negb online then KFail else KObey)
      [0; 1; 2; 3; 4; 5; 6; 7] [] (after_hotplug xsys x_on []).

Lemma x_ost_ok : machine_ok x_ost.
Proof.
  split; [exact xsys_ok|]. split; [exact x_on_ok|].
  exists x_on, []. split; [exact x_on_ok|]. split; [constructor|reflexivity].
Qed.

(** A call that fails half-way leaves the CPUInfo object with the old online CPUs. *)
Lemma C17_stale_refuted_l : exists s cpus s' c,
  machine_ok s /\ ostep (OCall false cpus false) s = (Exn EError, s') /\
  ~ on_now s' c /\ In c (get_cpus (o_ci s')).
Proof.
  exists x_ost, (Some [1; 2]), (snd (ostep (OCall false (Some [1; 2]) false) x_ost)), 1.
  split; [exact x_ost_ok|]. split; [vm_compute; reflexivity|]. split.
  - apply inb_false. vm_compute. reflexivity.
  - apply inb_In. vm_compute. reflexivity.
Qed.
