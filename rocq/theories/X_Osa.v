(** Concrete cases for typo suggestions. *)
From Verif Require Import Base L_Base M_Text S_Text L_Text M_Osa S_Osa L_Osa.

(** An empty option that happens to be the closest hides the others. *)
Lemma C40_empty_option_refuted_l : exists s strings maxd cs o d,
  In o strings /\ is_distance (folded cs s) (folded cs o) d /\ d <= maxd /\
  closest_match s strings maxd cs = Ok None.
Proof.
  exists (s2l "a"), [[]; s2l "ab"], 2, false, (s2l "ab"), 1.
  split; [cbn; tauto|]. split; [apply osa_distance_spec; vm_compute; reflexivity|].
  split; [lia|]. vm_compute. reflexivity.
Qed.

(** The triangle inequality does not hold: "ca" -> "ac" -> "abc". *)
Lemma C40_triangle_refuted_l : exists a b c x y z,
  osa_distance a b = Ok x /\ osa_distance b c = Ok y /\ osa_distance a c = Ok z /\ x + y < z.
Proof.
  exists (s2l "ca"), (s2l "ac"), (s2l "abc"), 1, 1, 3. vm_compute. repeat split.
Qed.
