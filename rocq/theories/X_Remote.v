(** Example: MSR access on a remote host. *)
From Verif Require Import Base L_Base M_CPUInfo S_CPUInfo L_CPUInfo X_CPUInfo M_MSR S_MSR L_MSR L_MSR5 X_MSR M_Remote S_Remote.

Definition xr_ops : list mop :=
  [ORead 416 None SPackage; OWrite 416 5 (Some [4; 0]) SPackage true; OStart; OWrite 416 9 None SPackage true;
   OWriteBits 432 (3, 0) (Some 6) (Some [1; 0]) SCore true; OFlush; ORead 416 (Some [3; 4]) SPackage; OCommit;
   ORead 16 (Some [3; 2; 3]) SCPU].

Lemma xr_disciplined : disciplined x_env x_sc xr_ops.
Proof.
  split.
  - intros o Ho. cbn in Ho.
    repeat (destruct Ho as [<-|Ho]; [cbn [op_scoped]; first [reflexivity|exact I|repeat split; vm_compute; discriminate]|]). destruct Ho.
  - right. exists x_rep. intros o Ho. cbn in Ho.
    repeat (destruct Ho as [<-|Ho]; [cbn [op_rep]; first [exact I|apply first_is_dec; vm_compute; reflexivity]|]). destruct Ho.
Qed.

Lemma xr_valid : ops_valid x_env false xr_ops.
Proof.
  assert (Hi : forall l, subsetb l (ci_online xci) = true -> incl l (ci_online xci)) by (intros l; apply subsetb_incl).
  unfold xr_ops. cbn [ops_valid op_valid]. repeat split; try reflexivity; try (vm_compute; congruence); apply Hi; reflexivity.
Qed.

Definition xr_rs : list (list (Z * Z)) :=
  [[(0, 416000); (1, 416000); (2, 416000); (3, 416000); (4, 416001); (5, 416001); (6, 416001); (7, 416001)]; []; []; []; []; [];
   [(3, 9); (4, 9)]; []; [(3, 16003); (2, 16002)]].
