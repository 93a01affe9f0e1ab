(** Examples for C30. *)
From Coq Require Import Ascii String.
From Verif Require Import Base L_Base M_CPUInfo S_CPUInfo X_CPUInfo M_Text M_MSR S_MSR L_MSR L_MSR2 L_MSR3 X_MSR
  M_FMSR S_FMSR L_FMSR X_FMSR M_PCState S_PCState L_PCState.

Lemma limit_tables_l ios t fr : In t pkg_cst_tables -> fr_feats fr = pcst_reg ios t ->
  exists fe, limit_reg fr fe 15 /\ fe_ios fe = ios /\ fe_writable fe = true.
Proof.
  intros Ht Hf.
  assert (Hok : reg_ok (pcst_reg ios t)).
  { apply (all_regs_ok_l ios 226). unfold all_regs. apply in_app_iff. left. apply in_map_iff. exists t. auto. }
  destruct t as [[[hi lo] codes] aliases]. exists (fdict hi lo ios codes aliases).
  split; [|split; reflexivity]. unfold limit_reg. rewrite Hf. split; [reflexivity|]. split.
  - apply (proj1 (proj2 Hok) (s2l "pkg_cstate_limit")). now left.
  - split; [discriminate|]. exists (fbool 15 1 ios false). split; [reflexivity|]. split; [reflexivity|lia].
Qed.

Lemma x_limit_reg : limit_reg x_fr x_limit 15 /\ fe_ios x_limit = Some (x_sc (fr_addr x_fr)).
Proof.
  destruct (limit_tables_l (Some SPackage) (nth 1 pkg_cst_tables (0, 0, [], [])) x_fr) as (fe & H & Hi & _).
  - right. now left.
  - reflexivity.
  - assert (E : fe = x_limit).
    { destruct H as (H & _). pose proof (proj1 x_limit_get) as H'. rewrite H in H'. now injection H'. }
    subst fe. split; [exact H|reflexivity].
Qed.

(** Package 1 is locked, package 0 is not. *)
Definition x_lock_ops : list mop := x_ops ++ [OWriteBits 416 (15, 15) (Some 1) (Some [4]) SPackage false].

Lemma x_lock_disc : disciplined_for x_env x_sc x_lock_ops 416 (Some [1; 4]).
Proof.
  split.
  - intros o Ho. apply in_app_iff in Ho as [Ho|[<-|[]]]; [now apply (proj1 x_disc)|].
    cbn. repeat split; vm_compute; discriminate.
  - left. cbn. intuition discriminate.
Qed.
