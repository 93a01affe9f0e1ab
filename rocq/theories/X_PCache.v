(** Examples and counterexamples about the properties cache (C77). *)
From Coq Require Import Ascii String.
From Verif Require Import Base M_Text M_PCache S_PCache L_PCache.
Open Scope list_scope.
Open Scope Z_scope.

(** Two packages: CPUs 0-1 and 2-3. *)
Definition sib4 (cpu : Z) (s : scope) : res (list Z) :=
  match s with SCPU => Ok [cpu] | SGlobal => Ok [0; 1; 2; 3] | SPackage => Ok (if cpu <? 2 then [0; 1] else [2; 3]) | _ => Exn EError end.
(** CPU 1 is offline. *)
Definition sib3 (cpu : Z) (s : scope) : res (list Z) :=
  match s with SCPU => Ok [cpu] | SGlobal => Ok [0; 2; 3] | SPackage => Ok (if cpu <? 2 then [0] else [2; 3]) | _ => Exn EError end.

Definition epp := s2l "epp".
Definition msr := s2l "msr".
Definition sysfs := s2l "sysfs".

Definition h1 : history Z :=
  [(CAdd epp 0 5 msr SPackage, sib4); (CAdd epp 2 6 sysfs SPackage, sib4); (CAdd epp 1 7 msr SCPU, sib4); (CRemove epp 3 sysfs SCPU, sib4)].

Example get_ex : map (fun x => fst (pc_get true epp x msr (pc_run true h1))) [0; 1; 2] = [Ok 5; Ok 7; Exn ENotFound].
Proof. vm_compute. reflexivity. Qed.
Example get_current_ex : current h1 msr epp 1 7.
Proof.
  apply at_current. vm_compute. reflexivity.
Qed.
Example find_ex : fst (pc_find true epp 2 (Some [msr; sysfs]) (pc_run true h1)) = Ok (6, sysfs).
Proof. vm_compute. reflexivity. Qed.
Example find_any_ex : map (fun x => fst (pc_find true epp x None (pc_run true h1))) [0; 2; 3] = [Ok (5, msr); Ok (6, sysfs); Exn ENotFound].
Proof. vm_compute. reflexivity. Qed.
Example global_ex : exists c', pc_remove true sib4 epp 0 msr SGlobal (pc_run true h1) = (Ok tt, c').
Proof. eexists. vm_compute. reflexivity. Qed.

(** ** Refuted *)

Lemma stale :
  exists (before off : Z -> scope -> res (list Z)) (v v' : Z),
    before 0 SPackage = Ok [0; 1] /\ off 0 SPackage = Ok [0] /\ v <> v' /\
    let h := [(CAdd epp 0 v msr SPackage, before); (CAdd epp 0 v' msr SPackage, off)] in
    fst (pc_get true epp 0 msr (pc_run true h)) = Ok v' /\ fst (pc_get true epp 1 msr (pc_run true h)) = Ok v.
Proof. exists sib4, sib3, 5, 6. split; [reflexivity|]. split; [reflexivity|]. split; [lia|]. vm_compute. split; reflexivity. Qed.

Lemma global_key : exists (sib : Z -> scope -> res (list Z)) (p m : str) (cpu : Z),
  (forall s, s <> SGlobal -> sib cpu s = Ok [cpu]) /\
  (forall s, s <> SGlobal -> fst (pc_remove (V := Z) true sib p cpu m s []) = Ok tt) /\ fst (pc_remove (V := Z) true sib p cpu m SGlobal []) = Exn EKey.
Proof.
  exists (fun cpu s => Ok [cpu]), epp, msr, 0. split; [reflexivity|]. split; [|reflexivity]. intros s Hs. destruct s; try reflexivity. congruence.
Qed.
