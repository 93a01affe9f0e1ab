(** Examples and counterexamples about closing objects (C76). *)
From Coq Require Import Ascii String.
From Verif Require Import Base M_Text M_Close S_Close L_Text L_Close L_Close2.
Open Scope list_scope.
Open Scope Z_scope.

(** A world that records which objects were closed; object 13 can not be closed. *)
Definition rec (i : Z) : M (list Z) unit := fun w => (Ok tt, w ++ [i]).
Definition rec13 (i : Z) : M (list Z) unit := fun w => if i =? 13 then (Exn EError, w) else (Ok tt, w ++ [i]).

Lemma rec_never_fails : never_fails rec.
Proof. intros i w. eexists. reflexivity. Qed.

(** A process manager is given, nothing else. *)
Definition given_pman (a : str) : aval := if str_eqb a (s2l "_pman") then AObj 1 true else ANone.
Definition nothing (a : str) : aval := ANone.

Lemma given_ok : arguments_ok given_pman.
Proof. intros a. unfold given_pman. destruct (str_eqb a _); eauto. Qed.
Lemma nothing_ok : arguments_ok nothing.
Proof. intros a. left. reflexivity. Qed.

Definition ps_ops : list (str * Z) := [(s2l "_cpuinfo", 10); (s2l "_eppobj", 11); (s2l "_msr", 12); (s2l "_pman", 14); (s2l "_eppobj", 15)].

Lemma ps_new : new_objects given_pman ps_ops.
Proof.
  split.
  - cbn. repeat constructor; cbn; intuition lia.
  - intros a i c. unfold given_pman. destruct (str_eqb a _); [|discriminate]. intros E. injection E as <- <-. cbn. intuition lia.
Qed.

(** P-states: CPU information, the EPP object and the MSR object are made, the process manager is given. *)
Example close_ex :
  In c_pstates classes /\ snd (snd (close_object rec (k_close c_pstates) (live c_pstates given_pman ps_ops, []))) = [11; 12; 10].
Proof. split; [cbn; auto|vm_compute; reflexivity]. Qed.

Definition ps_ops13 : list (str * Z) := [(s2l "_cpuinfo", 10); (s2l "_eppobj", 11); (s2l "_msr", 13)].
(** The MSR object can not be closed. *)
Example retry_ex :
  exists d, close_object rec13 (k_close c_pstates) (live c_pstates given_pman ps_ops13, []) = (Exn EError, (d, [11])) /\
    snd (snd (close_object rec (k_close c_pstates) (d, [11]))) = [11; 13; 10].
Proof. eexists. split; vm_compute; reflexivity. Qed.

Example missing_ex : exists s', close rec (A ["_a"; "b"]%string) (A ["_b"]%string) ([(s2l "_b", AObj 3 true)], []) = (Ok tt, s').
Proof. eexists. vm_compute. reflexivity. Qed.

Example frame_ex : close rec (A ["_a"]%string) (A ["_b"]%string) ([(s2l "_a", AObj 4 true); (s2l "_b", AObj 3 true); (s2l "_c", AObj 5 true)], [])
  = (Ok tt, ([(s2l "_a", ANone); (s2l "_b", ANone); (s2l "_c", AObj 5 true)], [4])).
Proof. vm_compute. reflexivity. Qed.

(** ** Refuted *)

Lemma cpufreq_msr_leaks :
  exists ops i d' w', new_objects nothing ops /\ makes c_cpufreq_msr nothing ops i /\
    close_object rec (k_close c_cpufreq_msr) (live c_cpufreq_msr nothing ops, []) = (Ok tt, (d', w')) /\
    ~ In i w' /\ In (s2l "_msr", AObj i true) d'.
Proof.
  exists [(s2l "_msr", 7)], 7. eexists. eexists.
  split; [split; [cbn; repeat constructor; intros []|intros a i c; discriminate]|].
  split.
  { exists (s2l "_msr"), Unmarked, [], []. split; [cbn; auto|]. split; [right; split; [discriminate|reflexivity]|]. split; [reflexivity|intros []]. }
  split; [vm_compute; reflexivity|]. split; [intros []|]. vm_compute. auto 20.
Qed.

Definition dmesg_off (a : str) : aval := if str_eqb a (s2l "_dmesg_obj") then ABool false else AObj 1 true.

Lemma dmesg_leaks :
  exists ops i d' w', In (s2l "_dmesg_obj", AObj i true) (live c_module dmesg_off ops) /\ (forall a c, dmesg_off a <> AObj i c) /\
    close_object rec (k_close c_module) (live c_module dmesg_off ops, []) = (Ok tt, (d', w')) /\ ~ In i w' /\ refers_to_nothing c_module d'.
Proof.
  exists [(s2l "_dmesg_obj", 7)], 7. eexists. eexists. split; [vm_compute; auto|].
  split; [intros a c; unfold dmesg_off; destruct (str_eqb a _); discriminate|].
  split; [vm_compute; reflexivity|]. split; [intros []|].
  intros a h i c Hs. cbn in Hs. destruct Hs as [Hs|[Hs|[]]]; injection Hs as <- <-; cbn; intuition discriminate.
Qed.

Lemma unbound : exists a d, ~ has d a /\ close rec [] [a] (d, []) = (Exn EUnbound, (d, [])).
Proof. exists (s2l "_pman"), []. split; [intros (v & [])|reflexivity]. Qed.

Lemma failed_leaves :
  exists k args ops i d' w', In k classes /\ arguments_ok args /\ new_objects args ops /\ makes k args ops i /\
    close_object rec13 (k_close k) (live k args ops, []) = (Exn EError, (d', w')) /\ i <> 13 /\ ~ In i w'.
Proof.
  exists c_pstates, given_pman, ps_ops13, 10. eexists. eexists. split; [cbn; auto|]. split; [exact given_ok|].
  split.
  { split; [cbn; repeat constructor; cbn; intuition lia|]. intros a i c. unfold given_pman. destruct (str_eqb a _); [|discriminate].
    intros E. injection E as <- <-. cbn. intuition lia. }
  split.
  { exists (s2l "_cpuinfo"), Optional, [], [(s2l "_eppobj", 11); (s2l "_msr", 13)]. split; [cbn; auto|]. split; [right; split; [discriminate|reflexivity]|].
    split; [reflexivity|intros []]. }
  split; [vm_compute; reflexivity|]. split; [lia|]. intros [E|[]]. discriminate.
Qed.
