(** Closing an object closes what it made and nothing else (C76). *)
From Coq Require Import Ascii String.
From Verif Require Import Base M_Text M_Close S_Close L_Close L_Close2 X_Close.
Open Scope list_scope.
Open Scope Z_scope.

(** close() closes objects that the object made, each once, and never one that it was given; if nothing fails, it closes all that it made and
    refers to nothing afterwards. *)
Theorem C76_close (W : Type) (cl : Z -> M W unit) k args ops w r d' w' : In k classes -> arguments_ok args -> new_objects args ops ->
  close_object cl (k_close k) (live k args ops, w) = (r, (d', w')) ->
  exists order, closes cl order w r w' /\ NoDup order /\ (forall i, In i order -> makes k args ops i) /\
    (forall a i c, args a = AObj i c -> ~ In i order) /\
    (r = Ok tt -> (forall i, makes k args ops i -> In i order) /\ refers_to_nothing k d').
Proof. exact (close_spec cl k args ops w r d' w'). Qed.

Theorem C76_close_succeeds (W : Type) (cl : Z -> M W unit) k args ops w : In k classes -> arguments_ok args -> never_fails cl ->
  exists s', close_object cl (k_close k) (live k args ops, w) = (Ok tt, s').
Proof. exact (close_ok cl k args ops w). Qed.

(** Closing again does nothing. *)
Theorem C76_again (W : Type) (cl : Z -> M W unit) k args ops w d' w' : In k classes -> arguments_ok args ->
  close_object cl (k_close k) (live k args ops, w) = (Ok tt, (d', w')) ->
  forall w2, exists d2, close_object cl (k_close k) (d', w2) = (Ok tt, (d2, w2)) /\ refers_to_nothing k d2.
Proof. exact (again cl k args ops w d' w'). Qed.

(** If the close() of an object that was made fails, closing again goes on with this object; no other is closed twice and none is forgotten. *)
Theorem C76_retry (W : Type) (cl : Z -> M W unit) k args ops w e d1 w1 : In k classes -> arguments_ok args -> new_objects args ops ->
  close_object cl (k_close k) (live k args ops, w) = (Exn e, (d1, w1)) ->
  exists done i, closes cl (done ++ [i]) w (Exn e) w1 /\
    forall w2 r d2 w3, close_object cl (k_close k) (d1, w2) = (r, (d2, w3)) ->
      exists order, closes cl (i :: order) w2 r w3 /\ NoDup (done ++ i :: order) /\ (forall j, In j order -> makes k args ops j) /\
        (r = Ok tt -> (forall j, makes k args ops j <-> In j (done ++ i :: order)) /\ refers_to_nothing k d2).
Proof. exact (retry cl k args ops w e d1 w1). Qed.

(** Any attributes may be missing in an object being closed: its constructor may have failed half way. *)
Theorem C76_missing (W : Type) (cl : Z -> M W unit) cattrs uattrs d w : never_fails cl -> (forall u, In u uattrs -> has d u) ->
  exists s', close cl cattrs uattrs (d, w) = (Ok tt, s').
Proof. exact (missing_ok cl cattrs uattrs d w). Qed.

(** Other attributes stay. *)
Theorem C76_others (W : Type) (cl : Z -> M W unit) cattrs uattrs d w r d' w' a v : close cl cattrs uattrs (d, w) = (r, (d', w')) ->
  ~ In a cattrs -> ~ In a uattrs -> (In (a, v) d' <-> In (a, v) d).
Proof. exact (close_frame cl cattrs uattrs d w r d' w' a v). Qed.

Theorem C76_cpufreq_msr_refuted :
  exists ops i d' w', new_objects nothing ops /\ makes c_cpufreq_msr nothing ops i /\
    close_object rec (k_close c_cpufreq_msr) (live c_cpufreq_msr nothing ops, []) = (Ok tt, (d', w')) /\
    ~ In i w' /\ In (s2l "_msr", AObj i true) d'.
Proof. exact cpufreq_msr_leaks. Qed.

Theorem C76_dmesg_refuted :
  exists ops i d' w', In (s2l "_dmesg_obj", AObj i true) (live c_module dmesg_off ops) /\ (forall a c, dmesg_off a <> AObj i c) /\
    close_object rec (k_close c_module) (live c_module dmesg_off ops, []) = (Ok tt, (d', w')) /\ ~ In i w' /\ refers_to_nothing c_module d'.
Proof. exact dmesg_leaks. Qed.

Theorem C76_missing_refuted : exists a d, ~ has d a /\ close rec [] [a] (d, []) = (Exn EUnbound, (d, [])).
Proof. exact unbound. Qed.

Theorem C76_failed_refuted :
  exists k args ops i d' w', In k classes /\ arguments_ok args /\ new_objects args ops /\ makes k args ops i /\
    close_object rec13 (k_close k) (live k args ops, []) = (Exn EError, (d', w')) /\ i <> 13 /\ ~ In i w'.
Proof. exact failed_leaves. Qed.

Print Assumptions C76_close.
Print Assumptions C76_close_succeeds.
Print Assumptions C76_again.
Print Assumptions C76_retry.
Print Assumptions C76_missing.
Print Assumptions C76_others.
Print Assumptions C76_cpufreq_msr_refuted.
Print Assumptions C76_dmesg_refuted.
Print Assumptions C76_missing_refuted.
Print Assumptions C76_failed_refuted.
