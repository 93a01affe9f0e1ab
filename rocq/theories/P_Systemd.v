(** C74: units started and stopped, and restored. *)
From Coq Require Import Ascii String.
From Verif Require Import Base M_Text M_Systemd S_Systemd L_Systemd L_Systemd2 L_Systemd3 X_Systemd.
Open Scope list_scope.
Open Scope Z_scope.

(** Starting, stopping, restarting: with success the units are in that state and the others are left alone; with a failure at one of the units
    the ones before it are in that state and the ones after it are left alone. *)
Theorem C74_action {W} (sd : sysd W) active us sv (s s' : svc W) r : tells_active sd active -> units_apart sd active ->
  (start sd us sv s = (r, s') -> effect active true us (v_w s) r (v_w s')) /\
  (stop sd us sv s = (r, s') -> effect active false us (v_w s) r (v_w s')) /\
  (restart sd us s = (r, s') -> effect active true us (v_w s) r (v_w s')).
Proof. intros Ht Ha. split; [|split]; intros H; [exact (run_effect sd active Ht Ha (s2l "start") sv _ _ _ _ H)|exact (run_effect sd active Ht Ha (s2l "stop") sv _ _ _ _ H)|exact (run_effect sd active Ht Ha (s2l "restart") false _ _ _ _ H)]. Qed.
Print Assumptions C74_action.

Theorem C74_action_succeeds {W} (sd : sysd W) active us sv (s : svc W) : tells_active sd active -> obedient sd active ->
  (exists s', start sd us sv s = (Ok tt, s')) /\ (exists s', stop sd us sv s = (Ok tt, s')).
Proof. intros Ht Ho. split; [exact (run_obedient sd active Ht true sv Ho us s)|exact (run_obedient sd active Ht false sv Ho us s)]. Qed.
Print Assumptions C74_action_succeeds.

(** restore() undoes the first operation on a unit that was done with 'save', and leaves the other units alone. *)
Theorem C74_undone {W} (sd : sysd W) active w ops (s s' : svc W) : tells_active sd active -> units_apart sd active ->
  did sd (svc_new w) ops s -> restore_units sd s = (Ok tt, s') -> forall u,
  (forall o, first_saved_for u ops o -> active u (v_w s') = negb (makes o)) /\
  ((forall o, In o ops -> ~ (names o u /\ saves o)) -> active u (v_w s') = active u (v_w s)).
Proof. intros Ht Ha. exact (restored_saved sd active Ht Ha w ops s s'). Qed.
Print Assumptions C74_undone.

(** So a unit is as it was at the beginning if nothing was done to it, or if the first thing done to it was done with 'save' and changed it. *)
Theorem C74_restored {W} (sd : sysd W) active w ops (s s' : svc W) : tells_active sd active -> units_apart sd active ->
  did sd (svc_new w) ops s -> restore_units sd s = (Ok tt, s') -> forall u,
  ((forall o, In o ops -> ~ names o u) \/ exists o, first_for u ops o /\ saves o /\ makes o = negb (active u w)) ->
  active u (v_w s') = active u w.
Proof. intros Ht Ha. exact (restored_as_before sd active Ht Ha w ops s s'). Qed.
Print Assumptions C74_restored.

(** Also when operations failed. *)
Theorem C74_restored_anyway {W} (sd : sysd W) active w ops (s s' : svc W) : tells_active sd active -> units_apart sd active ->
  failing_harmless sd active -> tried sd (svc_new w) ops s -> restore_units sd s = (Ok tt, s') -> forall u,
  (forall o, In o ops -> names o u -> saves o /\ makes o = negb (active u w)) -> active u (v_w s') = active u w.
Proof. intros Ht Ha Hf Hd Hr. exact (restored_anyway sd active Ht Ha w ops s s' Hf Hd Hr). Qed.
Print Assumptions C74_restored_anyway.

Theorem C74_restore_succeeds {W} (sd : sysd W) active (s : svc W) : tells_active sd active -> obedient sd active ->
  exists s', restore_units sd s = (Ok tt, s').
Proof. intros Ht. exact (restore_works sd active Ht s). Qed.
Print Assumptions C74_restore_succeeds.

(** A unit that was already inactive when it was stopped with 'save' is started by restore(). *)
Theorem C74_restore_refuted : exists (W : Type) (sd : sysd W) active w ops s s' u, tells_active sd active /\ units_apart sd active /\ obedient sd active /\
  did sd (svc_new w) ops s /\ restore_units sd s = (Ok tt, s') /\ (forall o, In o ops -> saves o) /\ active u (v_w s') <> active u w.
Proof. exact restore_ref. Qed.
Print Assumptions C74_restore_refuted.

(** What restore() restored is not forgotten: used again, the object undoes the older operation. *)
Theorem C74_again_refuted : exists (W : Type) (sd : sysd W) active w s1 s2 s3 s4 s5 u, tells_active sd active /\ units_apart sd active /\ obedient sd active /\
  stop sd [u] true (svc_new w) = (Ok tt, s1) /\ restore_units sd s1 = (Ok tt, s2) /\ stop sd [u] false s2 = (Ok tt, s3) /\
  start sd [u] true s3 = (Ok tt, s4) /\ restore_units sd s4 = (Ok tt, s5) /\ active u (v_w s3) = false /\ active u (v_w s5) = true.
Proof. exact again_ref. Qed.
Print Assumptions C74_again_refuted.

(** The NTP services: those that ran are stopped, and told; the other units are left alone. *)
Theorem C74_ntp_stopped {W} (sd : sysd W) active (s s' : svc W) l : tells_active sd active -> units_apart sd active ->
  stop_ntp sd s = (Ok l, s') ->
  l = filter (fun u => active u (v_w s)) ntp_names /\ (forall u, In u ntp_names -> active u (v_w s') = false) /\
  (forall u, ~ In u ntp_names -> active u (v_w s') = active u (v_w s)) /\
  (forall l' s'', restore_ntp sd s' = (Ok l', s'') -> l' = Some l).
Proof.
  intros Ht Ha H. destruct (stop_ntp_ok sd active Ht Ha _ _ _ H) as (A & B & C & D & _). repeat split; auto.
  intros l' s'' H'. destruct (restore_ntp_list sd _ _ _ H') as [-> _]. exact B.
Qed.
Print Assumptions C74_ntp_stopped.

(** restore_ntp() brings back all the units as they were before stop_ntp(), even if that failed half way. *)
Theorem C74_ntp_restored {W} (sd : sysd W) active (s s1 s2 : svc W) r l : tells_active sd active -> units_apart sd active ->
  failing_harmless sd active -> stop_ntp sd s = (r, s1) -> restore_ntp sd s1 = (Ok l, s2) ->
  forall u, active u (v_w s2) = active u (v_w s).
Proof. intros Ht Ha. exact (ntp_back sd active Ht Ha s s1 s2 r l). Qed.
Print Assumptions C74_ntp_restored.

Theorem C74_ntp_succeeds {W} (sd : sysd W) active (s : svc W) : tells_active sd active -> obedient sd active ->
  (exists l s', stop_ntp sd s = (Ok l, s')) /\ (exists l s', restore_ntp sd s = (Ok l, s')).
Proof. intros Ht Ho. split; [exact (stop_ntp_works sd active Ht s Ho)|exact (restore_ntp_works sd active Ht s Ho)]. Qed.
Print Assumptions C74_ntp_succeeds.

(** Stopped twice, the services are not restored. *)
Theorem C74_ntp_twice_refuted : exists (W : Type) (sd : sysd W) active w l1 s1 l2 s2 l s3 u, tells_active sd active /\ units_apart sd active /\ obedient sd active /\
  stop_ntp sd (svc_new w) = (Ok l1, s1) /\ stop_ntp sd s1 = (Ok l2, s2) /\ restore_ntp sd s2 = (Ok l, s3) /\
  active u w = true /\ active u (v_w s3) = false.
Proof. exact ntp_twice_ref. Qed.
Print Assumptions C74_ntp_twice_refuted.

(** The timers: the words of the listing that end in ".timer" are stopped, and told, and the other units are left alone. *)
Theorem C74_timers_stopped {W} (sd : sysd W) active (s s' : svc W) out ws l l' : tells_active sd active -> units_apart sd active ->
  sd_timers sd (v_w s) = Ok out -> has_words out ws -> timers_of ws l -> stop_timers sd s = (Ok l', s') ->
  l' = l /\ (forall u, In u l -> active u (v_w s') = false) /\ (forall u, ~ In u l -> active u (v_w s') = active u (v_w s)).
Proof.
  intros Ht Ha Eo Hw Hl H. destruct (stop_timers_ok sd active Ht Ha _ _ _ _ _ _ Eo Hw Hl H) as (A & _ & B & C). auto.
Qed.
Print Assumptions C74_timers_stopped.

Theorem C74_timers_restored {W} (sd : sysd W) active (s s1 s2 : svc W) out ws l l' : tells_active sd active -> units_apart sd active ->
  sd_timers sd (v_w s) = Ok out -> has_words out ws -> timers_of ws l -> (forall u, In u l -> active u (v_w s) = true) ->
  stop_timers sd s = (Ok l', s1) -> restore_timers sd s1 = (Ok tt, s2) -> forall u, active u (v_w s2) = active u (v_w s).
Proof. intros Ht Ha. exact (timers_back sd active Ht Ha s s1 s2 out ws l l'). Qed.
Print Assumptions C74_timers_restored.

Theorem C74_timers_succeeds {W} (sd : sysd W) active (s : svc W) out : tells_active sd active -> obedient sd active ->
  (sd_timers sd (v_w s) = Ok out -> exists l s', stop_timers sd s = (Ok l, s')) /\ (exists s', restore_timers sd s = (Ok tt, s')).
Proof. intros Ht Ho. split; [exact (stop_timers_works sd active Ht s out Ho)|exact (restore_timers_works sd active Ht s Ho)]. Qed.
Print Assumptions C74_timers_succeeds.

(** If a timer can not be stopped, the timers stopped before it are not restored. *)
Theorem C74_timers_failed_refuted : exists (W : Type) (sd : sysd W) active w e s1 s2 u, tells_active sd active /\ units_apart sd active /\ failing_harmless sd active /\
  stop_timers sd (svc_new w) = (Exn e, s1) /\ restore_timers sd s1 = (Ok tt, s2) /\ active u w = true /\ active u (v_w s2) = false.
Proof. exact timers_ref. Qed.
Print Assumptions C74_timers_failed_refuted.
