(** Examples of starting, stopping and restoring systemd units. *)
From Coq Require Import Ascii String Lia.
From Verif Require Import Base M_Text M_Systemd S_Systemd L_Base L_Text L_Systemd L_Systemd2 L_Systemd3.
Open Scope list_scope.
Open Scope Z_scope.

(** The system: the active units. The units of [bad] can not be stopped. *)
Definition xw := list str.
Definition xactive (u : str) (w : xw) : bool := existsb (str_eqb u) w.
Definition xsd (bad : list str) (timers : str) : sysd xw :=
  SYSD (fun a u w => if str_eqb a (s2l "stop")
                     then (if existsb (str_eqb u) bad then (Exn EError, w) else (Ok tt, filter (fun v => negb (str_eqb u v)) w))
                     else (Ok tt, u :: w))
       (fun _ u w => Ok (if xactive u w then s2l "active" ++ ["010"%char] else s2l "inactive" ++ ["010"%char]))
       (fun _ => Ok timers).
Definition xtext : str := s2l "NEXT LEFT UNIT ACTIVATES
Tue  5h a.timer a.service
Wed 20h b.timer b.service

2 timers listed.
".

Lemma xtells bad t : tells_active (xsd bad t) xactive.
Proof.
  intros u w. eexists. split; [reflexivity|]. destruct (xactive u w).
  - split; [|reflexivity]. intros _. exists [], ["010"%char]. repeat constructor.
  - split; [discriminate|]. intros E. exfalso. apply strip_active in E. revert E. vm_compute. discriminate.
Qed.
Lemma xapart bad t : units_apart (xsd bad t) xactive.
Proof.
  intros a u w r w' H u' Hne. cbn [xsd sd_run] in H. unfold xactive. destruct (str_eqb a (s2l "stop")).
  - destruct (existsb (str_eqb u) bad); injection H as _ <-; [reflexivity|]. induction w as [|v w IH]; [reflexivity|]. cbn [filter existsb].
    destruct (str_eqb u v) eqn:E; cbn [negb existsb]; [|now rewrite IH]. apply str_eqb_eq in E. subst v. rewrite IH.
    rewrite (eqb_ne u' u Hne). reflexivity.
  - injection H as _ <-. cbn [existsb]. now rewrite (eqb_ne u' u Hne).
Qed.
Lemma xharmless bad t : failing_harmless (xsd bad t) xactive.
Proof.
  intros a u w e w' H. cbn [xsd sd_run] in H. destruct (str_eqb a (s2l "stop")); [|discriminate].
  destruct (existsb (str_eqb u) bad); [|discriminate]. now injection H as _ <-.
Qed.
Lemma xobedient t : obedient (xsd [] t) xactive.
Proof.
  intros u w. split; eexists; (split; [reflexivity|]).
  - unfold xactive. cbn [existsb]. assert (str_eqb u u = true) as -> by now apply str_eqb_eq. reflexivity.
  - unfold xactive. induction w as [|v w IH]; [reflexivity|]. cbn [filter]. destruct (str_eqb u v) eqn:E; cbn [negb existsb]; [exact IH|]. now rewrite E.
Qed.

Definition xu (s : string) : str := s2l s.
Definition xok (m : M (svc xw) unit) (s : svc xw) : svc xw := snd (m s).

(** Stop two units and start one, with 'save', then restore: all is as before. *)
Example xops : exists s s', did (xsd [] []) (svc_new [xu "cron"; xu "cups"]) [OStop [xu "cups"; xu "cron"] true; OStart [xu "foo"] true; ORestart [xu "foo"]] s /\
  restore_units (xsd [] []) s = (Ok tt, s') /\
  map (fun u => xactive (xu u) (v_w s)) ["cron"; "cups"; "foo"]%string = [false; false; true] /\
  map (fun u => xactive (xu u) (v_w s')) ["cron"; "cups"; "foo"]%string = [true; true; false].
Proof.
  eexists _, _. split.
  - econstructor; [vm_compute; reflexivity|]. econstructor; [vm_compute; reflexivity|]. econstructor; [vm_compute; reflexivity|]. constructor.
  - repeat split; vm_compute; reflexivity.
Qed.
Example xfirst : first_for (xu "cups") [OStop [xu "cups"; xu "cron"] true; OStart [xu "foo"] true] (OStop [xu "cups"; xu "cron"] true) /\
  saves (OStop [xu "cups"; xu "cron"] true) /\ makes (OStop [xu "cups"; xu "cron"] true) = negb (xactive (xu "cups") [xu "cron"; xu "cups"]).
Proof. split; [|split; reflexivity]. exists [], [OStart [xu "foo"] true]. split; [reflexivity|]. split; [now left|now intros]. Qed.
(** The second unit can not be stopped; the first is restored. *)
Example xtried : exists s s', tried (xsd [xu "cron"] []) (svc_new [xu "cron"; xu "cups"]) [OStop [xu "cups"; xu "cron"] true] s /\
  restore_units (xsd [xu "cron"] []) s = (Ok tt, s') /\
  map (fun u => xactive (xu u) (v_w s)) ["cron"; "cups"]%string = [true; false] /\
  map (fun u => xactive (xu u) (v_w s')) ["cron"; "cups"]%string = [true; true].
Proof.
  eexists _, _. split; [econstructor; [vm_compute; reflexivity|constructor]|]. repeat split; vm_compute; reflexivity.
Qed.
(** Two of the NTP services run. *)
Example xntp : exists s1 s2, stop_ntp (xsd [] []) (svc_new [xu "chronyd"; xu "cups"; xu "ntpd"]) = (Ok [xu "ntpd"; xu "chronyd"], s1) /\
  restore_ntp (xsd [] []) s1 = (Ok (Some [xu "ntpd"; xu "chronyd"]), s2) /\
  map (fun u => xactive (xu u) (v_w s1)) ["chronyd"; "cups"; "ntpd"; "sntp"]%string = [false; true; false; false] /\
  map (fun u => xactive (xu u) (v_w s2)) ["chronyd"; "cups"; "ntpd"; "sntp"]%string = [true; true; true; false].
Proof. eexists _, _. repeat split; vm_compute; reflexivity. Qed.
(** One of them can not be stopped. *)
Example xntp_fails : exists s1 s2, stop_ntp (xsd [xu "chronyd"] []) (svc_new [xu "chronyd"; xu "cups"; xu "ntpd"]) = (Exn EError, s1) /\
  restore_ntp (xsd [xu "chronyd"] []) s1 = (Ok (Some [xu "ntpd"]), s2) /\
  map (fun u => xactive (xu u) (v_w s1)) ["chronyd"; "cups"; "ntpd"]%string = [true; true; false] /\
  map (fun u => xactive (xu u) (v_w s2)) ["chronyd"; "cups"; "ntpd"]%string = [true; true; true].
Proof. eexists _, _. repeat split; vm_compute; reflexivity. Qed.

(** A listing of timers and its words. *)
Lemma sp1 c : is_space c = true -> spaces [c].
Proof. intros H. repeat constructor. exact H. Qed.
Example xwords : exists ws, has_words xtext ws /\ timers_of ws [xu "a.timer"; xu "b.timer"].
Proof.
  pose proof has_words_some as K.
  destruct (K xtext) as [ws H]. exists ws. split; [exact H|]. apply words_has in H. rewrite <- H.
  replace [xu "a.timer"; xu "b.timer"] with (filter (M_TpmiSpec.ends_with (s2l ".timer")) (M_CFreq.words xtext)) by (vm_compute; reflexivity).
  apply timers_ex.
Qed.
Example xtimers : exists s1 s2, stop_timers (xsd [] xtext) (svc_new [xu "a.timer"; xu "cups"; xu "b.timer"]) = (Ok [xu "a.timer"; xu "b.timer"], s1) /\
  restore_timers (xsd [] xtext) s1 = (Ok tt, s2) /\
  map (fun u => xactive (xu u) (v_w s1)) ["a.timer"; "b.timer"; "cups"]%string = [false; false; true] /\
  map (fun u => xactive (xu u) (v_w s2)) ["a.timer"; "b.timer"; "cups"]%string = [true; true; true].
Proof. eexists _, _. repeat split; vm_compute; reflexivity. Qed.

(** Refutations *)
Lemma restore_ref : exists (W : Type) (sd : sysd W) active w ops s s' u, tells_active sd active /\ units_apart sd active /\ obedient sd active /\
  did sd (svc_new w) ops s /\ restore_units sd s = (Ok tt, s') /\ (forall o, In o ops -> saves o) /\ active u (v_w s') <> active u w.
Proof.
  exists xw, (xsd [] []), xactive, [], [OStop [xu "cups"] true]. eexists _, _, (xu "cups"). split; [apply xtells|]. split; [apply xapart|].
  split; [apply xobedient|]. split; [econstructor; [vm_compute; reflexivity|constructor]|]. split; [vm_compute; reflexivity|].
  split; [intros o [<-|[]]; reflexivity|]. vm_compute. discriminate.
Qed.
Lemma again_ref : exists (W : Type) (sd : sysd W) active w s1 s2 s3 s4 s5 u, tells_active sd active /\ units_apart sd active /\ obedient sd active /\
  stop sd [u] true (svc_new w) = (Ok tt, s1) /\ restore_units sd s1 = (Ok tt, s2) /\ stop sd [u] false s2 = (Ok tt, s3) /\
  start sd [u] true s3 = (Ok tt, s4) /\ restore_units sd s4 = (Ok tt, s5) /\ active u (v_w s3) = false /\ active u (v_w s5) = true.
Proof.
  exists xw, (xsd [] []), xactive, [xu "cups"]. eexists _, _, _, _, _, (xu "cups"). split; [apply xtells|]. split; [apply xapart|].
  split; [apply xobedient|]. repeat split; vm_compute; reflexivity.
Qed.
Lemma ntp_twice_ref : exists (W : Type) (sd : sysd W) active w l1 s1 l2 s2 l s3 u, tells_active sd active /\ units_apart sd active /\ obedient sd active /\
  stop_ntp sd (svc_new w) = (Ok l1, s1) /\ stop_ntp sd s1 = (Ok l2, s2) /\ restore_ntp sd s2 = (Ok l, s3) /\
  active u w = true /\ active u (v_w s3) = false.
Proof.
  exists xw, (xsd [] []), xactive, [xu "ntpd"]. eexists _, _, _, _, _, _, (xu "ntpd"). split; [apply xtells|]. split; [apply xapart|].
  split; [apply xobedient|]. repeat split; vm_compute; reflexivity.
Qed.
Lemma timers_ref : exists (W : Type) (sd : sysd W) active w e s1 s2 u, tells_active sd active /\ units_apart sd active /\ failing_harmless sd active /\
  stop_timers sd (svc_new w) = (Exn e, s1) /\ restore_timers sd s1 = (Ok tt, s2) /\ active u w = true /\ active u (v_w s2) = false.
Proof.
  exists xw, (xsd [xu "b.timer"] xtext), xactive, [xu "a.timer"; xu "b.timer"]. eexists _, _, _, (xu "a.timer"). split; [apply xtells|].
  split; [apply xapart|]. split; [apply xharmless|]. repeat split; vm_compute; reflexivity.
Qed.
