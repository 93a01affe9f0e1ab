(** Specification of starting, stopping and restoring systemd units (C74). *)
From Coq Require Import Ascii String.
From Verif Require Import Base M_Text M_Systemd.
Open Scope list_scope.
Open Scope Z_scope.

Definition spaces (t : str) : Prop := Forall (fun c => is_space c = true) t.

Section Spec.
  Context {W : Type}.
  Variable sd : sysd W.
  (** Is a unit active? *)
  Variable active : str -> W -> bool.

  (** The tool tells whether a unit is active: it prints "active", and maybe white space, exactly for the active units. *)
  Definition tells_active : Prop :=
    forall u w, exists out, sd_is sd (s2l "active") u w = Ok out /\
      (active u w = true <-> exists p q, spaces p /\ spaces q /\ out = p ++ s2l "active" ++ q).
  (** An action on a unit, whether it fails or not, leaves the other units alone. *)
  Definition units_apart : Prop := forall a u w r w', sd_run sd a u w = (r, w') -> forall u', u' <> u -> active u' w' = active u' w.
  (** An action that fails leaves the unit alone as well. *)
  Definition failing_harmless : Prop := forall a u w e w', sd_run sd a u w = (Exn e, w') -> active u w' = active u w.
  (** The units can be started and stopped. *)
  Definition obedient : Prop :=
    forall u w, (exists w', sd_run sd (s2l "start") u w = (Ok tt, w') /\ active u w' = true) /\
                (exists w', sd_run sd (s2l "stop") u w = (Ok tt, w') /\ active u w' = false).

  (** What a user does with the object before restoring: start or stop units, with or without 'save', restart them. *)
  Inductive op := OStart (units : list str) (save : bool) | OStop (units : list str) (save : bool) | ORestart (units : list str).
  Definition does (o : op) : M (svc W) unit :=
    match o with OStart us sv => start sd us sv | OStop us sv => stop sd us sv | ORestart us => restart sd us end.
  Inductive did : svc W -> list op -> svc W -> Prop :=
  | did_nil s : did s [] s
  | did_cons o ops s s1 s2 : does o s = (Ok tt, s1) -> did s1 ops s2 -> did s (o :: ops) s2.

  (** The units the operation names, is it to be undone, what does it make of the units? *)
  Definition names (o : op) (u : str) : Prop := match o with OStart us _ | OStop us _ | ORestart us => In u us end.
  Definition saves (o : op) : Prop := match o with OStart _ sv | OStop _ sv => sv = true | ORestart _ => False end.
  Definition makes (o : op) : bool := match o with OStop _ _ => false | _ => true end.

  (** [o] is the first of the operations that names the unit; the first that names it and is to be undone. *)
  Definition first_for (u : str) (ops : list op) (o : op) : Prop :=
    exists before after, ops = before ++ o :: after /\ names o u /\ forall o', In o' before -> ~ names o' u.
  Definition first_saved_for (u : str) (ops : list op) (o : op) : Prop :=
    exists before after, ops = before ++ o :: after /\ names o u /\ saves o /\ forall o', In o' before -> ~ (names o' u /\ saves o').

  (** The same with operations that may fail, and the user goes on. *)
  Inductive tried : svc W -> list op -> svc W -> Prop :=
  | tried_nil s : tried s [] s
  | tried_cons o ops s r s1 s2 : does o s = (r, s1) -> tried s1 ops s2 -> tried s (o :: ops) s2.

  (** What an operation that makes units active, or inactive, does. If it fails, then at one of the units, and the units after it are left
      alone. *)
  Definition effect (made : bool) (us : list str) (w : W) (r : res unit) (w' : W) : Prop :=
    match r with
    | Ok _ => (forall u, In u us -> active u w' = made) /\ (forall u, ~ In u us -> active u w' = active u w)
    | Exn _ => exists pre u post, us = pre ++ u :: post /\ (forall u', In u' pre -> u' <> u -> active u' w' = made) /\ (forall u', ~ In u' pre -> u' <> u -> active u' w' = active u' w)
    end.

  Definition ntp_names : list str := map s2l ["ntpd"; "ntpdate"; "sntp"; "systemd-timesyncd"; "chronyd"]%string.
End Spec.

(** The text has the words, with white space between them. *)
Definition a_word (w : str) : Prop := w <> [] /\ Forall (fun c => is_space c = false) w.
Inductive has_words : str -> list str -> Prop :=
| hw_end t : spaces t -> has_words t []
| hw_last t w : spaces t -> a_word w -> has_words (t ++ w) [w]
| hw_next t w c rest ws : spaces t -> a_word w -> is_space c = true -> has_words rest ws -> has_words (t ++ w ++ c :: rest) (w :: ws).
(** The words that are names of timers: they end in ".timer". *)
Inductive timers_of : list str -> list str -> Prop :=
| tm_nil : timers_of [] []
| tm_yes b ws l : timers_of ws l -> timers_of ((b ++ s2l ".timer") :: ws) ((b ++ s2l ".timer") :: l)
| tm_no w ws l : (forall b, w <> b ++ s2l ".timer") -> timers_of ws l -> timers_of (w :: ws) l.
