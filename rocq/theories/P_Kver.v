(** Property C39: comparison of kernel versions. *)
From Verif Require Import Base L_Base M_Text S_Text L_Text M_Kver S_Kver L_Kver.

(** The texts accepted are those starting with two numbers separated by a dot... *)
Theorem C39_accepts : forall s, (exists kv, split_kver s = Ok kv) <->
  exists m1 n1 m2 n2 t, s = m1 ++ "."%char :: m2 ++ t /\ number m1 n1 /\ number m2 n2.
Proof. exact C39_accepts_l. Qed.
Print Assumptions C39_accepts.

Example C39_accepts_case :
  (exists kv, split_kver (s2l "6.1") = Ok kv) /\ split_kver (s2l "v6.1") = Exn EError /\
  split_kver (s2l "6.") = Exn EError.
Proof. split; [eexists; vm_compute; reflexivity|]. vm_compute. split; reflexivity. Qed.

(** ... and a text written as major, minor, optional stable, optional release candidate and free text
    is split into exactly these. *)
Theorem C39_components : forall s major minor stable rc loc,
  reads_as s major minor stable rc loc -> split_kver s = Ok (KV major minor stable rc loc).
Proof. exact split_kver_reads. Qed.
Print Assumptions C39_components.

Example C39_components_case :
  reads_as (s2l "5.13.2-rc12-generic") 5 13 2 (Some 12) (s2l "-generic") /\
  reads_as (s2l "6.5") 6 5 0 None [].
Proof.
  assert (D : forall s, forallb digitb s = true -> Forall is_digit s).
  { intros s H. rewrite forallb_forall in H. apply Forall_forall. intros c Hc.
    apply digitb_spec. auto. }
  split.
  - apply (RA (s2l "5") 5 (s2l "13") 13 (s2l ".2") 2 (s2l "-rc12") (Some 12) (s2l "-generic")).
    + repeat split; [discriminate|now apply D].
    + repeat split; [discriminate|now apply D].
    + right. exists (s2l "2"). repeat split; [discriminate|now apply D].
    + right. exists (s2l "12"), 12. repeat split; [discriminate|now apply D].
    + cbn. intuition discriminate.
    + intros c t [= <- _]. exact nd_dash.
    + discriminate.
    + discriminate.
  - apply (RA (s2l "6") 6 (s2l "5") 5 [] 0 [] None []); try discriminate; try tauto.
    + repeat split; [discriminate|now apply D].
    + repeat split; [discriminate|now apply D].

Qed.

(** "Older" is decided by the first component that differs, and "newer or equal" is its negation. *)
Theorem C39_compare : forall s1 s2 a b, split_kver s1 = Ok a -> split_kver s2 = Ok b ->
  (kver_lt s1 s2 = Ok true <-> before a b) /\ (kver_lt s1 s2 = Ok false <-> ~ before a b) /\
  (kver_ge s1 s2 = Ok true <-> ~ before a b).
Proof. exact C39_compare_l. Qed.
Print Assumptions C39_compare.

Example C39_compare_case :
  kver_lt (s2l "5.9") (s2l "5.10") = Ok true /\ kver_lt (s2l "5.10.1") (s2l "5.10") = Ok false /\
  kver_ge (s2l "5.10-a") (s2l "5.10-a") = Ok true.
Proof. vm_compute. repeat split. Qed.

(** C39: no version is older than itself... *)
Theorem C39_irreflexive : forall s r, kver_lt s s = Ok r -> r = false.
Proof. exact C39_irreflexive_l. Qed.
Print Assumptions C39_irreflexive.

(** ... two versions are not both older than the other... *)
Theorem C39_asymmetric : forall s1 s2, kver_lt s1 s2 = Ok true -> kver_lt s2 s1 = Ok false.
Proof. exact C39_asymmetric_l. Qed.
Print Assumptions C39_asymmetric.

(** ... older than older is older... *)
Theorem C39_transitive : forall s1 s2 s3,
  kver_lt s1 s2 = Ok true -> kver_lt s2 s3 = Ok true -> kver_lt s1 s3 = Ok true.
Proof. exact C39_transitive_l. Qed.
Print Assumptions C39_transitive.

Example C39_order_case :
  kver_lt (s2l "5.4") (s2l "5.4") = Ok false /\
  kver_lt (s2l "5.4-rc9") (s2l "5.4-rc10") = Ok true /\ kver_lt (s2l "5.4-rc10") (s2l "5.4.0") = Ok true.
Proof. vm_compute. repeat split. Qed.

(** ... and if neither is older, all components are equal. *)
Theorem C39_total : forall s1 s2, kver_lt s1 s2 = Ok false -> kver_lt s2 s1 = Ok false ->
  split_kver s1 = split_kver s2.
Proof. exact C39_total_l. Qed.
Print Assumptions C39_total.

Example C39_total_case :
  s2l "5.4" <> s2l "5.04.0" /\ kver_lt (s2l "5.4") (s2l "5.04.0") = Ok false /\
  kver_lt (s2l "5.04.0") (s2l "5.4") = Ok false.
Proof. split; [discriminate|vm_compute; split; reflexivity]. Qed.

(** A release candidate is older than its release, whatever the free texts. *)
Theorem C39_release_candidate : forall s1 s2 major minor stable n l l',
  reads_as s1 major minor stable (Some n) l -> reads_as s2 major minor stable None l' ->
  kver_lt s1 s2 = Ok true /\ kver_lt s2 s1 = Ok false.
Proof. exact C39_rc_l. Qed.
Print Assumptions C39_release_candidate.

Example C39_release_candidate_case : kver_lt (s2l "5.0-rc2-zzz") (s2l "5.0-aaa") = Ok true.
Proof. vm_compute. reflexivity. Qed.

(** A text that is not accepted makes the comparison fail rather than give an answer. *)
Theorem C39_reject : forall s1 s2, split_kver s1 = Exn EError \/ split_kver s2 = Exn EError ->
  kver_lt s1 s2 = Exn EError.
Proof. exact C39_reject_l. Qed.
Print Assumptions C39_reject.

Example C39_reject_case : kver_lt (s2l "5") (s2l "5.1") = Exn EError.
Proof. vm_compute. reflexivity. Qed.
