(** Independent vocabulary for kernel versions. *)
From Verif Require Import Base M_Text S_Text M_Kver.

(** A string of one or more decimal digits with the value 'n' (leading zeros allowed). *)
Definition number (s : str) (n : Z) : Prop := s <> [] /\ Forall is_digit s /\ spelled s = n.

(** "5.13", "5.13.2", "6.5-rc3", "4.18.1-build0": the components of a version text.  The free text at
    the end must not be readable as a further component, and has no newline. *)
Inductive reads_as : str -> Z -> Z -> Z -> option Z -> str -> Prop :=
| RA m1 n1 m2 n2 s3 n3 s4 rc loc :
    number m1 n1 -> number m2 n2 ->
    (s3 = [] /\ n3 = 0 \/ exists d, s3 = "."%char :: d /\ number d n3) ->
    (s4 = [] /\ rc = None \/ exists d n, s4 = s2l "-rc" ++ d /\ number d n /\ rc = Some n) ->
    ~ In "010"%char loc ->
    (forall c t, loc = c :: t -> ~ is_digit c) ->
    (s3 = [] -> s4 = [] -> forall c t, loc = "."%char :: c :: t -> ~ is_digit c) ->
    (s4 = [] -> forall c t, loc = s2l "-rc" ++ c :: t -> ~ is_digit c) ->
    reads_as (m1 ++ "."%char :: m2 ++ s3 ++ s4 ++ loc) n1 n2 n3 rc loc.

(** Alphabetical order by character code. *)
Inductive alpha_before : str -> str -> Prop :=
| AB_nil c t : alpha_before [] (c :: t)
| AB_head c d s t : (nat_of_ascii c < nat_of_ascii d)%nat -> alpha_before (c :: s) (d :: t)
| AB_tail c s t : alpha_before s t -> alpha_before (c :: s) (c :: t).

(** A release candidate precedes the release and later candidates. *)
Inductive rc_before : option Z -> option Z -> Prop :=
| RB_num a b : a < b -> rc_before (Some a) (Some b)
| RB_rel a : rc_before (Some a) None.

(** The first component that differs decides. *)
Inductive before : kver -> kver -> Prop :=
| B_major a b c r l a' b' c' r' l' : a < a' -> before (KV a b c r l) (KV a' b' c' r' l')
| B_minor a b c r l b' c' r' l' : b < b' -> before (KV a b c r l) (KV a b' c' r' l')
| B_stable a b c r l c' r' l' : c < c' -> before (KV a b c r l) (KV a b c' r' l')
| B_rc a b c r l r' l' : rc_before r r' -> before (KV a b c r l) (KV a b c r' l')
| B_local a b c r l l' : alpha_before l l' -> before (KV a b c r l) (KV a b c r l').
