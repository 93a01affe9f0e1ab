(** Specification vocabulary for PCI ASPM. *)
From Verif Require Import Base M_Text S_Text M_Kver M_Osa S_Osa M_Aspm.

(** A policy name: a word without brackets. *)
Definition plain (n : str) : Prop :=
  n <> [] /\ forall c, In c n -> is_space c = false /\ c <> "["%char /\ c <> "]"%char.

Definition blank (t : str) : Prop := forall c, In c t -> is_space c = true.

(** The policy file lists all names, separated by spaces, and the current one is in brackets:
    "default performance [powersave] powersupersave". *)
Definition menu (names : list str) (cur : str) (t : str) : Prop :=
  Forall plain names /\
  exists pre post b1 b2, names = pre ++ cur :: post /\ blank b1 /\ blank b2 /\
    t = b1 ++ join " " (pre ++ ("["%char :: cur ++ ["]"%char]) :: post) ++ b2.

(** The L1 file of a device contains 1 or 0. *)
Definition flag (on : bool) (t : str) : Prop :=
  exists e, (e = [] \/ e = ["010"%char]) /\ t = (if on then "1"%char else "0"%char) :: e.

(** What a user may say, in any letter case. *)
Definition means_state (on : bool) (st : str) : Prop :=
  exists w, In w (if on then ["on"; "true"; "enable"] else ["off"; "false"; "disable"])%string /\ Forall2 same_letter st (s2l w).

Definition given (d : option str) : Prop := exists c a, d = Some (c :: a).

(** Only the given files differ. *)
Definition only (ps : list str) (fs fs' : str -> option str) : Prop := forall q, ~ In q ps -> fs' q = fs q.
Definition untouched (s s' : astate) : Prop := a_fs s' = a_fs s /\ a_log s' = a_log s.

(** A kernel that accepts every listed policy name and makes it the current one. *)
Definition obeys (env : aenv) : Prop :=
  ae_unreadable env policy_path = false /\
  forall names cur t n, menu names cur t -> In n names -> exists t', ae_write env policy_path t n = Some t' /\ menu names n t'.
