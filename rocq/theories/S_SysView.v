(** What the users of sysfs files rely on: what reading a file returns. *)
From Verif Require Import Base M_Text M_Sysfs S_Sysfs.

(** What reading file 'p' gives now. *)
Definition seen (k : senv) (s : sstate) (p : str) : res str := fst (s_read k p s).

(** What reading the number in file 'p' gives now. *)
Definition seen_int (k : senv) (s : sstate) (p : str) : res Z := fst (s_read_int k p s).

(** File 'p' exists, can be read, and takes and keeps the value 'v'. *)
Definition takes (k : senv) (s : sstate) (p v : str) : Prop :=
  ss_fs s p <> None /\ k_unreadable k p = false /\
  forall old, exists c, k_write k p old v = Some c /\ strip c = v.

(** File 'p' is as it was, and so is what reading it gives. *)
Definition untouched (k : senv) (s s' : sstate) (p : str) : Prop :=
  ss_fs s' p = ss_fs s p /\ seen k s' p = seen k s p.
