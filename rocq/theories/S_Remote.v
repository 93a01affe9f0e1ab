(** Specification vocabulary for MSR access on a remote host. *)
From Verif Require Import Base M_MSR S_MSR.

(** The answers to a sequence of calls in which every call returns normally, and the state after it. *)
Fixpoint answers (step : mop -> M mstate (list (Z * Z))) (ops : list mop) (s : mstate) : option (list (list (Z * Z)) * mstate) :=
  match ops with
  | [] => Some ([], s)
  | o :: t =>
      match step o s with
      | (Ok r, s') => match answers step t s' with Some (rs, s'') => Some (r :: rs, s'') | None => None end
      | (Exn _, _) => None
      end
  end.

(** A write to the register is waiting for the end of the transaction. *)
Definition waits (env : menv) (s : mstate) (a d : Z) : Prop :=
  exists c m t, In (c, m) (ms_tbuf s) /\ In (a, t) m /\ me_dom env a c = d.

(** The registers a call may change. *)
Definition may_change (env : menv) (o : mop) (s : mstate) (a d : Z) : Prop :=
  match o with
  | OWrite a' _ cpus _ _ => a = a' /\ exists c, In c (targets env cpus) /\ me_dom env a c = d
  | OWriteBits a' _ _ cpus _ _ => a = a' /\ exists c, In c (targets env cpus) /\ me_dom env a c = d
  | OFlush | OCommit => waits env s a d
  | _ => False
  end.
