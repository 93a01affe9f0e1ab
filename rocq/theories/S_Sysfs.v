(** Independent vocabulary for the sysfs properties: what a caller knows from its own calls. *)
From Verif Require Import Base M_Text M_Sysfs.

(** The value a write call asks for: its path and the text (the "int" variants write the decimal
    form of their argument). *)
Definition asked (o : sop) : option (str * str) :=
  match o with
  | SWrite p v _ | SWriteVerify p v _ _ _ => Some (p, v)
  | SWriteInt p v _ | SWriteVerifyInt p v _ _ _ =>
      match str_to_int v with Ok n => Some (p, dec n) | Exn _ => None end
  | _ => None
  end.

(** The state of the transaction as far as the caller can tell: is it open, and the values written
    since it was opened or flushed, in order.  A call that failed has no effect on it. *)
Definition tstate := (bool * list (str * str))%type.

Definition track (e : sop * bool) (t : tstate) : tstate :=
  match e with
  | (_, false) => t
  | (SStart, true) => (true, [])
  | (SFlush, true) => (fst t, [])
  | (SCommit, true) => (false, [])
  | (o, true) =>
      match asked o with
      | Some w => if fst t then (true, snd t ++ [w]) else t
      | None => t
      end
  end.

Definition known (tr : list (sop * bool)) : tstate := fold_left (fun t e => track e t) tr (false, []).

(** The last value written to 'p'. *)
Fixpoint last_value (ws : list (str * str)) (p : str) : option str :=
  match ws with
  | [] => None
  | (q, v) :: t =>
      match last_value t p with
      | Some w => Some w
      | None => if str_eqb q p then Some v else None
      end
  end.

(** The paths in order of first write. *)
Fixpoint first_paths (seen : list str) (ws : list (str * str)) : list str :=
  match ws with
  | [] => []
  | (p, _) :: t => if in_dec (list_eq_dec ascii_dec) p seen then first_paths seen t
                   else p :: first_paths (p :: seen) t
  end.

(** One write per path, in order of first write, of the last value written to it. *)
Definition merged (ws : list (str * str)) : list (str * str) :=
  flat_map (fun p => match last_value ws p with Some v => [(p, v)] | None => [] end)
           (first_paths [] ws).

(** What reading a file gives without any cache. *)
Definition on_disk (k : senv) (s : sstate) (p : str) : res str :=
  match ss_fs s p with
  | None => Exn ENotSupported
  | Some raw => if k_unreadable k p then Exn EError else Ok (strip raw)
  end.

(** The kernel stores what is written to 'p'. *)
Definition stores (k : senv) (p v : str) : Prop :=
  forall old c, k_write k p old v = Some c -> strip c = v.

(** A plain, unverified write outside a transaction relies on the kernel storing the value. *)
Definition plain_ok (k : senv) (o : sop) : Prop :=
  match o with
  | SWrite p v _ => stores k p v
  | SWriteInt p v _ => forall n, str_to_int v = Ok n -> stores k p (dec n)
  | _ => True
  end.

(** A failing call that may concern 'p': a write to it, or a flush. *)
Definition upsets (p : str) (e : sop * bool) : Prop :=
  match e with
  | (_, true) => False
  | (SWrite q _ _, false) | (SWriteInt q _ _, false)
  | (SWriteVerify q _ _ _ _, false) | (SWriteVerifyInt q _ _ _ _, false) => q = p
  | (SFlush, false) | (SCommit, false) => True
  | _ => False
  end.

(** The text a reader of the file sees. *)
Definition contents (s : sstate) (p : str) : option str := option_map strip (ss_fs s p).

Definition is_flush (o : sop) : bool := match o with SFlush | SCommit => true | _ => false end.

(** Every plain write of the trace that was made outside a transaction was to a file that stores what
    is written. *)
Fixpoint trusting (k : senv) (t : tstate) (tr : list (sop * bool)) : Prop :=
  match tr with
  | [] => True
  | (o, b) :: r => (fst t = false -> plain_ok k o) /\ trusting k (track (o, b) t) r
  end.

(** State [s] is reached from a new object by the calls [ops]; [tr] tells which of them succeeded. *)
Definition reached (k : senv) (fs : str -> option str) (ops : list sop) (tr : list (sop * bool))
    (s : sstate) : Prop :=
  srun k ops (s_init fs) = (tr, s) /\ trusting k (false, []) tr.
