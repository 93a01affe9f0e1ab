(** Specification vocabulary for setting several properties in one transaction. *)
From Verif Require Import Base M_Text M_Sysfs S_Sysfs M_CPUInfo M_MSR S_MSR M_Setter.

(** All calls a program may make have the given properties, whatever the answers are. *)
Fixpoint calls (Pm : mop -> Prop) (Ps : sop -> Prop) (p : prog) : Prop :=
  match p with
  | PEnd _ => True
  | PMsr o c => Pm o /\ forall r, calls Pm Ps (c r)
  | PSys o c => Ps o /\ forall r, calls Pm Ps (c r)
  end.

Definition sys_transaction (o : sop) : Prop := match o with SStart | SFlush | SCommit => True | _ => False end.

(** The code of a property does not touch the transactions, uses the right scope of every register, and always
    addresses a shared register through the same first CPU. *)
Definition property_code (env : menv) (sc : Z -> scope) (rep : Z -> Z -> Z) : prog -> Prop :=
  calls (fun o => buffered_op o /\ op_scoped sc o /\ op_rep env rep o) (fun o => ~ sys_transaction o).

(** Code that only reads. *)
Definition printing_code (sc : Z -> scope) : prog -> Prop :=
  calls (fun o => exists a cpus, o = ORead a cpus (sc a))
        (fun o => (exists p, o = SRead p) \/ exists p, o = SReadInt p).

(** A program that makes these calls one after the other, and gets these answers, ends with the given result. *)
Inductive plays : prog -> list event -> res unit -> Prop :=
| plays_end r : plays (PEnd r) [] r
| plays_msr o c a t r : plays (c a) t r -> plays (PMsr o c) (EMsr o a :: t) r
| plays_sys o c a t r : plays (c a) t r -> plays (PSys o c) (ESys o a :: t) r.

Definition is_ok {A} (r : res A) : bool := match r with Ok _ => true | Exn _ => false end.

(** The calls on each of the objects, with their success. *)
Definition msr_events (t : list event) : list (mop * bool) :=
  flat_map (fun e => match e with EMsr o a => [(o, is_ok a)] | ESys _ _ => [] end) t.
Definition sys_events (t : list event) : list (sop * bool) :=
  flat_map (fun e => match e with ESys o a => [(o, is_ok a)] | EMsr _ _ => [] end) t.
Notation w_mh w := (msr_events (w_ev w)).
Notation w_sh w := (sys_events (w_ev w)).

(** The transactions are started. *)
Definition opening (both : bool) : list event :=
  (if both then [ESys SStart (Ok [])] else []) ++ [EMsr OStart (Ok [])].

(** The register values on the hardware and the contents of the files. *)
Definition registers (w : world) : Z -> Z -> Z := ms_hw (w_m w).
Definition files (w : world) : str -> option str := ss_fs (w_s w).
(** What has been handed over to the hardware and to the kernel. *)
Definition sent (w : world) : list (Z * Z * Z) * list (str * str) := (ms_log (w_m w), ss_log (w_s w)).

(** The calls made on the MSR object. *)
Definition msr_calls (w : world) : list mop := map fst (w_mh w).
Definition msr_fine (w : world) : Prop := forall e, In e (w_mh w) -> snd e = true.

(** The file writes that were accepted, in order. *)
Definition accepted_in (t : list (sop * bool)) : list (str * str) :=
  flat_map (fun e : sop * bool => if snd e then match asked (fst e) with Some x => [x] | None => [] end else []) t.
Definition accepted (w : world) : list (str * str) := accepted_in (w_sh w).

(** Everything a sane machine offers to a command. *)
Record machine (env : menv) (sc : Z -> scope) (k : senv) : Prop := MACH {
  mach_ci : S_CPUInfo.wf_ci (me_ci env);
  mach_scope : forall a, scope_right env a (sc a);
  mach_msr : faithful env;
  mach_mcache : me_cache env = true;
  mach_scache : se_cache k = true }.
