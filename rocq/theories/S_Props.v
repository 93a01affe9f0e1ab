(** Specification of property access (C18-C21, C47). *)
From Verif Require Import Base M_CPUInfo S_CPUInfo M_Props.

Section Spec.
  Context {St V : Type}.
  Variable cls : pclass St V.

  (** Mechanism [m] gives these values for the CPUs; it does not support the property for them. *)
  Definition gives (st : St) (pname : Z) (cpus : list Z) (m : Z) (vals : list (Z * option V)) : Prop :=
    pc_get cls pname cpus m st = (vals, None).
  Definition lacks (st : St) (pname : Z) (cpus : list Z) (m : Z) : Prop :=
    pc_get cls pname cpus m st = ([], Some ENotSupported).

  (** What is documented for the sub-class (_PropsClassBase.py:508-512): one value per CPU. *)
  Definition one_value_per_cpu : Prop :=
    forall st pname cpus m vals, gives st pname cpus m vals -> map fst vals = cpus.

  (** A value yielded when asking about one CPU is for that CPU. *)
  Definition keyed : Prop :=
    forall pname cpu m st vals e, pc_get cls pname [cpu] m st = (vals, e) ->
      Forall (fun kv => fst kv = cpu) vals.

  (** "==" on property values is an equivalence. *)
  Definition veq_equiv : Prop :=
    (forall x, pc_veqb cls x x = true) /\
    (forall x y, pc_veqb cls x y = true -> pc_veqb cls y x = true) /\
    (forall x y z, pc_veqb cls x y = true -> pc_veqb cls y z = true -> pc_veqb cls x z = true).

  (** The mechanisms a call may use, in order: those given (each once), or those of the property. *)
  Definition allowed (pname : Z) (mnames : option (list Z)) (ms : list Z) : Prop :=
    exists p, dget Z.eqb (pc_props cls) pname = Some p /\
      match mnames with
      | None | Some [] => ms = pd_mnames p
      | Some l => (forall m, In m ms <-> In m l) /\ in_order_of l ms
      end.

  (** [m] comes first among [ms] after the mechanisms [pre]. *)
  Definition tried_first (ms pre : list Z) (m : Z) : Prop := exists post, ms = pre ++ m :: post.

  (** The requested CPUs. *)
  Definition req_cpus (cpus : nums_t) (l : list Z) : Prop :=
    NoDup l /\ (forall c, In c l -> In c (ci_online (pc_ci cls))) /\
    (forall c, In c l <-> match cpus with Some l0 => In c l0 | None => In c (ci_online (pc_ci cls)) end).

  (** The state of the sub-class after the scope of the property has been looked up. *)
  Definition scope_known (pname : Z) (st st1 : St) : Prop := pc_set_sname cls pname st = (Ok tt, st1).
  Definition scope_unsupported (pname : Z) (st st1 : St) : Prop :=
    pc_set_sname cls pname st = (Exn ENotSupported, st1).

  (** The arguments of a request that are wrong: an unknown property, a mechanism the property does
      not have, a CPU that is not online. *)
  Definition bad_read_args (pname : Z) (cpus : nums_t) (mnames : option (list Z)) : Prop :=
    dget Z.eqb (pc_props cls) pname = None \/
    (exists p l m, dget Z.eqb (pc_props cls) pname = Some p /\ mnames = Some l /\ In m l /\
                   ~ In m (pd_mnames p)) \/
    (exists l c, cpus = Some l /\ In c l /\ ~ In c (ci_online (pc_ci cls))).

  (** Mechanism [m] refuses to set. *)
  Definition refuses (pname : Z) (v : V) (cpus : list Z) (m : Z) (st st1 : St) : Prop :=
    pc_set cls pname v cpus m st = (Exn ENotSupported, st1) \/
    pc_set cls pname v cpus m st = (Exn ETryAnother, st1).

  (** All of [ms], in this order, refuse. *)
  Inductive all_refuse (pname : Z) (v : V) (cpus : list Z) : list Z -> St -> St -> Prop :=
  | AR_nil : forall st, all_refuse pname v cpus [] st st
  | AR_cons : forall m ms st st1 st2, refuses pname v cpus m st st1 ->
      all_refuse pname v cpus ms st1 st2 -> all_refuse pname v cpus (m :: ms) st st2.

  (** What going through the mechanisms [ms] in order must come to, from sub-class state [st] to
      [st']: [tried] are the mechanisms called. Either the first one that does not refuse decides
      between success and failure, or all of them refuse and the call fails with [fail]. *)
  Definition mech_outcome (pname : Z) (v : V) (cpus ms : list Z) (fail : exc) (tried : list Z)
      (st : St) (r : res Z) (st' : St) : Prop :=
    (exists pre m post st2, ms = pre ++ m :: post /\ tried = pre ++ [m] /\
       all_refuse pname v cpus pre st st2 /\
       ((pc_set cls pname v cpus m st2 = (Ok tt, st') /\ r = Ok m) \/
        (exists e, e <> ENotSupported /\ e <> ETryAnother /\
           pc_set cls pname v cpus m st2 = (Exn e, st') /\ r = Exn e))) \/
    (tried = ms /\ all_refuse pname v cpus ms st st' /\ r = Exn fail).

  (** The arguments of a set request that must be rejected: an unknown or read-only property, no
      value, a bad value; a mechanism that the property does not have or that is read-only. *)
  Definition bad_write_args (pname : Z) (val : option V) (mnames : option (list Z)) : Prop :=
    dget Z.eqb (pc_props cls) pname = None \/
    (exists p, dget Z.eqb (pc_props cls) pname = Some p /\ pd_writable p = false) \/
    val = None \/ (exists v e, val = Some v /\ pc_norm cls pname v = Exn e) \/
    (exists p l m, dget Z.eqb (pc_props cls) pname = Some p /\ mnames = Some l /\ In m l /\
       (~ In m (pd_mnames p) \/ dget Z.eqb (pc_mechs cls) m <> Some true)).

  (** A mechanism that refuses leaves everything as it was. *)
  Definition refusal_is_clean : Prop :=
    forall pname v cpus m st st1, refuses pname v cpus m st st1 -> st1 = st.

  (** A list of CPUs that consists of whole units of scope [s]. *)
  Definition whole_units (s : scope) (l : list Z) : Prop :=
    forall c x, In c l -> same_unit (ci_topo (pc_ci cls)) s c x -> In x l.

  (** Two values are the same (the class's notion of equality). *)
  Definition same_value (a b : option V) : Prop :=
    match a, b with
    | Some x, Some y => pc_veqb cls x y = true
    | None, None => True
    | _, _ => False
    end.

  (** CPU [c] is the lowest-numbered one of the group [P]. *)
  Definition lowest (P : Z -> Prop) (c : Z) : Prop := P c /\ forall x, P x -> c <= x.

  (** Reading through mechanism [m] on CPU [c] alone gives [v], or fails as not supported. *)
  Definition gives1 (st : St) (pname m c : Z) (v : option V) : Prop :=
    exists rest e, pc_get cls pname [c] m st = ((c, v) :: rest, e).

  (** Die [pd] (package, die) is requested by a dictionary argument. *)
  Definition die_requested (ds : list (Z * nums_t)) (pd : Z * Z) : Prop :=
    exists arg, dget Z.eqb ds (fst pd) = Some arg /\ nums_has arg (snd pd).

  (** The value of a unit (package or die) with CPUs [P], read with mechanism [m]: that of its
      lowest-numbered CPU; and the mechanism not supporting the property there. *)
  Definition unit_gives (st : St) (pname m : Z) (P : Z -> Prop) (v : option V) : Prop :=
    exists c, lowest P c /\ gives1 st pname m c v.
  Definition unit_lacks (st : St) (pname m : Z) (P : Z -> Prop) : Prop :=
    exists c, lowest P c /\ lacks st pname [c] m.

  (** All CPUs of [P] have the same value by the first mechanism that supports the property for them
      all, or no mechanism supports it. *)
  Definition agree (st : St) (pname : Z) (ms : list Z) (P : Z -> Prop) : Prop :=
    exists cpus, (forall c, In c cpus <-> P c) /\
      ((exists pre m vals, tried_first ms pre m /\ Forall (lacks st pname cpus) pre /\
          gives st pname cpus m vals /\
          forall a b, In a vals -> In b vals -> same_value (snd a) (snd b)) \/
       Forall (lacks st pname cpus) ms).
End Spec.
