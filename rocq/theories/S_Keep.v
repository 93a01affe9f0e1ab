(** Specification of saving and restoring properties through a property class (C72): what the CPUs see. *)
From Verif Require Import Base M_CPUInfo S_CPUInfo M_Props S_Props M_OpTarget M_Print S_Print.

(** CPU [c] belongs to a CPU, die or package; is among the numbers of a file entry. *)
Definition cpu_of (topo : list tline) (k : pnum) (c : Z) : Prop :=
  match k with
  | NumCPU x => c = x
  | NumDie p d => cpu_in_die topo (p, d) c
  | NumPkg p => cpu_in_pkg topo p c
  end.
Definition covers (topo : list tline) (sn : rsname) (n : nums) (c : Z) : Prop :=
  exists k, holds sn n k /\ cpu_of topo k c.

(** A package is in a dictionary once. *)
Definition keys_once (n : nums) : Prop := match n with NDict d => NoDup (map fst d) | NList _ => True end.

(** The numbers fit the scope name, and there are some, for every package. *)
Definition well_formed (sn : rsname) (n : nums) : Prop :=
  match sn, n with
  | RDie, NDict d => d <> [] /\ NoDup (map fst d) /\ forall p l, In (p, l) d -> l <> []
  | RCPU, NList l | RPkg, NList l => l <> []
  | _, _ => False
  end.

Section Keep.
  Context {St V : Type}.
  Variable cls : pclass St V.
  Let topo := ci_topo (pc_ci cls).

  (** The machine: [sees st p c] is the value of property [p] on CPU [c]; [shares p x c]: what is written on CPU [x] is
      seen on CPU [c]. *)
  Variable sees : St -> Z -> Z -> option V.
  Variable shares : Z -> Z -> Z -> Prop.

  Record machine : Prop := {
    (* reading gives what the CPUs see, and a mechanism that is not supported is supported on no CPU *)
    ma_read : forall p cpus m st vals e c v, pc_get cls p cpus m st = (vals, e) -> In (c, v) vals -> v = sees st p c;
    ma_lacks : forall p cpus m st c, lacks cls st p cpus m -> In c cpus -> lacks cls st p [c] m;
    (* looking up a scope or refusing to write changes nothing *)
    ma_scope : forall p st r st1 q c, pc_set_sname cls p st = (r, st1) -> sees st1 q c = sees st q c;
    ma_refuse : forall p v w m st st1 q c, refuses cls p v w m st st1 -> sees st1 q c = sees st q c;
    (* writing changes the property, on the CPUs that share it with those written, and nothing else *)
    ma_write : forall p v w m st st1, pc_set cls p v w m st = (Ok tt, st1) ->
      (forall x c, In x w -> shares p x c -> sees st1 p c = Some v) /\
      (forall q c, ~ (q = p /\ exists x, In x w /\ shares p x c) -> sees st1 q c = sees st q c);
    ma_shares : forall st p x c, shares p x c -> sees st p x = sees st p c;
    ma_self : forall p c, In c (ci_online (pc_ci cls)) -> shares p c c;
    (* the I/O scope tells who shares; the scope is not narrower, and does not change *)
    ma_io : forall st p io x c, pc_iosname cls st p = Some io -> (shares p x c <-> same_unit topo io x c);
    ma_sname : forall st p sc x c, pc_sname cls st p = Some sc -> shares p x c -> same_unit topo sc x c;
    ma_fixed : forall st st' p sc sc', pc_sname cls st p = Some sc -> pc_sname cls st' p = Some sc' -> sc = sc';
    ma_modules : forall st p, pc_iosname cls st p = Some SModule -> modules_unique topo;
    (* what is seen is a value that can be set *)
    ma_value : forall st p c v, sees st p c = Some v -> pc_norm cls p v = Ok v }.

  (** A file entry is by package or die only if that is the scope of the property. *)
  Definition by_scope (p : Z) (sn : rsname) : Prop :=
    forall st sc, pc_sname cls st p = Some sc ->
      match sn with RPkg => sc = SPackage | RDie => sc = SDie | RCPU => True end.

  (** The file gives CPU [c] the value [v] of property [p]. *)
  Definition file_gives (f : @ydict V) (p : Z) (v : option V) (c : Z) : Prop :=
    exists k, file_says f p v k /\ cpu_of topo k c.

  (** The file has no contradictions, and what it says is by scope. *)
  Definition proper (f : @ydict V) : Prop :=
    (forall p v v' c, file_gives f p v c -> file_gives f p v' c -> v = v') /\
    forall p ys y n, In (p, ys) f -> In y ys -> parse_ynums (y_nums y) = Ok n -> by_scope p (y_sname y) /\ keys_once n.

  (** What asking for the scope of property [p] gives: that which is known; if it is not, that which is found out now. *)
  Definition scope_answer (p : Z) (st : St) (r : res (option scope)) (st1 : St) : Prop :=
    match dget Z.eqb (pc_props cls) p with
    | None => r = Exn EError /\ st1 = st
    | Some _ =>
        match pc_sname cls st p with
        | Some sc => r = Ok (Some sc) /\ st1 = st
        | None => (scope_known cls p st st1 /\ r = Ok (pc_sname cls st1 p)) \/ (scope_unsupported cls p st st1 /\ r = Ok None) \/
                  (exists e, e <> ENotSupported /\ pc_set_sname cls p st = (Exn e, st1) /\ r = Exn e)
        end
    end.

  (** The machine lets property [p] be set, with its first mechanism, and its scope is known. *)
  Definition accepts (p : Z) : Prop :=
    exists d m rest sc, dget Z.eqb (pc_props cls) p = Some d /\ pd_writable d = true /\ pd_mnames d = m :: rest /\
      (sc = SCPU \/ sc = SGlobal \/ sc = SPackage \/ sc = SDie /\ io_dies_exact (pc_ci cls) \/ sc = SCore) /\
      forall st, exists st1, pc_set_sname cls p st = (Ok tt, st1) /\ pc_sname cls st1 p = Some sc /\
        (exists io, pc_iosname cls st1 p = Some io) /\
        forall v0 v w, pc_norm cls p v0 = Ok v -> w <> [] -> (forall c, In c w -> In c (ci_online (pc_ci cls))) ->
          exists st2, pc_set cls p v w m st1 = (Ok tt, st2).

  (** Whatever is set on a CPU by number is set on all the CPUs of its unit: core, package ..., by the scope of [p]. *)
  Definition whole (p : Z) (has : Z -> Prop) : Prop :=
    forall st sc x c, pc_sname cls st p = Some sc -> same_unit topo sc x c -> has x -> has c.

  (** Every entry of the file can be set. *)
  Definition settable (p : Z) (y : @yval V) : Prop :=
    exists v0 v n, y_value y = Some v0 /\ pc_norm cls p v0 = Ok v /\ parse_ynums (y_nums y) = Ok n /\
      by_scope p (y_sname y) /\ well_formed (y_sname y) n /\
      (forall k, holds (y_sname y) n k -> exists_num (pc_ci cls) k /\ exists c, cpu_of topo k c) /\
      whole p (fun c => holds (y_sname y) n (NumCPU c)).
End Keep.
