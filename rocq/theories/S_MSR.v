(** Specification vocabulary for MSR access. *)
From Verif Require Import Base M_CPUInfo S_CPUInfo M_MSR.

(** ** Bit-fields *)

(** A bit-field of a 64-bit register. *)
Definition field_ok (b : bits_t) : Prop := 0 <= snd b /\ snd b <= fst b /\ fst b <= 63.

Definition in_field (b : bits_t) (i : Z) : Prop := snd b <= i <= fst b.

(** The values a field can hold. *)
Definition field_width (b : bits_t) : Z := fst b - snd b + 1.
Definition fits (b : bits_t) (v : Z) : Prop := 0 <= v < 2 ^ field_width b.

(** [new] is [old] with the field set to [v], bit by bit. *)
Definition is_set (b : bits_t) (v old new : Z) : Prop :=
  forall i, 0 <= i ->
    (in_field b i -> Z.testbit new i = Z.testbit v (i - snd b)) /\
    (~ in_field b i -> Z.testbit new i = Z.testbit old i).

(** [v] is the value of the field of [r]. *)
Definition is_field (b : bits_t) (r v : Z) : Prop :=
  fits b v /\ forall i, in_field b i -> Z.testbit r i = Z.testbit v (i - snd b).

(** The value stored when "all ones" may be asked for. *)
Definition value_of (b : bits_t) (val : option Z) : Z :=
  match val with Some v => v | None => 2 ^ field_width b - 1 end.

(** ** Registers *)

(** The CPUs an operation is about. *)
Definition targets (env : menv) (cpus : nums_t) : list Z :=
  match cpus with None => ci_online (me_ci env) | Some l => l end.

Definition targeted (env : menv) (a : Z) (cpus : nums_t) (d : Z) : Prop :=
  exists c, In c (targets env cpus) /\ me_dom env a c = d.

(** The writes waiting in the transaction buffer, in the order in which a flush does them. *)
Definition pending_writes (s : mstate) : list (Z * Z * Z) :=
  flat_map (fun e => map (fun r => (fst e, fst r, ti_val (snd r))) (snd e)) (ms_tbuf s).

(** Doing a list of (CPU, address, value) writes. *)
Definition do_writes (env : menv) (ws : list (Z * Z * Z)) (hw : Z -> Z -> Z) : Z -> Z -> Z :=
  fold_left (fun h w => let '(c, a, v) := w in upd h a (upd (h a) (me_dom env a c) v)) ws hw.

(** The value of a register as the caller should see it: what the hardware would hold if the pending
    writes were done now. Without a transaction this is just the hardware value. *)
Definition view (env : menv) (s : mstate) (a d : Z) : Z :=
  do_writes env (pending_writes s) (ms_hw s) a d.

(** The scope name is the right one for the register: the topology puts exactly those CPUs into one
    unit that share the register. *)
Definition scope_right (env : menv) (a : Z) (sn : scope) : Prop :=
  sn <> SGlobal /\ (sn = SModule -> modules_unique (ci_topo (me_ci env))) /\
  forall c, In c (ci_online (me_ci env)) -> forall x,
    same_unit (ci_topo (me_ci env)) sn c x <->
    In x (ci_online (me_ci env)) /\ me_dom env a x = me_dom env a c.

(** Hardware that stores what is written. *)
Definition faithful (env : menv) : Prop := forall a old v, me_accept env a old v = v.

(** A call made with the right scope name and a proper field. *)
Definition op_scoped (sc : Z -> scope) (o : mop) : Prop :=
  match o with
  | ORead a _ sn => sn = sc a
  | OWrite a _ _ sn _ => sn = sc a
  | OWriteBits a b val _ sn _ =>
      sn = sc a /\ field_ok b /\ match val with Some v => 0 <= v | None => True end
  | _ => True
  end.

(** The CPUs of a call in the order they are processed. *)
Definition ordered_targets (env : menv) (cpus : nums_t) : list Z :=
  match cpus with None => zsort (ci_online (me_ci env)) | Some l => l end.

(** Among the CPUs of the call that share a register, the first one is always the same CPU. *)
Definition first_is (env : menv) (rep : Z -> Z -> Z) (a : Z) (cpus : nums_t) : Prop :=
  forall c, In c (targets env cpus) ->
    find (fun x => me_dom env a x =? me_dom env a c) (ordered_targets env cpus)
    = Some (rep a (me_dom env a c)).

Definition op_rep (env : menv) (rep : Z -> Z -> Z) (o : mop) : Prop :=
  match o with
  | OWrite a _ cpus _ _ => first_is env rep a cpus
  | OWriteBits a _ _ cpus _ _ => first_is env rep a cpus
  | _ => True
  end.

(** The effect of a successful call on the register values the caller should see. *)
Definition op_effect (env : menv) (o : mop) (L L' : Z -> Z -> Z) : Prop :=
  match o with
  | OWrite a v cpus _ _ =>
      forall a' d, (a' = a /\ targeted env a cpus d -> L' a' d = v) /\
                   (~ (a' = a /\ targeted env a cpus d) -> L' a' d = L a' d)
  | OWriteBits a b val cpus _ _ =>
      forall a' d, (a' = a /\ targeted env a cpus d -> is_set b (value_of b val) (L a' d) (L' a' d)) /\
                   (~ (a' = a /\ targeted env a cpus d) -> L' a' d = L a' d)
  | _ => forall a' d, L' a' d = L a' d
  end.

Inductive effects (env : menv) : list mop -> (Z -> Z -> Z) -> (Z -> Z -> Z) -> Prop :=
| eff_nil L L' : (forall a d, L' a d = L a d) -> effects env [] L L'
| eff_cons o t L L' L'' : op_effect env o L L' -> effects env t L' L'' -> effects env (o :: t) L L''.

(** The registers a call may change. *)
Definition op_touches (env : menv) (o : mop) (a d : Z) : Prop :=
  match o with
  | OWrite a' _ cpus _ _ => a = a' /\ targeted env a' cpus d
  | OWriteBits a' _ _ cpus _ _ => a = a' /\ targeted env a' cpus d
  | _ => False
  end.

(** Neither flushes nor commits. *)
Definition buffered_op (o : mop) : Prop :=
  match o with OStart | OFlush | OCommit => False | _ => True end.

(** Within a history: either no transaction is ever started, or shared registers are always addressed
    through the same first CPU. *)
Definition disciplined (env : menv) (sc : Z -> scope) (ops : list mop) : Prop :=
  (forall o, In o ops -> op_scoped sc o) /\
  ((~ In OStart ops) \/ exists rep, forall o, In o ops -> op_rep env rep o).

(** ** The per-CPU cache alone *)

Inductive cop :=
| CAdd (a c v : Z) (sn : scope)
| CRemove (a c : Z) (sn : scope).

(** Calls on the cache; exceptions leave the state as it is. *)
Definition crun (env : menv) (ops : list cop) (s : mstate) : mstate :=
  fold_left (fun s o => snd (match o with
                             | CAdd a c v sn => cache_add env a c v sn s
                             | CRemove a c sn => cache_remove env a c sn s
                             end)) ops s.

(** The call concerns the entry of CPU [x] for the name [a]. *)
Definition concerns (env : menv) (o : cop) (a x : Z) : Prop :=
  match o with
  | CAdd a' c _ sn | CRemove a' c sn => a' = a /\ same_unit (ci_topo (me_ci env)) sn c x
  end.

(** What the cache should hold for CPU [x] under [a] after a history: decided by the last call that
    concerns it. *)
Inductive cached_after (env : menv) (a x : Z) : list cop -> option Z -> Prop :=
| ca_nil : cached_after env a x [] None
| ca_add ops c v sn : concerns env (CAdd a c v sn) a x ->
    cached_after env a x (ops ++ [CAdd a c v sn]) (Some v)
| ca_remove ops c sn : concerns env (CRemove a c sn) a x ->
    cached_after env a x (ops ++ [CRemove a c sn]) None
| ca_skip ops o r : ~ concerns env o a x -> cached_after env a x ops r ->
    cached_after env a x (ops ++ [o]) r.

(** Calls for online CPUs; a removal never uses the "global" scope. *)
Definition cop_ok (env : menv) (o : cop) : Prop :=
  match o with
  | CAdd _ c _ sn => In c (ci_online (me_ci env))
  | CRemove _ c sn => In c (ci_online (me_ci env)) /\ sn <> SGlobal
  end.

(** ** Calls that have no reason to fail *)

(** No I/O operation is going to fail. *)
Definition io_works (s : mstate) : Prop := forall b, In b (ms_faults s) -> b = false.

(** A proper call: CPUs online, values that fit, transactions started and committed in turns ([intr]: a transaction
    is going on). *)
Definition op_valid (env : menv) (intr : bool) (o : mop) : Prop :=
  match o with
  | ORead _ cpus _ => incl (targets env cpus) (ci_online (me_ci env))
  | OWrite _ v cpus _ _ => 0 <= v < 2 ^ 64 /\ incl (targets env cpus) (ci_online (me_ci env))
  | OWriteBits _ b val cpus _ _ => incl (targets env cpus) (ci_online (me_ci env)) /\ fits b (value_of b val)
  | OStart => me_cache env = true /\ intr = false
  | OFlush => True
  | OCommit => intr = true
  end.

Fixpoint ops_valid (env : menv) (intr : bool) (ops : list mop) : Prop :=
  match ops with
  | [] => True
  | o :: t => op_valid env intr o /\
              ops_valid env (match o with OStart => true | OCommit => false | _ => intr end) t
  end.
