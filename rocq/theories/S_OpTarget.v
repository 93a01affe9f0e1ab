(** Specification vocabulary for operation targets. *)
From Verif Require Import Base M_CPUInfo S_CPUInfo M_OpTarget.

(** ** What the arguments name *)

(** The argument is there and names something. *)
Definition names (a : option nums_t) : Prop :=
  match a with None => False | Some None => True | Some (Some l) => l <> [] end.
Definition names_units (a : uarg) : Prop :=
  match a with UNone => False | UNums None => True | UNums (Some l) => l <> [] | UDict d => d <> [] end.

(** Nothing is named at all, which means everything. *)
Definition everything (a : otargs) : Prop :=
  ~ names (oa_cpus a) /\ ~ names_units (oa_cores a) /\ ~ names (oa_modules a) /\
  ~ names_units (oa_dies a) /\ ~ names (oa_packages a).

(** Dictionaries have no empty items. *)
Definition uarg_proper (a : uarg) : Prop :=
  match a with UDict d => forall p l, In (p, l) d -> l <> [] | _ => True end.
Definition args_proper (a : otargs) : Prop := uarg_proper (oa_cores a) /\ uarg_proper (oa_dies a).

(** The number is among those given. *)
Definition chosen (a : option nums_t) (n : Z) : Prop :=
  match a with None => False | Some ns => nums_has ns n end.

(** Package numbers say which package the core and die numbers belong to. When all cores or all dies
    are wanted, these are all packages. *)
Definition qualified (a : otargs) : Prop :=
  names (oa_packages a) \/ oa_dies a = UNums None \/ oa_cores a = UNums None.

Definition wants_cpu (ci : cpuinfo) (a : otargs) (c : Z) : Prop :=
  (everything a \/ chosen (oa_cpus a) c) /\ available ci (oa_offline_ok a) c.
Definition wants_module (a : otargs) (m : Z) : Prop := chosen (oa_modules a) m.
Definition wants_pkg (a : otargs) (p : Z) : Prop :=
  chosen (oa_packages a) p \/ (~ names (oa_packages a) /\ (everything a \/ qualified a)).

(** Unit [u] of package [p] is named: by a dictionary, or by a number together with the packages, or by
    a number alone. *)
Definition wants_unit (a : otargs) (ua : uarg) (pu : Z * Z) : Prop :=
  match ua with
  | UNone => False
  | UNums n => nums_has n (snd pu) /\ (chosen (oa_packages a) (fst pu) \/ ~ names (oa_packages a))
  | UDict d => exists l, In (fst pu, l) d /\ In (snd pu) l
  end.
Definition wants_core (a : otargs) (pk : Z * Z) : Prop := wants_unit a (oa_cores a) pk.
Definition wants_die (a : otargs) (pd : Z * Z) : Prop :=
  everything a \/ wants_unit a (oa_dies a) pd.

(** ** Which arguments are valid: everything named exists, and without packages core and die numbers
    are not ambiguous *)

Definition is_module (topo : list tline) (m : Z) : Prop :=
  exists t, In t topo /\ cpu_line t /\ t_module t = m.

Definition valid_units (ci : cpuinfo) (is_unit : Z * Z -> Prop) (a : otargs) (ua : uarg) : Prop :=
  match ua with
  | UNums (Some l) => forall u, In u l ->
      (qualified a -> forall p, wants_pkg a p -> is_pkg (ci_topo ci) p -> is_unit (p, u)) /\
      (~ qualified a -> exists p, is_unit (p, u) /\ forall q, is_unit (q, u) -> q = p)
  | UDict d => forall p l, In (p, l) d ->
      is_pkg (ci_topo ci) p /\ forall u, In u l -> is_unit (p, u)
  | _ => True
  end.

Definition valid_args (ci : cpuinfo) (a : otargs) : Prop :=
  (forall l, oa_cpus a = Some (Some l) -> forall c, In c l -> available ci (oa_offline_ok a) c) /\
  (forall l, oa_modules a = Some (Some l) -> forall m, In m l -> is_module (ci_topo ci) m) /\
  (forall l, oa_packages a = Some (Some l) -> forall p, In p l -> is_pkg (ci_topo ci) p) /\
  valid_units ci (is_core (ci_topo ci)) a (oa_cores a) /\
  valid_units ci (is_die (ci_topo ci)) a (oa_dies a).

(** ** The targeted CPUs *)

(** The union of what is named. Packages count on their own only if no cores or dies are named. *)
Definition named_cpu (ci : cpuinfo) (a : otargs) (c : Z) : Prop :=
  wants_cpu ci a c \/
  (exists pk, wants_core a pk /\ cpu_in_core (ci_topo ci) pk c) \/
  (exists t, In t (ci_topo ci) /\ cpu_line t /\ t_cpu t = c /\ wants_module a (t_module t)) \/
  (exists pd, wants_die a pd /\ cpu_in_die (ci_topo ci) pd c) \/
  (~ names_units (oa_cores a) /\ ~ names_units (oa_dies a) /\
   exists p, wants_pkg a p /\ cpu_in_pkg (ci_topo ci) p c).

(** The sibling filter: the CPU is online and has one of the wanted indexes in its core or module. *)
Definition passes (ci : cpuinfo) (s : scope) (indexes : list Z) (c : Z) : Prop :=
  indexes = [] \/
  (In c (ci_online ci) /\ exists i, In i indexes /\ rank_in_unit (ci_topo ci) s c i).

Definition target_cpu (ci : cpuinfo) (a : otargs) (c : Z) : Prop :=
  named_cpu ci a c /\ passes ci SCore (oa_core_sib a) c /\ passes ci SModule (oa_module_sib a) c.

(** ** The targeted dies and packages *)

(** Dies that have CPUs, all of them targeted. *)
Definition full_die (ci : cpuinfo) (a : otargs) (pd : Z * Z) : Prop :=
  (exists c, cpu_in_die (ci_topo ci) pd c) /\
  forall c, cpu_in_die (ci_topo ci) pd c -> target_cpu ci a c.

(** Only packages are named. *)
Definition only_packages (a : otargs) : Prop :=
  names (oa_packages a) /\ ~ names (oa_cpus a) /\ ~ names_units (oa_cores a) /\
  ~ names (oa_modules a) /\ ~ names_units (oa_dies a).

(** Dies that are named, I/O dies included: as such, or by naming only their package. *)
Definition named_die (ci : cpuinfo) (a : otargs) (pd : Z * Z) : Prop :=
  is_die (ci_topo ci) pd /\ (wants_die a pd \/ (only_packages a /\ wants_pkg a (fst pd))).

(** Packages all of whose CPUs are targeted. *)
Definition full_package (ci : cpuinfo) (a : otargs) (p : Z) : Prop :=
  is_pkg (ci_topo ci) p /\ forall c, cpu_in_pkg (ci_topo ci) p c -> target_cpu ci a c.
Definition named_package (ci : cpuinfo) (a : otargs) (p : Z) : Prop :=
  is_pkg (ci_topo ci) p /\ wants_pkg a p.

(** Every targeted CPU is in a full die (package). *)
Definition dies_only (ci : cpuinfo) (a : otargs) : Prop :=
  forall c, target_cpu ci a c -> exists pd, full_die ci a pd /\ cpu_in_die (ci_topo ci) pd c.
Definition packages_only (ci : cpuinfo) (a : otargs) : Prop :=
  forall c, target_cpu ci a c -> exists p, full_package ci a p /\ cpu_in_pkg (ci_topo ci) p c.

(** Dies are named, and none of them has a CPU. *)
Definition only_io_dies_named (ci : cpuinfo) (a : otargs) : Prop :=
  (exists pd, is_die (ci_topo ci) pd /\ wants_die a pd) /\
  forall pd, is_die (ci_topo ci) pd -> wants_die a pd -> ~ exists c, cpu_in_die (ci_topo ci) pd c.

(** ** Histories of questions to one object *)

Inductive question := QCpus | QDies (strict : bool) | QPackages (strict : bool).

Definition ask (ci : cpuinfo) (q : question) (ot : optarget) : optarget :=
  match q with
  | QCpus => snd (ot_get_cpus ci ot)
  | QDies s => snd (ot_get_dies ci s ot)
  | QPackages s => snd (ot_get_packages ci s ot)
  end.

(** The object after it was created and asked any number of questions. *)
Definition asked (ci : cpuinfo) (a : otargs) (qs : list question) (ot : optarget) : Prop :=
  exists ot0, ot_init ci a = Ok ot0 /\ ot = fold_left (fun o q => ask ci q o) qs ot0.

(** Module numbers must be globally unique for the module sibling filter. *)
Definition siblings_ok (ci : cpuinfo) (a : otargs) : Prop :=
  oa_module_sib a = [] \/ modules_unique (ci_topo ci).

(** All dies and packages questions were strict: complete dies and packages only. *)
Definition all_strict (qs : list question) : Prop :=
  ~ In (QDies false) qs /\ ~ In (QPackages false) qs.
