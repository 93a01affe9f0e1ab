(** Specification vocabulary for the CPU topology properties. Nothing here uses the functions of the
    model, only its data types (topology lines). *)
From Verif Require Import Base M_CPUInfo.
From Coq Require Import Sorted.

(** A topology line describes a CPU, unless it is an I/O die line. *)
Definition cpu_line (t : tline) : Prop := t_cpu t <> NA.

(** What identifies the unit (core, module, die, ...) a line belongs to. Core, module and die
    numbers are qualified by the package number. *)
Definition unit_id (s : scope) (t : tline) : list Z :=
  match s with
  | SCPU => [t_cpu t]
  | SCore => [t_pkg t; t_core t]
  | SModule => [t_pkg t; t_module t]
  | SDie => [t_pkg t; t_die t]
  | SNode => [t_node t]
  | SPackage => [t_pkg t]
  | SGlobal => []
  end.

(** Two CPUs share a unit. *)
Definition same_unit (topo : list tline) (s : scope) (c x : Z) : Prop :=
  exists t u, In t topo /\ In u topo /\ cpu_line t /\ cpu_line u /\
              t_cpu t = c /\ t_cpu u = x /\ unit_id s t = unit_id s u.

(** CPU [c] is in package [p]; in die [d] / core [k] of package [p]. *)
Definition cpu_in_pkg (topo : list tline) (p c : Z) : Prop :=
  exists t, In t topo /\ cpu_line t /\ t_cpu t = c /\ t_pkg t = p.
Definition cpu_in_die (topo : list tline) (pd : Z * Z) (c : Z) : Prop :=
  exists t, In t topo /\ cpu_line t /\ t_cpu t = c /\ t_pkg t = fst pd /\ t_die t = snd pd.
Definition cpu_in_core (topo : list tline) (pk : Z * Z) (c : Z) : Prop :=
  exists t, In t topo /\ cpu_line t /\ t_cpu t = c /\ t_pkg t = fst pk /\ t_core t = snd pk.

Definition is_pkg (topo : list tline) (p : Z) : Prop := exists t, In t topo /\ t_pkg t = p.
Definition is_die (topo : list tline) (pd : Z * Z) : Prop :=
  exists t, In t topo /\ t_pkg t = fst pd /\ t_die t = snd pd.
Definition is_core (topo : list tline) (pk : Z * Z) : Prop :=
  exists t, In t topo /\ cpu_line t /\ t_pkg t = fst pk /\ t_core t = snd pk.

(** Well-formed topology information: one line per online CPU with all numbers filled in; the other
    lines are I/O dies, which have only a package and a die number. *)
Record wf_ci (ci : cpuinfo) : Prop := {
  wf_cpus_nodup : NoDup (map t_cpu (filter (fun t => negb (t_cpu t =? NA)) (ci_topo ci)));
  wf_cpu_lines : forall t, In t (ci_topo ci) -> cpu_line t ->
    t_core t <> NA /\ t_module t <> NA /\ t_die t <> NA /\ t_node t <> NA /\ t_pkg t <> NA;
  wf_io_lines : forall t, In t (ci_topo ci) -> ~ cpu_line t ->
    t_core t = NA /\ t_module t = NA /\ t_node t = NA /\ t_die t <> NA /\ t_pkg t <> NA;
  wf_online : forall c, In c (ci_online ci) <->
    exists t, In t (ci_topo ci) /\ cpu_line t /\ t_cpu t = c;
  wf_online_nodup : NoDup (ci_online ci);
  wf_all_nodup : NoDup (ci_all ci);
  wf_online_all : incl (ci_online ci) (ci_all ci);
  wf_no_na : ~ In NA (ci_all ci) }.

(** A number is selected by a "list or 'all'" argument. *)
Definition nums_has (nums : nums_t) (x : Z) : Prop :=
  match nums with None => True | Some l => In x l end.

(** A CPU that may be requested. *)
Definition available (ci : cpuinfo) (offline_ok : bool) (c : Z) : Prop :=
  if offline_ok then In c (ci_all ci) else In c (ci_online ci).

(** Module numbers are globally unique (documented at CPUInfo.py:104-106). *)
Definition modules_unique (topo : list tline) : Prop :=
  forall t u, In t topo -> In u topo -> cpu_line t -> cpu_line u ->
    t_module t = t_module u -> t_pkg t = t_pkg u.

(** The cached I/O die set holds exactly the dies that have no CPU. *)
Definition io_dies_exact (ci : cpuinfo) : Prop :=
  forall pd, is_die (ci_topo ci) pd ->
    (In pd (ci_io ci) <-> ~ exists c, cpu_in_die (ci_topo ci) pd c).

(** Position of the first occurrence. *)
Fixpoint first_idx (x : Z) (l : list Z) : nat :=
  match l with
  | [] => 0
  | y :: t => if x =? y then 0 else S (first_idx x t)
  end.

(** The elements of [r] come in the order in which they first occur in [l]; in particular no
    element is repeated. *)
Definition in_order_of (l r : list Z) : Prop :=
  StronglySorted (fun x y => (first_idx x l < first_idx y l)%nat) r.

(** [found] are exactly those of the [units] all of whose members are in [input], and [rem] are the
    input elements outside of the found units, in input order. *)
Definition is_division {U} (is_unit : U -> Prop) (member : U -> Z -> Prop)
    (input : list Z) (found : list U) (rem : list Z) : Prop :=
  NoDup found /\
  (forall u, In u found <-> is_unit u /\ forall c, member u c -> In c input) /\
  (forall c, In c rem <-> In c input /\ ~ exists u, In u found /\ member u c) /\
  in_order_of input rem.

(** Rank of a CPU among the CPUs of its unit, by CPU number: how many CPUs of the unit have a
    smaller number. *)
Definition rank_in_unit (topo : list tline) (s : scope) (c : Z) (n : Z) : Prop :=
  exists smaller, NoDup smaller /\ Z.of_nat (length smaller) = n /\
    forall x, In x smaller <-> same_unit topo s c x /\ x < c.

(** ** Hotplug *)

(** What is assumed of the system: every present CPU reports its own number and has all topology
    numbers; uncore dies have package and die numbers. *)
Record sys_ok (sys : system) : Prop := {
  so_cpu : forall c, In c (sys_present sys) -> t_cpu (sys_line sys c) = c /\ c <> NA;
  so_filled : forall c, In c (sys_present sys) ->
    let t := sys_line sys c in
    t_core t <> NA /\ t_module t <> NA /\ t_die t <> NA /\ t_node t <> NA /\ t_pkg t <> NA;
  so_nodup : NoDup (sys_present sys);
  so_uncore : forall pd, In pd (sys_uncore_dies sys) -> fst pd <> NA /\ snd pd <> NA }.

(** A set of online CPUs. *)
Definition online_ok (sys : system) (on : list Z) : Prop :=
  NoDup on /\ incl on (sys_present sys).

(** The online sets after a number of hotplug events: the first one and the later ones. *)
Fixpoint last_online (on : list Z) (hist : list (list Z)) : list Z :=
  match hist with [] => on | h :: t => last_online h t end.

(** The topology object after the hotplug events. *)
Definition after_hotplug (sys : system) (on : list Z) (hist : list (list Z)) : cpuinfo :=
  fold_left (topo_update sys) hist (topo_init sys on).

(** Module numbers are globally unique, on the system. *)
Definition sys_modules_unique (sys : system) : Prop :=
  forall c x, In c (sys_present sys) -> In x (sys_present sys) ->
    t_module (sys_line sys c) = t_module (sys_line sys x) ->
    t_pkg (sys_line sys c) = t_pkg (sys_line sys x).

(** I/O dies: exact if every die that has CPUs had one online when the table was first built. *)
Definition dies_covered (sys : system) (on : list Z) : Prop :=
  forall c, In c (sys_present sys) -> exists x, In x on /\
    t_pkg (sys_line sys x) = t_pkg (sys_line sys c) /\ t_die (sys_line sys x) = t_die (sys_line sys c).

