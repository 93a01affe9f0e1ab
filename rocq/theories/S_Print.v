(** Specification of printing and restoring properties (C33, C50, C51). *)
From Coq Require Import Ascii String.
From Verif Require Import Base M_CPUInfo S_CPUInfo M_Text M_Props M_OpTarget M_Print.

(** A CPU, die or package is among the numbers. *)
Definition holds (sn : rsname) (n : nums) (k : pnum) : Prop :=
  match sn, n, k with
  | RCPU, NList l, NumCPU c => In c l
  | RPkg, NList l, NumPkg p => In p l
  | RDie, NDict d, NumDie p x => exists l, In (p, l) d /\ In x l
  | _, _, _ => False
  end.

(** There are numbers, they fit the scope name, and each is there once. *)
Definition each_once (sn : rsname) (n : nums) : Prop :=
  match sn, n with
  | RDie, NDict d => d <> [] /\ NoDup (map fst d) /\ forall p l, In (p, l) d -> l <> [] /\ NoDup l
  | RCPU, NList l | RPkg, NList l => l <> [] /\ NoDup l
  | _, _ => False
  end.

Section Spec.
  Context {V : Type}.

  (** The printed information says that [k] has value [v] of property [p], according to mechanism [m]. *)
  Definition listed (a : @aggr V) (m p : Z) (v : option V) (k : pnum) : Prop :=
    exists d sn vals n, In (m, d) a /\ In (p, (sn, vals)) d /\ In (v, n) vals /\ holds sn n k.

  (** Every mechanism, every property of a mechanism and every value of a property is there once, with something
      under it. *)
  Definition no_repeats (a : @aggr V) : Prop :=
    NoDup (map fst a) /\
    forall m d, In (m, d) a -> d <> [] /\ NoDup (map fst d) /\
    forall p sn vals, In (p, (sn, vals)) d -> vals <> [] /\ NoDup (map fst vals) /\
    forall v n, In (v, n) vals -> exists k, holds sn n k.

  (** The values that were read, by property. *)
  Section Reading.
    Context {S : Type}.
    Variable rd : Z -> bool -> M S (list (@pitem V)).
    Variable props : list (Z * pdesc).
    Variable skip_ro : bool.

    Inductive reading : list Z -> S -> list (Z * list (@pitem V)) -> S -> Prop :=
    | rd_none s : reading [] s [] s
    | rd_skip p d rest s l s' :
        skip_ro = true -> dget Z.eqb props p = Some d -> pd_writable d = false ->
        reading rest s l s' -> reading (p :: rest) s l s'
    | rd_first p d rest s items s1 l s' :
        dget Z.eqb props p = Some d -> (skip_ro = true -> pd_writable d = true) ->
        rd p false s = (Ok items, s1) -> reading rest s1 l s' -> reading (p :: rest) s ((p, items) :: l) s'
    | rd_again p d rest s s1 items s2 l s' :
        dget Z.eqb props p = Some d -> (skip_ro = true -> pd_writable d = true) ->
        rd p false s = (Exn EUsePerCPU, s1) -> rd p true s1 = (Ok items, s2) ->
        reading rest s2 l s' -> reading (p :: rest) s ((p, items) :: l) s'.
  End Reading.

  Definition shown (skip_unsupported : bool) (v : option V) : Prop := skip_unsupported = true -> v <> None.

  (** Every CPU, die or package has one value. *)
  Definition read_once (items : list (@pitem V)) : Prop := NoDup (map (fun it => fst (fst it)) items).
End Spec.

(** The properties asked for: all or those named. *)
Definition asked_pnames (props : list (Z * pdesc)) (pnames : option (list Z)) : list Z :=
  match pnames with Some l => l | None => map fst props end.

(** ** What the texts mean *)

(** The text [r] gives the numbers [l]. *)
Definition gives_nums (r : str) (l : list Z) : Prop :=
  exists l', parse_int_list "," true [NStr r] = Ok l' /\ forall x, In x l <-> In x l'.

Definition cpus_text (ci : cpuinfo) (t : str) (l : list Z) : Prop :=
  (t = s2l "all CPUs" /\ forall c, In c l <-> In c (ci_online ci)) \/
  (exists c, t = s2l "CPU " ++ dec c /\ forall x, In x l <-> x = c) \/
  (exists r, t = s2l "CPUs " ++ r /\ gives_nums r l) \/
  (exists r w pr ps, t = s2l "CPUs " ++ r ++ s2l w ++ pr ++ s2l ")" /\ (w = " (package " \/ w = " (packages ")%string /\
     gives_nums r l /\ gives_nums pr ps /\ forall c, In c l <-> exists p, In p ps /\ cpu_in_pkg (ci_topo ci) p c).

Definition packages_text (ci : cpuinfo) (t : str) (l : list Z) : Prop :=
  ((t = s2l "all CPUs" \/ t = s2l "all packages") /\ forall p, In p l <-> is_pkg (ci_topo ci) p) \/
  (exists p, t = s2l "package " ++ dec p /\ forall x, In x l <-> x = p) \/
  (exists r, t = s2l "packages " ++ r /\ gives_nums r l).

Definition pkg_dies_text (ci : cpuinfo) (pd : Z * list Z) (t : str) : Prop :=
  exists u, t = u ++ s2l " in package " ++ dec (fst pd) /\
    ((u = s2l "all dies" /\ forall d, In d (snd pd) <-> is_die (ci_topo ci) (fst pd, d)) \/
     (exists d, u = s2l "die " ++ dec d /\ forall x, In x (snd pd) <-> x = d) \/
     (exists r, u = s2l "dies " ++ r /\ gives_nums r (snd pd))).

Fixpoint comma_list (l : list str) : str :=
  match l with
  | [] => []
  | [x] => x
  | x :: t => x ++ s2l ", " ++ comma_list t
  end.

Definition dies_text (ci : cpuinfo) (t : str) (d : list (Z * list Z)) : Prop :=
  ((t = s2l "all CPUs" \/ t = s2l "all dies in all packages") /\
     forall p x, holds RDie (NDict d) (NumDie p x) <-> is_die (ci_topo ci) (p, x)) \/
  (exists l, t = comma_list l /\ Forall2 (pkg_dies_text ci) d l) \/
  (packages_text ci t (map fst d) /\
     forall p x, holds RDie (NDict d) (NumDie p x) <-> In p (map fst d) /\ is_die (ci_topo ci) (p, x)).

Definition nums_text (ci : cpuinfo) (sn : rsname) (n : nums) (t : str) : Prop :=
  match sn, n with
  | RCPU, NList l => cpus_text ci t l
  | RPkg, NList l => packages_text ci t l
  | RDie, NDict d => dies_text ci t d
  | _, _ => False
  end.

(** A CPU, die or package exists. *)
Definition exists_num (ci : cpuinfo) (k : pnum) : Prop :=
  match k with
  | NumCPU c => In c (ci_online ci)
  | NumDie p d => is_die (ci_topo ci) (p, d)
  | NumPkg p => is_pkg (ci_topo ci) p
  end.

Definition nonneg_num (k : pnum) : Prop :=
  match k with NumCPU c => 0 <= c | NumDie p d => 0 <= p /\ 0 <= d | NumPkg p => 0 <= p end.

(** If package 0 has one die, then so has every package. *)
Definition even_dies (ci : cpuinfo) : Prop :=
  (forall d d', is_die (ci_topo ci) (0, d) -> is_die (ci_topo ci) (0, d') -> d = d') ->
  forall p d d', is_die (ci_topo ci) (p, d) -> is_die (ci_topo ci) (p, d') -> d = d'.

(** ** Files *)

(** The file says that [k] has value [v] of property [p]. *)
Definition file_says {V} (f : @ydict V) (p : Z) (v : option V) (k : pnum) : Prop :=
  exists ys y n, In (p, ys) f /\ In y ys /\ y_value y = v /\ parse_ynums (y_nums y) = Ok n /\ holds (y_sname y) n k.

(** ** Lines *)
Section Lines.
  Context {V : Type}.
  Variable ci : cpuinfo.
  Variable global : Z -> bool.
  Variable blank : V -> bool.

  (** The values of a mechanism and a property: one value and the numbers of the CPUs, dies or packages that have it. *)
  Definition entry (a : @aggr V) (m p : Z) (sn : rsname) (v : option V) (n : nums) : Prop :=
    exists d vals, In (m, d) a /\ In (p, (sn, vals)) d /\ In (v, n) vals.

  Definition is_blank (v : option V) : Prop := exists x, v = Some x /\ blank x = true.

  (** The line says for which CPUs, dies or packages, unless the property is global. *)
  Definition line_says (p : Z) (sn : rsname) (n : nums) (sfx : option str) : Prop :=
    match sfx with Some t => global p = false /\ nums_text ci sn n t | None => global p = true end.

  (** What is printed is about existing CPUs, dies and packages. *)
  Definition printable (a : @aggr V) : Prop :=
    forall m p sn v n, entry a m p sn v n -> each_once sn n /\ forall k, holds sn n k -> exists_num ci k.
End Lines.

(** ** Setting *)
Section Setting.
  Context {S V : Type}.

  (** [view s p k] is the value of property [p] of [k] in state [s]. The setter sets what it is told to set and nothing
      else. *)
  Definition setter_law (view : S -> Z -> pnum -> option V) (setp : Z -> rsname -> option V -> nums -> M S unit) : Prop :=
    forall p sn v n s s', setp p sn v n s = (Ok tt, s') ->
      (forall k, holds sn n k -> view s' p k = v) /\
      (forall q k, ~ (q = p /\ holds sn n k) -> view s' q k = view s q k).

  (** No contradictions in the file. *)
  Definition consistent (f : @ydict V) : Prop :=
    forall p v v' k, file_says f p v k -> file_says f p v' k -> v = v'.
End Setting.
