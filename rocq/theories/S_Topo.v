(** Specification of the topology table: a machine, what its files say, and what a table must say. Only
    the data types of the model are used. *)
From Verif Require Import Base M_Text S_Text M_CPUInfo S_CPUInfo M_Topo.
From Coq Require Import Sorted Permutation.

(** ** The machine *)

(** The level numbers of every CPU; the CPUs that may be online; whether there is cache information in
    sysfs (if not, the documented fall-back is "one module per core"); whether dies are numbered by
    MSR_PM_LOGICAL_ID; the dies known to the uncore driver, by package, None if there is no driver. *)
Record machine := Machine {
  m_line : Z -> tline;
  m_present : list Z;
  m_cache : bool;
  m_pli : bool;
  m_dies : option (list (Z * list Z)) }.

(** The number of CPU [c] on level [l]. *)
Definition number (m : machine) (l : level) (c : Z) : Z := lget l (m_line m c).

Record machine_ok (m : machine) : Prop := {
  mo_cpu : forall c, In c (m_present m) -> number m LCPU c = c /\ c <> NA;
  mo_module : m_cache m = false ->
    forall c, In c (m_present m) -> number m LModule c = number m LCore c }.

(** A set of online CPUs. *)
Definition online_set (m : machine) (on : list Z) : Prop :=
  on <> [] /\ NoDup on /\ incl on (m_present m).

(** Die [d] of package [p] is known to the uncore driver. *)
Definition uncore_die (m : machine) (p d : Z) : Prop :=
  exists dies ds, m_dies m = Some dies /\ In (p, ds) dies /\ In d ds.

(** ** The files *)

(** A file with one number. *)
Definition number_file (txt : str) (n : Z) : Prop := exists s, numeral s n /\ txt = s ++ [newline].

(** A file with a list of numbers and ranges, such as "0-3,8". *)
Inductive compact : item -> str -> Prop :=
| C_num n s : numeral s n -> compact (INum n) s
| C_range a b s t : numeral s a -> numeral t b -> compact (IRange a b) (s ++ "-"%char :: t).

Definition list_file (txt : str) (l : list Z) : Prop :=
  exists its ts, Forall2 compact its ts /\ Forall (fun i => ~ descending i) its /\
    txt = commas ts ++ [newline] /\ l = flat_map meaning its.

(** /proc/cpuinfo: "name <blanks>: number" *)
Definition field (name : string) (n : Z) (line : str) : Prop :=
  exists pad s, blanks pad /\ numeral s n /\ line = s2l name ++ pad ++ ":"%char :: " "%char :: s.

(** The lines of one CPU: no line is empty, the last line ends with a printable character, line 1 is the
    CPU number, line 10 the package and line 12 the core. *)
Definition cpuinfo_block (m : machine) (c : Z) (lines : list str) : Prop :=
  Forall (fun l => l <> [] /\ ~ In newline l) lines /\
  (exists ls l e, lines = ls ++ [l ++ [e]] /\ (33 <= nat_of_ascii e <= 126)%nat) /\
  (exists l, nth_error lines 0 = Some l /\ field "processor" c l) /\
  (exists l, nth_error lines 9 = Some l /\ field "physical id" (number m LPkg c) l) /\
  (exists l, nth_error lines 11 = Some l /\ field "core id" (number m LCore c) l).

Definition unlines (ls : list str) : str := concat (map (fun l => l ++ [newline]) ls).

(** One block for each online CPU, in any order; each block is followed by an empty line. *)
Definition cpuinfo_file (m : machine) (on : list Z) (txt : str) : Prop :=
  exists blocks, Permutation (map fst blocks) on /\
    Forall (fun b => cpuinfo_block m (fst b) (snd b)) blocks /\
    txt = concat (map (fun b => unlines (snd b) ++ [newline]) blocks).

(** The files describe the machine [m] with the CPUs [on] online. Any file may be unreadable; lists of
    CPUs may mention CPUs that are offline. *)
Record shows (m : machine) (on : list Z) (h : host) : Prop := {
  sh_online : forall t, h_online h = Ok t ->
    exists l, list_file t l /\ forall c, In c l <-> In c on;
  sh_cpuinfo : forall t, h_cpuinfo h = Ok t -> cpuinfo_file m on t;
  sh_no_cache : m_cache m = false -> forall c, In c on -> exists e, h_l2_id h c = Exn e;
  sh_l2_id : m_cache m = true -> forall c, In c on -> h_l2_id h c <> Exn ENotFound /\
    forall t, h_l2_id h c = Ok t -> number_file t (number m LModule c);
  sh_l2_cpus : m_cache m = true -> forall c t, In c on -> h_l2_cpus h c = Ok t ->
    exists l, list_file t l /\ In c l /\
      forall x, In x l -> In x (m_present m) -> number m LModule x = number m LModule c;
  sh_pli : m_pli m = true -> exists f, h_pli h = Some f /\
    forall c v, In c on -> f c = Ok v -> v = number m LDie c;
  sh_no_pli : m_pli m = false -> h_pli h = None;
  sh_die_id : forall c t, In c on -> h_die_id h c = Ok t -> number_file t (number m LDie c);
  sh_die_cpus : forall c t, In c on -> h_die_cpus h c = Ok t -> exists l, list_file t l /\ In c l;
  sh_nodes : forall t, h_nodes h = Ok t ->
    exists l, list_file t l /\ (forall c, In c on -> In (number m LNode c) l) /\
      forall n t', In n l -> h_node_cpus h n = Ok t' ->
        exists cs, list_file t' cs /\ (forall c, In c on -> number m LNode c = n -> In c cs) /\
          forall c, In c cs -> In c (m_present m) -> number m LNode c = n;
  sh_uncore : match m_dies m with
              | None => h_uncore h = None
              | Some dies => exists r, h_uncore h = Some r /\ forall d, r = Ok d -> d = dies
              end }.

(** Every file that is there can be read. *)
Record readable (m : machine) (on : list Z) (h : host) : Prop := {
  rd_online : exists t, h_online h = Ok t;
  rd_cpuinfo : exists t, h_cpuinfo h = Ok t;
  rd_l2_id : forall c, In c on ->
    if m_cache m then exists t, h_l2_id h c = Ok t else h_l2_id h c = Exn ENotFound;
  rd_l2_cpus : forall c, In c on -> m_cache m = true -> exists t, h_l2_cpus h c = Ok t;
  rd_pli : forall f c, h_pli h = Some f -> In c on -> exists v, f c = Ok v;
  rd_die_id : forall c, In c on -> m_pli m = false -> exists t, h_die_id h c = Ok t;
  rd_die_cpus : forall c, In c on -> m_pli m = false -> exists t, h_die_cpus h c = Ok t;
  rd_nodes : exists t, h_nodes h = Ok t;
  rd_node_cpus : forall n, exists t, h_node_cpus h n = Ok t;
  rd_uncore : forall r, h_uncore h = Some r -> exists d, r = Ok d }.

(** ** The table *)

(** The documented sorting orders (CPUInfo.py:115-166): core and die numbers are per package. *)
Definition sort_levels (order : level) : list level :=
  match order with
  | LCPU => [LCPU]
  | LCore => [LPkg; LCore; LCPU]
  | LModule => [LModule; LCPU]
  | LDie => [LPkg; LDie; LCPU]
  | LNode => [LNode; LCPU]
  | LPkg => [LPkg; LCPU]
  end.

(** Lexicographic order of the numbers on the levels [ls]. *)
Fixpoint lex_le (ls : list level) (a b : pline) : Prop :=
  match ls with
  | [] => True
  | l :: r => exists x y, pget l a = Some x /\ pget l b = Some y /\ (x < y \/ x = y /\ lex_le r a b)
  end.

(** The table for the online CPUs [on], with the levels [ls], in the order [order]: one line for each online
    CPU, with the numbers of the machine; all other lines are I/O dies known to the uncore driver. *)
Record right_table (m : machine) (on : list Z) (ls : list level) (order : level) (rows : list pline) : Prop := {
  rt_each : forall c, In c on -> exists r, In r rows /\ p_cpu r = c;
  rt_cpu : forall r, In r rows -> p_cpu r <> NA -> In (p_cpu r) on /\
    forall l, In l ls -> pget l r = Some (number m l (p_cpu r));
  rt_once : NoDup (filter (fun c => negb (c =? NA)) (map p_cpu rows));
  rt_io : forall r, In r rows -> p_cpu r = NA -> exists p d, r = io_line p d /\ uncore_die m p d;
  rt_sorted : StronglySorted (lex_le (sort_levels order)) rows }.

(** The levels a request is about: no levels means all levels. *)
Definition requested (levels : list level) : list level :=
  match levels with [] => [LCPU; LCore; LModule; LDie; LNode; LPkg] | _ => levels end.

(** The request has to do with dies. *)
Definition about_dies (levels : list level) (order : level) : Prop := In LDie (requested levels) \/ order = LDie.

(** ** Histories *)

(** A history of the object: CPUs went online or offline and the object was told, or the table was asked
    for. *)
Inductive event := Plug (on : list Z) | Ask (h : host) (levels : list level) (order : level).

Fixpoint after (evs : list event) (s : obj) : obj :=
  match evs with
  | [] => s
  | Plug _ :: t => after t (cpus_hotplugged s)
  | Ask h ls o :: t => after t (snd (query h ls o s))
  end.

Fixpoint online_after (on : list Z) (evs : list event) : list Z :=
  match evs with
  | [] => on
  | Plug on' :: t => online_after on' t
  | Ask _ _ _ :: t => online_after on t
  end.

(** At any moment the files describe the machine with the CPUs that are online then. *)
Fixpoint possible (m : machine) (on : list Z) (evs : list event) : Prop :=
  match evs with
  | [] => True
  | Plug on' :: t => online_set m on' /\ possible m on' t
  | Ask h _ _ :: t => shows m on h /\ possible m on t
  end.

(** ** I/O dies *)

(** Every die that has CPUs has one that is online. *)
Definition all_dies_online (m : machine) (on : list Z) : Prop :=
  forall c, In c (m_present m) -> exists x, In x on /\
    number m LPkg x = number m LPkg c /\ number m LDie x = number m LDie c.

(** Die [d] of package [p] is an I/O die: the uncore driver knows it, the package has CPUs, the die has
    none. *)
Definition io_die (m : machine) (p d : Z) : Prop :=
  uncore_die m p d /\ (exists c, In c (m_present m) /\ number m LPkg c = p) /\
  ~ exists c, In c (m_present m) /\ number m LPkg c = p /\ number m LDie c = d.

(** ** Readable files of a machine *)
Definition num_text (n : Z) : str := dec n ++ [newline].
Definition list_text (l : list Z) : str := commas (map dec l) ++ [newline].
Definition field_text (name : string) (n : Z) : str := s2l name ++ ":"%char :: " "%char :: dec n.
Definition cpu_text (m : machine) (c : Z) : list str :=
  [field_text "processor" c; s2l "v"; s2l "f"; s2l "m"; s2l "n"; s2l "s"; s2l "u"; s2l "M"; s2l "c";
   field_text "physical id" (number m LPkg c); s2l "siblings"; field_text "core id" (number m LCore c); s2l "cores"].

Definition files (m : machine) (on : list Z) : host :=
  Host (Ok (list_text on))
       (Ok (concat (map (fun c => unlines (cpu_text m c) ++ [newline]) on)))
       (fun c => if m_cache m then Ok (num_text (number m LModule c)) else Exn ENotFound)
       (fun c => Ok (list_text [c]))
       (fun c => Ok (num_text (number m LDie c)))
       (fun c => Ok (list_text [c]))
       (Ok (list_text (map (number m LNode) on)))
       (fun n => Ok (list_text (filter (fun c => number m LNode c =? n) on)))
       (if m_pli m then Some (fun c => Ok (number m LDie c)) else None)
       (match m_dies m with Some d => Some (Ok d) | None => None end).

Definition natural (m : machine) : Prop := forall c l, In c (m_present m) -> 0 <= number m l c.
