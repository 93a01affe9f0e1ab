(** Specification of "pepc topology info": the columns, the lines and their text. *)
From Verif Require Import Base M_Text S_Text S_Osa M_CPUInfo S_CPUInfo M_OpTarget S_OpTarget M_TopoInfo.
From Coq Require Import Sorted.

(** ** Text *)

(** The line consists of these words: any number of spaces before the first one, at least one space
    between words. *)
Definition word (w : str) : Prop := w <> [] /\ ~ In " "%char w.
Definition spaces (s : str) : Prop := Forall (fun c => c = " "%char) s.
Inductive later_words : list str -> str -> Prop :=
| LW_nil : later_words [] []
| LW_cons pad w ws rest : pad <> [] -> spaces pad -> word w -> later_words ws rest ->
    later_words (w :: ws) (pad ++ w ++ rest).
Definition reads (ws : list str) (line : str) : Prop :=
  match ws with
  | [] => line = []
  | w :: ws' => exists pad rest, spaces pad /\ word w /\ later_words ws' rest /\ line = pad ++ w ++ rest
  end.

(** The names in a comma-separated list; empty items do not count, white space around names neither. *)
Definition white (c : ascii) : Prop :=
  (9 <= nat_of_ascii c <= 13 \/ 28 <= nat_of_ascii c <= 32)%nat.
Definition trimmed (piece name : str) : Prop :=
  exists b1 b2, piece = b1 ++ name ++ b2 /\ Forall white b1 /\ Forall white b2 /\
    (name = [] \/ (~ white (hd "0"%char name) /\ ~ white (last name "0"%char))).
Inductive items_of : list str -> list str -> Prop :=
| IO_nil : items_of [] []
| IO_empty ps ns : items_of ps ns -> items_of ([] :: ps) ns
| IO_item p ps n ns : p <> [] -> trimmed p n -> items_of ps ns -> items_of (p :: ps) (n :: ns).
Definition lists (text : str) (names : list str) : Prop :=
  exists pieces, Forall (fun p => ~ In ","%char p) pieces /\ text = commas pieces /\ items_of pieces names.

(** [n] is the name of the level, in any letter case. *)
Definition names_level (n : str) (l : level) : Prop := Forall2 same_letter n (s2l (level_name l)).
Definition names_column (n : str) (c : col) : Prop :=
  match c with CLvl l => names_level n l | CHyb => n = s2l "hybrid" end.

(** ** The columns *)

(** Some module has CPUs of different cores. *)
Definition shared_module (ci : cpuinfo) : Prop :=
  exists t u, In t (ci_topo ci) /\ In u (ci_topo ci) /\ cpu_line t /\ cpu_line u /\
    t_module t = t_module u /\ (t_pkg t <> t_pkg u \/ t_core t <> t_core u).
(** Some package has several dies, I/O dies included. *)
Definition several_dies (ci : cpuinfo) : Prop :=
  exists t u, In t (ci_topo ci) /\ In u (ci_topo ci) /\ t_pkg t = t_pkg u /\ t_die t <> t_die u.

(** The default columns: the levels from CPU to package, without the meaningless ones. *)
Inductive default_levels (ci : cpuinfo) : list level -> Prop :=
| DL ms ds :
    (shared_module ci /\ ms = [LModule] \/ ~ shared_module ci /\ ms = []) ->
    (several_dies ci /\ ds = [LDie] \/ ~ several_dies ci /\ ds = []) ->
    default_levels ci ([LCPU; LCore] ++ ms ++ ds ++ [LNode; LPkg]).

Definition level_cols (cs : list col) : list col :=
  filter (fun c => match c with CHyb => false | _ => true end) cs.

(** The columns printed: the wanted levels in the wanted order. The "hybrid" column comes last, if it is
    wanted or the system is hybrid; it cannot be wanted on another system. *)
Definition shows_columns (e : tenv) (o : topts) (cols : list col) : Prop :=
  match to_columns o with
  | None => exists ls, default_levels (te_ci e) ls /\ cols = map CLvl ls ++ (if te_hybrid e then [CHyb] else [])
  | Some text =>
      exists names cs, lists text names /\ Forall2 names_column names cs /\
        (In CHyb cs -> te_hybrid e = true) /\
        cols = level_cols cs ++ (if te_hybrid e then [CHyb] else [])
  end.

(** ** The lines *)

(** The target options; offline CPUs may be targeted unless "--online-only" is given. *)
Definition opts (a : otargs) (o : topts) : otargs := with_offline_ok (negb (to_online o)) a.

(** Lines of CPUs are printed if the CPU is targeted; lines of I/O dies if the die is targeted and there is
    a "die" column. *)
Definition shown (e : tenv) (a : otargs) (cols : list col) (t : tline) : Prop :=
  In t (ci_topo (te_ci e)) /\
  ((cpu_line t /\ target_cpu (te_ci e) a (t_cpu t)) \/
   (~ cpu_line t /\ In (CLvl LDie) cols /\
    (full_die (te_ci e) a (t_pkg t, t_die t) \/ named_die (te_ci e) a (t_pkg t, t_die t)))).

(** The documented orders (CPUInfo.py:115-166). *)
Definition order_levels (order : level) : list level :=
  match order with
  | LCPU => [LCPU]
  | LCore => [LPkg; LCore; LCPU]
  | LModule => [LModule; LCPU]
  | LDie => [LPkg; LDie; LCPU]
  | LNode => [LNode; LCPU]
  | LPkg => [LPkg; LCPU]
  end.
Fixpoint not_after (ls : list level) (t u : tline) : Prop :=
  match ls with
  | [] => True
  | l :: r => lget l t < lget l u \/ (lget l t = lget l u /\ not_after r t u)
  end.

(** What a line says in a column. *)
Definition cell_is (pcores : list Z) (r : trow) (c : col) (w : str) : Prop :=
  match r, c with
  | OnRow t, CLvl l => (lget l t = NA /\ w = s2l "-") \/ (lget l t <> NA /\ numeral w (lget l t))
  | OnRow t, CHyb => (In (t_cpu t) pcores /\ w = s2l "P-core") \/ (~ In (t_cpu t) pcores /\ w = s2l "E-core")
  | OffRow cpu, CLvl LCPU => numeral w cpu
  | OffRow _, _ => w = s2l "?"
  end.

(** [r] are the members of [l] in the order of their first occurrence. *)
Inductive once {A} : list A -> list A -> Prop :=
| On_nil : once [] []
| On_new l r x : once l r -> ~ In x l -> once (l ++ [x]) (r ++ [x])
| On_old l r x : once l r -> In x l -> once (l ++ [x]) r.

(** The complete output. *)
Definition right_output (e : tenv) (a : otargs) (o : topts) (pcores : list Z) (out : list str) : Prop :=
  exists cols order header body, shows_columns e o cols /\ names_level (to_order o) order /\
    out = header :: body /\ reads (map (fun c => s2l (title c)) cols) header /\
    exists on off words,
      (forall t, In t on <-> shown e (opts a o) cols t) /\
      StronglySorted (not_after (order_levels order)) on /\
      NoDup off /\
      (forall c, In c off <-> to_online o = false /\ In c (ci_all (te_ci e)) /\ ~ In c (ci_online (te_ci e)) /\
                              target_cpu (te_ci e) (opts a o) c) /\
      Forall2 (fun r ws => Forall2 (cell_is pcores r) cols ws) (map OnRow on ++ map OffRow off) words /\
      exists printed, once words printed /\ Forall2 reads printed body.

(** All numbers are non-negative. *)
Definition numbers_ok (ci : cpuinfo) : Prop :=
  (forall t l, In t (ci_topo ci) -> 0 <= lget l t) /\ forall c, In c (ci_all ci) -> 0 <= c.

(** What is assumed of the system and of the options: the topology information is well-formed, the I/O dies
    are known, some CPU is online, dictionaries of cores and dies have no empty items, module numbers are
    unique if module siblings are asked for. *)
Definition ok_system (e : tenv) (a : otargs) : Prop :=
  wf_ci (te_ci e) /\ io_dies_exact (te_ci e) /\ ci_online (te_ci e) <> [] /\ siblings_ok (te_ci e) a /\
  args_proper a /\ numbers_ok (te_ci e).
