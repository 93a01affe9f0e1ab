(** Model of "pepc topology info": pepctool/_PepcTopology.py. *)
From Verif Require Import Base M_Text M_Osa M_CPUInfo M_OpTarget.

(** A column: a level or "hybrid". *)
Inductive col := CLvl (l : level) | CHyb.

(** pepclibs/_CPUInfoBase.py:25 LEVELS *)
Definition levels_all : list level := [LCPU; LCore; LModule; LDie; LNode; LPkg].
Definition level_name (l : level) : string :=
  match l with
  | LCPU => "CPU" | LCore => "core" | LModule => "module" | LDie => "die" | LNode => "node" | LPkg => "package"
  end.
(** _PepcTopology.py:147, 163: the title of a column *)
Definition title (c : col) : string :=
  match c with
  | CLvl LCPU => "CPU" | CLvl LCore => "Core" | CLvl LModule => "Module" | CLvl LDie => "Die"
  | CLvl LNode => "Node" | CLvl LPkg => "Package" | CHyb => "Hybrid"
  end.

Definition same_level (a b : level) : bool := lidx a =? lidx b.

(** _PepcTopology.py:29-38: the loop over the lines in module order; true if it was not left by "break".
    [cur] is (module, core, package). *)
Fixpoint one_core_per_module (cur : option (Z * Z * Z)) (lines : list tline) : bool :=
  match lines with
  | [] => true
  | t :: rest =>
      match cur with
      | None => one_core_per_module (Some (t_module t, t_core t, t_pkg t)) rest
      | Some (m, k, p) =>
          if negb (m =? t_module t) then one_core_per_module (Some (t_module t, t_core t, t_pkg t)) rest
          else if negb (k =? t_core t) || negb (p =? t_pkg t) then false
          else one_core_per_module cur rest
      end
  end.

(** _PepcTopology.py:40-48: the same for dies, in package order; [cur] is (package, die) *)
Fixpoint one_die_per_package (cur : option (Z * Z)) (lines : list tline) : bool :=
  match lines with
  | [] => true
  | t :: rest =>
      match cur with
      | None => one_die_per_package (Some (t_pkg t, t_die t)) rest
      | Some (p, d) =>
          if negb (p =? t_pkg t) then one_die_per_package (Some (t_pkg t, t_die t)) rest
          else if negb (d =? t_die t) then false
          else one_die_per_package cur rest
      end
  end.

(** _PepcTopology.py:20-50 _get_default_colnames(). The object is new (line 112) and the die level is not
    asked for in the first loop, so there are no lines of I/O dies in it (_CPUInfoBase.py:297-300). *)
Definition default_colnames (ci : cpuinfo) : list level :=
  let cpu_lines := filter (fun t => negb (t_cpu t =? NA)) (get_topology ci LModule) in
  let names := levels_all in
  let names := if one_core_per_module None cpu_lines then filter (fun l => negb (same_level l LModule)) names
               else names in
  if one_die_per_package None (get_topology ci LPkg) then filter (fun l => negb (same_level l LDie)) names
  else names.

(** The system: the topology, info["hybrid"] and the P-core CPUs returned by get_hybrid_cpus(). *)
Record tenv := TE { te_ci : cpuinfo; te_hybrid : bool; te_pcores : res (list Z) }.

(** The options: --columns, --order and --online-only. *)
Record topts := TO { to_columns : option str; to_order : str; to_online : bool }.

(** _PepcTopology.py:118-121, 133-136: the level with this name, in any letter case *)
Definition find_level (name : str) : option level :=
  find (fun l => str_eqb (lower name) (lower (s2l (level_name l)))) levels_all.

(** _PepcTopology.py:116-128: the columns and whether "hybrid" is among them *)
Fixpoint parse_columns (names : list str) : res (list level * bool) :=
  match names with
  | [] => Ok ([], false)
  | n :: t =>
      match find_level n with
      | Some l => let? (ls, hy) := parse_columns t in Ok (l :: ls, hy)
      | None => if str_eqb n (s2l "hybrid") then let? (ls, _) := parse_columns t in Ok (ls, true)
                else Exn EError
      end
  end.

(** A line to print: a line of the table, or an offline CPU (52-66). *)
Inductive trow := OnRow (t : tline) | OffRow (cpu : Z).

(** _PepcTopology.py:62-63, 166-172, 185-189: the text of a column of a line *)
Definition cell (pcores : list Z) (r : trow) (c : col) : str :=
  match r, c with
  | OnRow t, CLvl l => if lget l t =? NA then s2l "-" else dec (lget l t)
  | OnRow t, CHyb => if inb (t_cpu t) pcores then s2l "P-core" else s2l "E-core"
  | OffRow cpu, CLvl LCPU => dec cpu
  | OffRow _, _ => s2l "?"
  end.

(** "%<width>s" *)
Definition rjust (width : nat) (s : str) : str := repeat " "%char (width - length s) ++ s.
Definition sep4 : str := repeat " "%char 4.
Fixpoint join4 (l : list str) : str :=
  match l with
  | [] => []
  | [x] => x
  | x :: t => x ++ sep4 ++ join4 t
  end.

Definition col_width (c : col) : nat := String.length (title c).

(** _PepcTopology.py:143, 162-164, 183, 189-190: the format string applied to the columns [ls] and, if
    [hy], the "hybrid" column *)
Definition format (ls : list level) (hy : bool) (text : col -> str) : str :=
  join4 (map (fun l => rjust (col_width (CLvl l)) (text (CLvl l))) ls) ++
  (if hy then sep4 ++ rjust 6 (text CHyb) else []).

(** _PepcTopology.py:68-78 _filter_cpus() *)
Definition filter_cpus (cpus : list Z) (lines : list tline) : list tline :=
  filter (fun t => (t_cpu t =? NA) || inb (t_cpu t) cpus) lines.

(** _PepcTopology.py:80-102 _filter_io_dies() *)
Definition filter_io_dies (dies : list (Z * Z)) (lines : list tline) : list tline :=
  filter (fun t => negb (t_cpu t =? NA) || pair_inb (t_pkg t, t_die t) dies) lines.

Definition with_offline_ok (b : bool) (a : otargs) : otargs :=
  OA (oa_cpus a) (oa_cores a) (oa_modules a) (oa_dies a) (oa_packages a) (oa_core_sib a) (oa_module_sib a) b.

(** _PepcTopology.py:104-195 topology_info_command(): the printed lines. The offline_ok argument in [a]
    is not used. *)
Definition topology_info (e : tenv) (a : otargs) (o : topts) : res (list str) :=
  let ci := te_ci e in
  let? (ls, asked) := match to_columns o with
                      | None => Ok (default_colnames ci, false)
                      | Some s => parse_columns (split_csv_line "," false false s)
                      end in
  if asked && negb (te_hybrid e) then Exn EError
  else
    match find_level (to_order o) with
    | None => Exn EError
    | Some order =>
        let? ot := ot_init ci (with_offline_ok (negb (to_online o)) a) in
        let lines := get_topology ci order in
        let hy := asked || te_hybrid e in
        let? pcores := if hy then te_pcores e else Ok [] in
        let (rc, ot1) := ot_get_cpus ci ot in
        let? cpus := rc in
        let lines := filter_cpus cpus lines in
        let? dies := if existsb (same_level LDie) ls then fst (ot_get_dies ci false ot1) else Ok [] in
        let lines := filter_io_dies dies lines in
        let off := if to_online o then [] else filter (fun c => inb c cpus) (get_offline_cpus ci) in
        let text r := format ls hy (cell pcores r) in
        Ok (format ls hy (fun c => s2l (title c)) ::
            list_dedup str_eqb (map text (map OnRow lines ++ map OffRow off)))
    end.
