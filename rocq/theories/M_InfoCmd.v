(** Model of the 'info' commands: pepctool/_PepcCStates.py, _PepcPStates.py, _PepcPower.py, _PepcPMQoS.py ('..._info_command()'),
    the helpers of pepctool/_PepcCommon.py they use, and how pepctool/_PepcPrinter.py writes C-states for people and properties
    in YAML.

    Properties and mechanisms are named by numbers, as in M_Props; the names of mechanisms that a user types are texts. *)
From Coq Require Import Ascii String.
From Verif Require Import Base M_CPUInfo M_Text M_Human M_CPUIdle M_CSave M_Props M_OpTarget M_Print.

(** ** C-states for people *)

(** f"{val}" of a value of a C-state *)
Definition val_text (v : cval) : str := match v with CInt n => dec n | CStr t => t end.

(** "off" if val else "on" (_PepcPrinter.py:666) *)
Definition on_off (v : cval) : str := if M_CSave.truthy v then s2l "off"%string else s2l "on"%string.

Definition opt_text (o : option str) : str := match o with Some t => t | None => [] end.

(** _PepcPrinter.py:609-638 _print_val_msg(): the line. Simplification: there is a name, and the value is not None. *)
Definition val_msg (ci : cpuinfo) (val name : str) (cpus : option (list Z)) (prefix suffix action : option str) : res str :=
  let? sfx := (match cpus with None => Ok [] | Some l => let? t := fmt_cpus ci l in Ok (s2l " for "%string ++ t) end) in
  let act := match action with Some (c :: t) => (c :: t) ++ s2l " "%string | _ => [] end in
  let val := match cpus with None => val | Some _ => s2l "'"%string ++ val ++ s2l "'"%string end in
  Ok (opt_text prefix ++ name ++ s2l ": "%string ++ act ++ val ++ sfx ++ opt_text suffix).

(** _PepcPrinter.py:670-680: how a key is called, and the unit. None: the key is not printed. *)
Definition key_name (key : str) : option (str * option str) :=
  if str_eqb key (s2l "latency"%string) then Some (s2l "expected latency"%string, Some (s2l " us"%string))
  else if str_eqb key (s2l "residency"%string) then Some (s2l "target residency"%string, Some (s2l " us"%string))
  else if str_eqb key (s2l "desc"%string) then Some (s2l "description"%string, None)
  else None.

(** _PepcPrinter.py:669-683: the lines about the other keys of a C-state *)
Definition detail_lines (ci : cpuinfo) (sub_prefix : str) (d : list (str * kinfo)) : res (list str) :=
  let? ll := rmap d (fun kk => match key_name (fst kk) with
                               | None => Ok []
                               | Some (name, sfx) => rmap (snd kk) (fun vc => val_msg ci (val_text (fst vc)) name None (Some sub_prefix) sfx None)
                               end) in
  Ok (concat ll).

(** _PepcPrinter.py:659-683: one C-state *)
Definition cstate_lines (ci : cpuinfo) (prefix : option str) (sub_prefix : str) (action : option str) (nd : str * list (str * kinfo))
  : res (option (list str)) :=
  match dget str_eqb (snd nd) (s2l "disable"%string) with
  | None => Ok None
  | Some k =>
      let? l1 := rmap k (fun vc => val_msg ci (on_off (fst vc)) (fst nd) (Some (snd vc)) prefix None action) in
      let? l2 := detail_lines ci sub_prefix (snd nd) in
      Ok (Some (l1 ++ l2))
  end.

(** _PepcPrinter.py:640-685 _print_aggr_rcsinfo_human(): the lines and the count. [descr] is the description of mechanism
    "sysfs". *)
Definition rcs_human (ci : cpuinfo) (descr : str) (group : bool) (action : option str) (a : rcsinfo) : res (list str * Z) :=
  match a with
  | [] => Ok ([s2l "This system does not support C-states"%string], 0)
  | _ =>
      let prefix := if group then Some (s2l " - "%string) else None in
      let sub_prefix := if group then s2l "    - "%string else s2l " - "%string in
      let? ll := rmap a (cstate_lines ci prefix sub_prefix action) in
      let blocks := flat_map (fun o => match o with Some b => [b] | None => [] end) ll in
      Ok ((if group then [s2l "Source: "%string ++ descr] else []) ++ concat blocks, Z.of_nat (length blocks))
  end.

(** ** Properties in YAML *)

(** The type of a property, as far as the YAML printer tells them apart: "list[...]", "dict[...]", others. *)
Inductive ptype := TScalar | TList | TDict.

(** What is written as the value: the value, a text, or a list of texts. *)
Inductive yout (V : Type) := YoVal (v : V) | YoText (t : str) | YoTexts (l : list str).
Arguments YoVal {V} v.
Arguments YoText {V} t.
Arguments YoTexts {V} l.

(** _PepcPrinter.py:305-315: the value. list("not supported") is the list of its letters, dict("not supported") is a ValueError.
    Simplification: list() and dict() of a value that is a list or a dictionary change nothing. *)
Definition yaml_value {V} (ty : ptype) (val : option V) : res (yout V) :=
  let t := s2l "not supported"%string in
  match val, ty with
  | Some v, _ => Ok (YoVal v)
  | None, TScalar => Ok (YoText t)
  | None, TList => Ok (YoTexts (map (fun c => [c]) t))
  | None, TDict => Exn EValue
  end.

(** _PepcPrinter.py:296-327 _print_aggr_pinfo_yaml(): the dictionary that is written. M_Print.yaml_pinfo gathers the values;
    here they are converted. Simplification: the conversion comes after all the values have been gathered. *)
Definition yaml_typed {V} (types : Z -> ptype) (a : @aggr V) : res (list (Z * list (yout V * rsname * ynums))) :=
  rmap (yaml_pinfo a) (fun py =>
    let? l := rmap (snd py) (fun y => let? v := yaml_value (types (fst py)) (y_value y) in Ok (v, y_sname y, y_nums y)) in
    Ok (fst py, l)).

(** _PepcPrinter.py:253-265, 280-285: what _print_aggr_pinfo_human() counts *)
Definition count_vals {V} (a : @aggr V) : Z :=
  Z.of_nat (length (flat_map (fun md => flat_map (fun pi => snd (snd pi)) (snd md)) a)).

(** ** The commands *)

(** What a command prints, in order. *)
Inductive iout (V : Type) :=
| OCs (l : list str)                                               (* C-states, for people *)
| OCsYaml (y : M_CSave.ydict)                                      (* C-states, YAML *)
| OProps (group : bool) (l : list (Z * list (@hline V)))           (* properties, for people: mechanism and lines *)
| OPropsYaml (y : list (Z * list (yout V * rsname * ynums)))       (* properties, YAML *)
| ONothing.                                                        (* "No ... properties supported" *)
Arguments OCs {V} l.
Arguments OCsYaml {V} y.
Arguments OProps {V} group l.
Arguments OPropsYaml {V} y.
Arguments ONothing {V}.

(** The options of an 'info' command: '--yaml', '--mechanisms' ("" if it is not given), the property options in the order they
    were given (None: none was given). *)
Record iargs := IA { ia_yaml : bool; ia_mechs : str; ia_oargs : option (list Z) }.

Section Info.
  Context {St V : Type}.
  Variable cls : pclass St V.
  Variable subs : Z -> list Z.            (* props[pname].get("subprops", []) *)
  Variable mnames_of : list (str * Z).    (* the mechanisms of the class by name *)
  Variable types : Z -> ptype.            (* the types of the properties *)
  Variable global : Z -> bool.            (* the properties with the "global" scope *)
  Variable blank : V -> bool.             (* values that are empty lists or dictionaries *)

  (** pepctool/_PepcCommon.py:67-93 expand_subprops() *)
  Fixpoint expand_subprops (pnames : list Z) : list Z :=
    match pnames with
    | [] => []
    | p :: t => p :: (match dget Z.eqb (pc_props cls) p with Some _ => subs p | None => [] end) ++ expand_subprops t
    end.

  (** pepctool/_PepcCommon.py:95-108 parse_mechanisms() *)
  Definition parse_mechanisms (t : str) : res (list Z) :=
    rmap (split_csv_line "," true false t) (fun n => match dget str_eqb mnames_of n with Some m => Ok m | None => Exn ENotSupported end).

  (** "if args.mechanisms: ..." (e.g. _PepcPStates.py:46-48) *)
  Definition allowed_mechs (t : str) : res (option (list Z)) :=
    match t with [] => Ok None | _ => let? l := parse_mechanisms t in Ok (Some l) end.

  (** _PepcPrinter.py:480-506 print_props() with 'skip_ro=False': what is printed and the count. Simplification: nothing is
      printed before an error of the printing itself. *)
  Definition print_props (yaml : bool) (pnames : option (list Z)) (mnames : option (list Z)) (skip_unsupported group : bool)
    : M (@pstate St V) (iout V * Z) :=
    let! a := aggr_props (pc_veqb cls) (get_prop_sname cls mnames) (pc_props cls) pnames false skip_unsupported in
    if yaml then let! y := lift (yaml_typed types a) in ret (OPropsYaml y, Z.of_nat (length y))
    else let! l := lift (print_human (pc_ci cls) global blank a) in ret (OProps group l, count_vals a).

  (** "if not printed: ..." *)
  Definition nothing (n : Z) : list (iout V) := if n =? 0 then [ONothing] else [].

  (** _PepcPStates.py:21-64 pstates_info_command(), _PepcPower.py:22-66 power_info_command(), _PepcPMQoS.py:21-64
      pmqos_info_command(). The construction of the objects, '--override-cpu-model' and the parsing of the target CPUs
      (M_OpTarget) are not included. *)
  Definition props_info (args : iargs) : M (@pstate St V) (list (iout V)) :=
    let! ms := lift (allowed_mechs (ia_mechs args)) in
    let! r := (match ia_oargs args with
               | None => print_props (ia_yaml args) None ms true true
               | Some l => print_props (ia_yaml args) (Some (expand_subprops l)) ms false false
               end) in
    ret (fst r :: nothing (snd r)).

  (** '--csnames': not given, given without an argument, given with one *)
  Inductive csopt := CsDefault | CsBare | CsGiven (t : str).

  Variable mc : machine.
  Variable descr : str.

  Definition on_cs {A} (m : M idle A) : M (idle * @pstate St V) A :=
    fun s => match m (fst s) with (r, s') => (r, (s', snd s)) end.
  Definition on_pr {A} (m : M (@pstate St V) A) : M (idle * @pstate St V) A :=
    fun s => match m (snd s) with (r, s') => (r, (fst s, s')) end.

  (** _PepcPrinter.py:759-793 print_cstates() with 'skip_ro=False': what is printed and the count. *)
  Definition print_cstates (yaml : bool) (csnames : str) (cpus : list Z) (group : bool) (action : option str)
    : M idle (list (iout V) * Z) :=
    let! o := aggr_cstates mc (CsText csnames) (Some cpus) false in
    match o with
    | None => ret ([], 0)
    | Some a =>
        if yaml then let y := yaml_rcsinfo a in ret ([OCsYaml y], Z.of_nat (length y))
        else let! r := lift (rcs_human (mc_ci mc) descr group action a) in ret ([OCs (fst r)], snd r)
    end.

  (** _PepcCStates.py:22-77 cstates_info_command(), with the same parts left out as in [props_info]. *)
  Definition cstates_info (args : iargs) (csnames : csopt) : M (idle * @pstate St V) (list (iout V)) :=
    let! ms := lift (allowed_mechs (ia_mechs args)) in
    match ia_oargs args, csnames with
    | None, CsDefault =>
        let! cpus := on_pr (on_target (ot_get_cpus (pc_ci cls))) in
        let! (o1, n1) := on_cs (print_cstates (ia_yaml args) (s2l "all"%string) cpus true None) in
        let! (o2, n2) := on_pr (print_props (ia_yaml args) None ms true true) in
        ret (o1 ++ o2 :: nothing (n1 + n2))
    | oargs, _ =>
        let! (o1, n1) := (match csnames with
                          | CsDefault => ret ([], 0)
                          | CsBare => let! cpus := on_pr (on_target (ot_get_cpus (pc_ci cls))) in
                                      on_cs (print_cstates (ia_yaml args) (s2l "all"%string) cpus false None)
                          | CsGiven t => let! cpus := on_pr (on_target (ot_get_cpus (pc_ci cls))) in
                                         on_cs (print_cstates (ia_yaml args) t cpus false None)
                          end) in
        let! (o2, n2) := (match expand_subprops (match oargs with Some l => l | None => [] end) with
                          | [] => ret ([], 0)
                          | l => let! (o, n) := on_pr (print_props (ia_yaml args) (Some l) ms false false) in ret ([o], n)
                          end) in
        ret (o1 ++ o2 ++ nothing (n1 + n2))
    end.
End Info.
