(** Model of pepctool/_PepcCPUHotplug.py: the 'cpu-hotplug' command, on top of M_Online (CPUOnline.py),
    M_OpTarget (_OpTarget.py) and M_Text (number lists). *)
From Verif Require Import Base M_Text M_CPUInfo M_OpTarget M_Online.

(** pepclibs/CPUInfo.py: every command creates a CPUInfo object of its own (pepctool/_PepcCPUHotplug.py:27
    and 56; pepclibs/CPUOnline.py __init__ for the 'online' command) *)
Definition new_cpuinfo : M ost unit := modify (fun s => set_oci s (topo_init (o_sys s) (o_online s))).

(** pepctool/_PepcCPUHotplug.py:29-34: one line of the output. [None] is "No ... CPUs". *)
Definition hp_line (cpus : list Z) : option str :=
  match cpus with [] => None | _ => Some (rangify cpus) end.

(** pepctool/_PepcCPUHotplug.py:20-34 cpu_hotplug_info_command(): the line of the online CPUs and the
    line of the offline CPUs *)
Definition hp_info : M ost (option str * option str) :=
  new_cpuinfo ;;
  let! ci := gets o_ci in
  ret (hp_line (get_cpus ci), hp_line (get_offline_cpus ci)).

(** pepctool/_PepcCommon.py:37-46 parse_cpus_string(); "all" is [None] *)
Definition parse_cpus_string (cpus : str) : res nums_t :=
  if str_eqb cpus (s2l "all") then Ok None
  else let? l := parse_int_list "," true [NStr cpus] in Ok (Some l).

(** pepctool/_PepcCPUHotplug.py:36-47 cpu_hotplug_online_command(). [None] is an option that was not
    given. *)
Definition hp_online (cpus : option str) : M ost unit :=
  match cpus with
  | None | Some [] => throw EError
  | Some text =>
    new_cpuinfo ;;
    let! l := lift (parse_cpus_string text) in
    cpus_online l false
  end.

(** pepctool/_PepcCPUHotplug.py:65-68: the command does not pass 'offline_ok', which is 'False' by
    default *)
Definition online_only (a : otargs) : otargs :=
  OA (oa_cpus a) (oa_cores a) (oa_modules a) (oa_dies a) (oa_packages a) (oa_core_sib a)
     (oa_module_sib a) false.

(** pepctool/_PepcCPUHotplug.py:63: args.cpus in ("all", None) *)
Definition skips_unsupported (a : otargs) : bool :=
  match oa_cpus a with None | Some None => true | Some (Some _) => false end.

(** pepctool/_PepcCPUHotplug.py:49-70 cpu_hotplug_offline_command(). The option values are already
    parsed, as in M_OpTarget: an empty '--cpus' text is the empty list; a text of commas only is outside
    the model. *)
Definition hp_offline (a : otargs) : M ost unit :=
  new_cpuinfo ;;
  let! ci := gets o_ci in
  let! ot := lift (ot_init ci (online_only a)) in
  let! cpus := lift (fst (ot_get_cpus ci ot)) in
  cpus_offline (Some cpus) (skips_unsupported a).

(** One run of the command. *)
Inductive hpcmd := HInfo | HOnline (cpus : option str) | HOffline (a : otargs).
Definition hp_run (c : hpcmd) : M ost (option (option str * option str)) :=
  match c with
  | HInfo => let! r := hp_info in ret (Some r)
  | HOnline cpus => hp_online cpus ;; ret None
  | HOffline a => hp_offline a ;; ret None
  end.

(** The machine after a number of runs of the command, whatever their outcome. *)
Definition hp_runs (l : list hpcmd) (s : ost) : ost := fold_left (fun s c => snd (hp_run c s)) l s.
