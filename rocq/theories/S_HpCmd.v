(** Specification of the 'cpu-hotplug' command (C63), in terms of the CPUs the kernel reports, the
    'online' control files, and the options. *)
From Coq Require Import Sorting.Sorted.
From Verif Require Import Base M_Text S_Text M_CPUInfo S_CPUInfo M_OpTarget S_OpTarget M_Online S_Online M_HpCmd.

(** A machine: present CPUs with their topology, of which the kernel reports some as online. *)
Definition host_ok (s : ost) : Prop :=
  sys_ok (o_sys s) /\ online_ok (o_sys s) (o_online s) /\ Forall (fun c => 0 <= c) (sys_present (o_sys s)).

(** The topology of the online CPUs, as a newly created object sees it. *)
Definition seen (s : ost) : cpuinfo := after_hotplug (o_sys s) (o_online s) [].

(** A line of the output tells the CPUs that are [P]: read back as a number list it gives exactly these,
    in ascending order; and if there is none, it says so. *)
Definition tells (line : option str) (P : Z -> Prop) : Prop :=
  match line with
  | None => forall c, ~ P c
  | Some t => (exists c, P c) /\
              exists l, parse_int_list "," false [NStr t] = Ok l /\ StronglySorted Z.lt l /\
                        forall c, In c l <-> P c
  end.

(** The target options as given; only online CPUs can be named. *)
Definition off_args (a : otargs) : otargs :=
  OA (oa_cpus a) (oa_cores a) (oa_modules a) (oa_dies a) (oa_packages a) (oa_core_sib a) (oa_module_sib a) false.

(** The CPUs an 'offline' run is about. *)
Definition off_target (s : ost) (a : otargs) (c : Z) : Prop := target_cpu (seen s) (off_args a) c.

(** The options can be understood: I/O dies are told apart, module numbers are not ambiguous, and
    dictionaries have no empty items. *)
Definition off_ok (s : ost) (a : otargs) : Prop :=
  host_ok s /\ io_dies_exact (seen s) /\ o_online s <> [] /\ siblings_ok (seen s) (off_args a) /\
  args_proper a.

(** CPU numbers were given with the option '--cpus'. *)
Definition numbers_given (a : otargs) : Prop := exists l, oa_cpus a = Some (Some l).

(** Nothing happened: no write, no CPU changed its state. *)
Definition untouched (s s' : ost) : Prop :=
  same_machine s s' /\ o_online s' = o_online s /\ o_log s' = o_log s.

(** The CPUs that are [P] and have a control file are now in the state, the others are as they were. *)
Definition now_are (P : Z -> Prop) (online : bool) (s s' : ost) : Prop :=
  (forall c, P c -> o_file s c = true -> in_state s' c online) /\
  (forall c, ~ P c \/ o_file s c = false -> (on_now s' c <-> on_now s c)).
