(** Specification of CPU onlining and offlining (C17), in terms of the set of online CPUs the kernel
    reports, the 'online' control files, and the CPUs the caller names. *)
From Verif Require Import Base M_CPUInfo S_CPUInfo M_Online.

Definition on_now (s : ost) (c : Z) : Prop := In c (o_online s).
Definition in_state (s : ost) (c : Z) (online : bool) : Prop := if online then on_now s c else ~ on_now s c.
Definition present (s : ost) (c : Z) : Prop := In c (sys_present (o_sys s)).

(** CPUs are named by number or by "all". *)
Definition wanted (s : ost) (cpus : nums_t) (c : Z) : Prop :=
  match cpus with None => present s c | Some l => In c l end.

(** What one successful call leaves behind. *)
Record toggled_to (cpus : nums_t) (online : bool) (s s' : ost) : Prop := {
  tt_done : forall c, wanted s cpus c -> o_file s c = true -> in_state s' c online;
  tt_kept : forall c, ~ wanted s cpus c \/ o_file s c = false -> (on_now s' c <-> on_now s c) }.

(** The part of the machine that no call changes. *)
Definition same_machine (s s' : ost) : Prop :=
  o_sys s' = o_sys s /\ o_file s' = o_file s /\ o_dir s' = o_dir s /\ o_beh s' = o_beh s.

(** States the calls start from: the kernel reports present CPUs, each once, and the CPUInfo object
    was created on this machine and has seen any hotplug events. *)
Definition machine_ok (s : ost) : Prop :=
  sys_ok (o_sys s) /\ online_ok (o_sys s) (o_online s) /\
  exists on hist, online_ok (o_sys s) on /\ Forall (online_ok (o_sys s)) hist /\
                  o_ci s = after_hotplug (o_sys s) on hist.

(** The state of CPU [c] that a sequence of calls asks for: that of the last call naming it. *)
Fixpoint asked (calls : list ocall) (s : ost) (c : Z) (cur : bool) : bool :=
  match calls with
  | [] => cur
  | OCall online cpus _ :: t =>
    asked t s c (if o_file s c &&
                    match cpus with None => inb c (sys_present (o_sys s)) | Some l => inb c l end
                 then online else cur)
  end.
