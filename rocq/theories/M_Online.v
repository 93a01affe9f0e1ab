(** Model of pepclibs/CPUOnline.py: bringing CPUs online and offline. *)
From Verif Require Import Base M_CPUInfo.

(** How the kernel answers a write to a CPU's 'online' file: it does as asked, it fails the write, or
    the write succeeds but the CPU does not change its state. *)
Inductive kresp := KObey | KFail | KIgnore.

(** The running system as this module sees it, and the CPUInfo object it holds. [o_beh] gives the
    kernel's answer for a CPU and a target state. The kernel contract assumed here: a write to the
    file of one CPU does not change the state of another. [o_log] records the successful writes. *)
Record ost := OST {
  o_sys : system;               (* topology, present CPUs *)
  o_file : Z -> bool;           (* /sys/devices/system/cpu/cpuN/online exists *)
  o_dir : Z -> bool;            (* /sys/devices/system/cpu/cpuN exists *)
  o_beh : Z -> bool -> kresp;
  o_online : list Z;            (* /sys/devices/system/cpu/online *)
  o_log : list (Z * bool);
  o_ci : cpuinfo }.

Definition set_oci (s : ost) (ci : cpuinfo) : ost :=
  OST (o_sys s) (o_file s) (o_dir s) (o_beh s) (o_online s) (o_log s) ci.
Definition set_oonline (s : ost) (on : list Z) (log : list (Z * bool)) : ost :=
  OST (o_sys s) (o_file s) (o_dir s) (o_beh s) on log (o_ci s).

(** pepclibs/CPUInfo.py:379-381 cpus_hotplugged(): the next query re-reads the online CPUs *)
Definition cpus_hotplugged : M ost unit :=
  modify (fun s => set_oci s (topo_update (o_sys s) (o_ci s) (o_online s))).

(** pepclibs/CPUOnline.py:37-44 _verify_path() *)
Definition verify_path (cpu : Z) : M ost unit :=
  fun s => if negb (o_file s cpu) then
             if o_dir s cpu then (Exn ENotSupported, s) else (Exn EError, s)
           else (Ok tt, s).

(** The effect of the write at pepclibs/CPUOnline.py:123-124 *)
Definition kernel_set (on : list Z) (cpu : Z) (online : bool) : list Z :=
  if online then (if inb cpu on then on else on ++ [cpu])
  else filter (fun c => negb (c =? cpu)) on.

Definition write_online (cpu : Z) (online : bool) : M ost unit :=
  fun s => match o_beh s cpu online with
           | KFail => (Exn EError, s)
           | KIgnore => (Ok tt, set_oonline s (o_online s) (o_log s ++ [(cpu, online)]))
           | KObey => (Ok tt, set_oonline s (kernel_set (o_online s) cpu online)
                                          (o_log s ++ [(cpu, online)]))
           end.

(** pepclibs/CPUOnline.py:46-57 _validate_hotplugged_cpus() *)
Definition validate_hotplugged (cpus : list Z) (online : bool) : M ost unit :=
  fun s => let valid := if online then get_cpus (o_ci s) else get_offline_cpus (o_ci s) in
           if forallb (fun c => inb c valid) cpus then (Ok tt, s) else (Exn EError, s).

(** The loop at pepclibs/CPUOnline.py:105-127; gives the list 'toggled' *)
Fixpoint toggle_loop (ready : list Z) (online skip : bool) (cpus : list Z) (toggled : list Z)
  : M ost (list Z) :=
  match cpus with
  | [] => ret toggled
  | cpu :: t =>
    if inb cpu ready then toggle_loop ready online skip t toggled
    else fun s =>
      match verify_path cpu s with
      | (Exn ENotSupported, s1) =>
        if skip then toggle_loop ready online skip t toggled s1 else (Exn ENotSupported, s1)
      | (Exn e, s1) => (Exn e, s1)
      | (Ok _, s1) => (write_online cpu online ;; toggle_loop ready online skip t (toggled ++ [cpu])) s1
      end
  end.

(** pepclibs/CPUOnline.py:73-131 _toggle(); [cpus] = None is "all" *)
Definition toggle (cpus : nums_t) (online skip : bool) : M ost unit :=
  cpus_hotplugged ;;
  let! ci := gets o_ci in
  let ready := if online then get_cpus ci else get_offline_cpus ci in
  let go := fun (l : list Z) (skip : bool) =>
    let! toggled := toggle_loop ready online skip l [] in
    match toggled with
    | [] => ret tt
    | _ => cpus_hotplugged ;; validate_hotplugged toggled online
    end in
  match cpus with
  | None =>
    let l := if online then get_offline_cpus ci else get_cpus ci in
    match l with [] => ret tt | _ => go l true end
  | Some l0 => let! l := lift (normalize_cpus ci (Some l0) true) in go l skip
  end.

(** pepclibs/CPUOnline.py:133-147 online(), offline() *)
Definition cpus_online (cpus : nums_t) (skip : bool) : M ost unit := toggle cpus true skip.
Definition cpus_offline (cpus : nums_t) (skip : bool) : M ost unit := toggle cpus false skip.

(** pepclibs/CPUOnline.py:149-160 is_online(), with _get_online() (59-66): the kernel writes "0" or
    "1" to the file, so the "unexpected value" branch is not modelled *)
Definition is_online (cpu : Z) : M ost bool :=
  fun s => if o_file s cpu then (Ok (inb cpu (o_online s)), s)
           else if o_dir s cpu then (Ok true, s) else (Exn ENotFound, s).

(** A sequence of calls, as one program run makes them; stops at the first exception. *)
Inductive ocall := OCall (online : bool) (cpus : nums_t) (skip : bool).
Definition ostep (c : ocall) : M ost unit :=
  match c with OCall online cpus skip => if online then cpus_online cpus skip else cpus_offline cpus skip end.
Definition oruns (l : list ocall) : M ost unit := mfor l ostep.
