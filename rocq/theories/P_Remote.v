(** Property theorems C68: MSR access on a remote host. *)
From Verif Require Import Base M_CPUInfo S_CPUInfo X_CPUInfo M_MSR S_MSR L_MSR5 X_MSR M_Remote S_Remote L_Remote4 X_Remote.

(** When no operation fails: a sequence of calls on a remote host succeeds or fails like on the local host, and every
    call returns the same values, and leaves the registers, the pending writes and the cache the same. *)
Theorem C68_same : forall env sc ops hw,
  wf_ci (me_ci env) -> (forall a, scope_right env a (sc a)) -> (forall o, In o ops -> op_scoped sc o) ->
  answers (rstep env) ops (msr_init hw []) = answers (mstep env) ops (msr_init hw []).
Proof. exact (fun env sc ops hw Hwf Hsc => C68_same_l env sc Hwf Hsc ops hw). Qed.
Print Assumptions C68_same.

(** Whichever operations fail: if the sequence completes on both, the values returned, the registers and the writes done
    are the same. *)
Theorem C68_agree : forall env sc ops hw f1 f2 r1 s1 r2 s2,
  wf_ci (me_ci env) -> (forall a, scope_right env a (sc a)) -> (forall o, In o ops -> op_scoped sc o) ->
  answers (rstep env) ops (msr_init hw f1) = Some (r1, s1) -> answers (mstep env) ops (msr_init hw f2) = Some (r2, s2) ->
  r1 = r2 /\ (forall a d, ms_hw s1 a d = ms_hw s2 a d) /\ ms_log s1 = ms_log s2 /\ ms_intr s1 = ms_intr s2.
Proof. exact (fun env sc ops hw f1 f2 r1 s1 r2 s2 Hwf Hsc => C68_agree_l env sc Hwf Hsc ops hw f1 f2 r1 s1 r2 s2). Qed.
Print Assumptions C68_agree.

(** A completed sequence acts on the registers of the remote host like the abstract operations. *)
Theorem C68_effects : forall env sc ops hw faults rs s,
  wf_ci (me_ci env) -> (forall a, scope_right env a (sc a)) -> faithful env -> disciplined env sc ops ->
  answers (rstep env) ops (msr_init hw faults) = Some (rs, s) -> effects env ops hw (view env s).
Proof. exact (fun env sc ops hw faults rs s Hwf Hsc => C68_effects_l env sc Hwf Hsc ops hw faults rs s). Qed.
Print Assumptions C68_effects.

(** Proper calls do not fail on a remote host when no operation fails. *)
Theorem C68_succeeds : forall env sc ops hw,
  wf_ci (me_ci env) -> (forall a, scope_right env a (sc a)) -> faithful env -> disciplined env sc ops -> ops_valid env false ops ->
  (forall a d, 0 <= hw a d < 2 ^ 64) -> exists rs s, answers (rstep env) ops (msr_init hw []) = Some (rs, s).
Proof. exact (fun env sc ops hw Hwf Hsc => C68_succeeds_l env sc Hwf Hsc ops hw). Qed.
Print Assumptions C68_succeeds.

(** Whatever the remote hardware does with written values: a verified write that succeeds has stored the value. *)
Theorem C68_verified : forall env sc ops hw faults a v cpus rs s,
  wf_ci (me_ci env) -> (forall a, scope_right env a (sc a)) -> (forall o, In o ops -> op_scoped sc o) ->
  answers (rstep env) (ops ++ [OWrite a v cpus (sc a) true]) (msr_init hw faults) = Some (rs, s) -> ms_intr s = false ->
  forall c, In c (targets env cpus) -> ms_hw s a (me_dom env a c) = v.
Proof. exact (fun env sc ops hw faults a v cpus rs s Hwf Hsc => C68_verified_l env sc Hwf Hsc ops hw faults a v cpus rs s). Qed.
Print Assumptions C68_verified.

(** A call changes no other registers of the remote host than those it is for, also when it fails half way. *)
Theorem C68_frame : forall env o s a d, ~ may_change env o s a d -> ms_hw (snd (rstep env o s)) a d = ms_hw s a d.
Proof. exact rstep_frame. Qed.
Print Assumptions C68_frame.

Example C68_ex_hyps : wf_ci (me_ci x_env) /\ (forall a, scope_right x_env a (x_sc a)) /\ faithful x_env /\
  disciplined x_env x_sc xr_ops /\ ops_valid x_env false xr_ops.
Proof. exact (conj xci_wf (conj x_scope_right (conj x_faithful (conj xr_disciplined xr_valid)))). Qed.
Example C68_ex : option_map fst (answers (rstep x_env) xr_ops (msr_init x_hw [false; false; false])) = Some xr_rs /\
  option_map (fun x => ms_log (snd x)) (answers (rstep x_env) xr_ops (msr_init x_hw [])) =
  Some [(4, 416, 5); (0, 416, 5); (0, 416, 9); (0, 432, 432006); (4, 416, 9); (1, 432, 432006)].
Proof. vm_compute. split; reflexivity. Qed.
(** The script that writes the registers fails after the first write: the second register is not changed. *)
Example C68_ex_fail :
  let s0 := mrun x_env [OStart; OWrite 416 9 None SPackage true] (msr_init x_hw [false; false; true]) in
  let '(r, s) := rstep x_env OCommit s0 in
  r = Exn EError /\ ms_hw s 416 0 = 9 /\ ms_hw s 416 1 = 416001.
Proof. vm_compute. repeat split. Qed.
