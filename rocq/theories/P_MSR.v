(** Property theorems C03-C06 and C43: bit-fields, MSR access and the per-CPU cache. *)
From Verif Require Import Base L_Base M_CPUInfo S_CPUInfo L_CPUInfo X_CPUInfo M_MSR S_MSR L_Bits
  L_MSR L_MSR2 L_MSR3 L_MSR4 L_MSR5 X_MSR.

(** ** C03: bit-field algebra *)

Theorem C03_set_bits : forall r b v r',
  field_ok b -> 0 <= v -> set_bits r b (Some v) = Ok r' -> fits b v /\ is_set b v r r'.
Proof. exact set_bits_is_set_some. Qed.
Print Assumptions C03_set_bits.

Theorem C03_set_bits_succeeds : forall r b v,
  field_ok b -> fits b v -> exists r', set_bits r b (Some v) = Ok r'.
Proof. exact set_bits_ex. Qed.
Print Assumptions C03_set_bits_succeeds.

Theorem C03_set_all_ones : forall r b r',
  field_ok b -> set_bits r b None = Ok r' ->
  is_set b (2 ^ field_width b - 1) r r'.
Proof. exact (fun r b r' Hf E => proj2 (set_bits_is_set r b None r' Hf I E)). Qed.
Print Assumptions C03_set_all_ones.

Theorem C03_get_bits : forall r b v, field_ok b -> get_bits r b = Ok v <-> is_field b r v.
Proof. exact get_bits_is_field. Qed.
Print Assumptions C03_get_bits.

Theorem C03_set_then_get : forall r b v r',
  field_ok b -> 0 <= v -> set_bits r b (Some v) = Ok r' -> get_bits r' b = Ok v.
Proof. exact set_then_get_l. Qed.
Print Assumptions C03_set_then_get.

Theorem C03_set_keeps_64_bits : forall r b val r',
  field_ok b -> match val with Some v => 0 <= v | None => True end ->
  0 <= r < 2 ^ 64 -> set_bits r b val = Ok r' -> 0 <= r' < 2 ^ 64.
Proof. exact set_bits_range. Qed.
Print Assumptions C03_set_keeps_64_bits.

Theorem C03_too_large_rejected : forall r b v,
  field_ok b -> 2 ^ field_width b <= v -> set_bits r b (Some v) = Exn EError.
Proof. exact set_bits_too_large. Qed.
Print Assumptions C03_too_large_rejected.

Theorem C03_set_twice : forall r b v w r1 r2,
  field_ok b -> 0 <= v -> 0 <= w ->
  set_bits r b (Some v) = Ok r1 -> set_bits r1 b (Some w) = Ok r2 -> set_bits r b (Some w) = Ok r2.
Proof. exact set_bits_twice_l. Qed.
Print Assumptions C03_set_twice.

Theorem C03_set_same : forall r b v,
  field_ok b -> get_bits r b = Ok v -> set_bits r b (Some v) = Ok r.
Proof. exact set_bits_same_l. Qed.
Print Assumptions C03_set_same.

Theorem C03_disjoint_commute : forall r b1 b2 v w r1 r12 r2 r21,
  field_ok b1 -> field_ok b2 -> (forall i, ~ (in_field b1 i /\ in_field b2 i)) -> 0 <= v -> 0 <= w ->
  set_bits r b1 (Some v) = Ok r1 -> set_bits r1 b2 (Some w) = Ok r12 ->
  set_bits r b2 (Some w) = Ok r2 -> set_bits r2 b1 (Some v) = Ok r21 -> r12 = r21.
Proof. exact set_bits_commute_l. Qed.
Print Assumptions C03_disjoint_commute.

Theorem C03_other_field : forall r b1 b2 v r',
  field_ok b1 -> field_ok b2 -> (forall i, ~ (in_field b1 i /\ in_field b2 i)) -> 0 <= v ->
  set_bits r b1 (Some v) = Ok r' -> get_bits r' b2 = get_bits r b2.
Proof. exact set_bits_other_field_l. Qed.
Print Assumptions C03_other_field.

(** "A value that does not fit is rejected" does not hold for negative values, and a bit range
    outside the register is accepted. *)
Theorem C03_negative_refuted :
  exists r b v r', 0 <= r < 2 ^ 64 /\ field_ok b /\ ~ fits b v /\
    set_bits r b (Some v) = Ok r' /\ ~ (0 <= r' < 2 ^ 64) /\
    exists i, ~ in_field b i /\ 0 <= i /\ Z.testbit r' i <> Z.testbit r i.
Proof. exact C03_negative_refuted_l. Qed.
Print Assumptions C03_negative_refuted.

Theorem C03_range_refuted :
  exists r b v r', 0 <= r < 2 ^ 64 /\ 64 < fst b /\ set_bits r b (Some v) = Ok r' /\ 2 ^ 64 <= r'.
Proof. exact C03_range_refuted_l. Qed.
Print Assumptions C03_range_refuted.

Example C03_ex1 : set_bits 43981 (11, 4) (Some 18) = Ok 41261 /\ get_bits 41261 (11, 4) = Ok 18.
Proof. split; reflexivity. Qed.
Example C03_ex2 : set_bits 0 (63, 32) None = Ok 18446744069414584320.
Proof. reflexivity. Qed.
Example C03_ex3 : set_bits 0 (3, 2) (Some 4) = Exn EError.
Proof. reflexivity. Qed.
Example C03_ex4 : set_bits 0 (2, 3) (Some 1) = Exn EError.
Proof. reflexivity. Qed.

(** ** C04: writing a bit-field *)

Theorem C04_write_bits : forall env sc,
  wf_ci (me_ci env) -> (forall a, scope_right env a (sc a)) ->
  forall ops hw faults a b val cpus vf s',
  faithful env -> disciplined env sc ops -> field_ok b ->
  match val with Some v => 0 <= v | None => True end ->
  let s := mrun env ops (msr_init hw faults) in
  ms_intr s = false ->
  write_bits env a b val cpus (sc a) vf s = (Ok tt, s') ->
  (forall c, In c (targets env cpus) ->
     is_set b (value_of b val) (ms_hw s a (me_dom env a c)) (ms_hw s' a (me_dom env a c))) /\
  (forall a' d, ~ (a' = a /\ targeted env a cpus d) -> ms_hw s' a' d = ms_hw s a' d).
Proof. exact C04_write_bits_l. Qed.
Print Assumptions C04_write_bits.

Theorem C04_write_bits_failed : forall env sc,
  wf_ci (me_ci env) -> (forall a, scope_right env a (sc a)) ->
  forall ops hw faults a b val cpus vf e s',
  faithful env -> disciplined env sc ops -> field_ok b ->
  match val with Some v => 0 <= v | None => True end ->
  let s := mrun env ops (msr_init hw faults) in
  ms_intr s = false ->
  write_bits env a b val cpus (sc a) vf s = (Exn e, s') ->
  (forall a' d, ~ (a' = a /\ targeted env a cpus d) -> ms_hw s' a' d = ms_hw s a' d) /\
  forall d, ms_hw s' a d = ms_hw s a d \/ is_set b (value_of b val) (ms_hw s a d) (ms_hw s' a d).
Proof. exact C04_write_bits_failed_l. Qed.
Print Assumptions C04_write_bits_failed.

Example C04_ex_hyps :
  wf_ci (me_ci x_env) /\ (forall a, scope_right x_env a (x_sc a)) /\ faithful x_env /\
  disciplined x_env x_sc x_ops /\ field_ok (7, 4) /\
  ms_intr (mrun x_env x_ops (msr_init x_hw [])) = false.
Proof.
  split; [exact xci_wf|]. split; [exact x_scope_right|]. split; [exact x_faithful|].
  split; [exact x_ops_disciplined|]. split; [repeat split; vm_compute; discriminate|reflexivity].
Qed.
(** Writing through CPU 1 changes the register of package 0 and nothing else; 5 = 0b0101, 165 = 0xa5. *)
Example C04_ex_run :
  let '(r, s') := write_bits x_env 416 (7, 4) (Some 10) (Some [1]) SPackage true
                    (mrun x_env x_ops (msr_init x_hw [])) in
  r = Ok tt /\ ms_hw s' 416 0 = 165 /\ ms_hw s' 416 1 = 5 /\ ms_log s' =
    [(1, 416, 5); (4, 416, 5); (3, 16, 16019); (5, 16, 16021); (1, 416, 165)].
Proof. vm_compute. repeat split. Qed.

(** ** C05: reads are coherent after any history *)

Theorem C05_reads_coherent : forall env sc,
  wf_ci (me_ci env) -> (forall a, scope_right env a (sc a)) ->
  forall ops hw faults a cpus r s',
  faithful env -> disciplined env sc ops ->
  let s := mrun env ops (msr_init hw faults) in
  read env a cpus (sc a) s = (Ok r, s') ->
  (forall c v, In (c, v) r -> In c (targets env cpus) /\ v = view env s a (me_dom env a c)) /\
  (forall c, In c (targets env cpus) -> exists v, In (c, v) r) /\
  (ms_intr s = false -> forall a d, view env s a d = ms_hw s a d).
Proof. exact C05_reads_coherent_l. Qed.
Print Assumptions C05_reads_coherent.

(** Every history of successful calls acts on the registers like the abstract operations. *)
Theorem C05_refinement : forall env sc,
  wf_ci (me_ci env) -> (forall a, scope_right env a (sc a)) ->
  forall ops hw faults s,
  faithful env -> disciplined env sc ops ->
  mrun_ok env ops (msr_init hw faults) = Some s -> effects env ops hw (view env s).
Proof. exact C05_refinement_l. Qed.
Print Assumptions C05_refinement.

(** When no I/O operation fails, proper calls do not fail either: reads and writes for online CPUs, with values that
    fit, verified or not, inside and outside transactions. *)
Theorem C05_available : forall env sc ops hw faults,
  wf_ci (me_ci env) -> (forall a, scope_right env a (sc a)) -> faithful env ->
  disciplined env sc ops -> ops_valid env false ops -> (forall b, In b faults -> b = false) ->
  (forall a d, 0 <= hw a d < 2 ^ 64) -> exists s, mrun_ok env ops (msr_init hw faults) = Some s.
Proof. exact available_l. Qed.
Print Assumptions C05_available.

Example C05_ex_available : exists ops,
  ops = [OStart; OWrite 416 9 None SPackage true; OWriteBits 432 (3, 0) (Some 6) (Some [1; 0]) SCore true; OFlush;
         ORead 416 (Some [7]) SPackage; OCommit; OWriteBits 416 (7, 4) None (Some [4]) SPackage true] /\
  disciplined x_env x_sc ops /\ ops_valid x_env false ops.
Proof. exact C05_ex_available_l. Qed.

(** Whatever the hardware does with written values: a verified write that succeeds has stored the
    value. *)
Theorem C05_verified_write : forall env sc,
  wf_ci (me_ci env) -> (forall a, scope_right env a (sc a)) ->
  forall ops hw faults a v cpus s',
  (forall o, In o ops -> op_scoped sc o) ->
  let s := mrun env ops (msr_init hw faults) in
  ms_intr s = false ->
  write env a v cpus (sc a) true s = (Ok tt, s') ->
  forall c, In c (targets env cpus) -> ms_hw s' a (me_dom env a c) = v.
Proof. exact C05_verified_write_l. Qed.
Print Assumptions C05_verified_write.

(** Without the condition on shared registers in [disciplined] the property fails. *)
Theorem C05_shared_transaction_refuted :
  exists env sc ops hw a c v s',
    wf_ci (me_ci env) /\ (forall a, scope_right env a (sc a)) /\ faithful env /\
    (forall o, In o ops -> op_scoped sc o) /\
    let s := mrun env ops (msr_init hw []) in
    ms_intr s = false /\ ms_tbuf s = [] /\
    read env a (Some [c]) (sc a) s = (Ok [(c, v)], s') /\ v <> ms_hw s a (me_dom env a c).
Proof. exact C05_shared_transaction_refuted_l. Qed.
Print Assumptions C05_shared_transaction_refuted.

Example C05_ex_read :
  let s := mrun x_env (x_ops ++ [OStart; OWrite 416 9 (Some [0]) SPackage false]) (msr_init x_hw []) in
  fst (read x_env 416 (Some [3; 4]) SPackage s) = Ok [(3, 9); (4, 5)] /\
  ms_hw s 416 0 = 5 /\ ms_intr s = true.
Proof. vm_compute. repeat split. Qed.
Example C05_ex_verify :
  fst (write x_env_ro 416 5 (Some [0]) SPackage true (msr_init x_hw [])) = Exn EVerify /\
  fst (write x_env_ro 416 6 (Some [0]) SPackage true (msr_init x_hw [])) = Ok tt.
Proof. vm_compute. split; reflexivity. Qed.

(** ** C06: transactions *)

Theorem C06_deferred : forall env sc,
  wf_ci (me_ci env) -> (forall a, scope_right env a (sc a)) ->
  forall rep ops body hw faults s1,
  faithful env ->
  (forall o, In o (ops ++ body) -> op_scoped sc o /\ op_rep env rep o) ->
  (forall o, In o body -> buffered_op o) ->
  let s := mrun env ops (msr_init hw faults) in
  me_cache env = true ->
  start_transaction env s = (Ok tt, s1) ->
  ms_hw (mrun env body s1) = ms_hw s /\ ms_log (mrun env body s1) = ms_log s.
Proof. exact C06_deferred_l. Qed.
Print Assumptions C06_deferred.

Theorem C06_commit : forall env sc,
  wf_ci (me_ci env) -> (forall a, scope_right env a (sc a)) ->
  forall rep ops body hw faults s',
  faithful env ->
  (forall o, In o (ops ++ body) -> op_scoped sc o /\ op_rep env rep o) ->
  (forall o, In o body -> buffered_op o) ->
  let s := mrun env ops (msr_init hw faults) in
  mrun_ok env (OStart :: body ++ [OCommit]) s = Some s' ->
  effects env body (ms_hw s) (ms_hw s') /\ ms_intr s' = false /\ ms_tbuf s' = [].
Proof. exact C06_commit_l. Qed.
Print Assumptions C06_commit.

(** A failed commit has done a prefix of the pending writes and keeps the rest pending. *)
Theorem C06_failed_commit : forall env sc,
  wf_ci (me_ci env) -> (forall a, scope_right env a (sc a)) ->
  forall rep ops hw faults e s',
  faithful env ->
  (forall o, In o ops -> op_scoped sc o /\ op_rep env rep o) ->
  let s := mrun env ops (msr_init hw faults) in
  commit_transaction env s = (Exn e, s') ->
  ms_intr s' = ms_intr s /\ (forall a d, view env s' a d = view env s a d) /\
  exists done rest, pending_writes s = done ++ rest /\ ms_log s' = ms_log s ++ done.
Proof. exact C06_failed_commit_l. Qed.
Print Assumptions C06_failed_commit.

(** Whatever the hardware does with written values: after a successful commit every pending write
    that asked for verification is on the hardware. *)
Theorem C06_verified_commit : forall env sc,
  wf_ci (me_ci env) -> (forall a, scope_right env a (sc a)) ->
  forall ops hw faults s',
  (forall o, In o ops -> op_scoped sc o) ->
  let s := mrun env ops (msr_init hw faults) in
  commit_transaction env s = (Ok tt, s') ->
  forall c m a t, In (c, m) (ms_tbuf s) -> In (a, t) m -> ti_verify t = true ->
    ms_hw s' a (me_dom env a c) = ti_val t.
Proof. exact C06_verified_commit_l. Qed.
Print Assumptions C06_verified_commit.

Theorem C06_last_write_wins_refuted :
  exists env sc ops hw s,
    wf_ci (me_ci env) /\ (forall a, scope_right env a (sc a)) /\ faithful env /\
    (forall o, In o ops -> op_scoped sc o) /\
    mrun_ok env (OStart :: ops ++ [OCommit]) (msr_init hw []) = Some s /\
    ~ effects env ops hw (ms_hw s).
Proof. exact C06_last_write_wins_refuted_l. Qed.
Print Assumptions C06_last_write_wins_refuted.

Example C06_ex_hyps :
  (forall o, In o ([] ++ x_body) -> op_scoped x_sc o /\ op_rep x_env x_rep o) /\
  (forall o, In o x_body -> buffered_op o).
Proof. exact (conj x_body_ok x_body_buffered). Qed.
Example C06_ex_run :
  option_map (fun s => (ms_hw s 416 0, ms_hw s 416 1, ms_hw s 432 3, ms_log s)) x_result =
  Some (8, 416001, 432015, [(0, 416, 8); (0, 432, 432015); (1, 432, 432015);
                            (4, 432, 432015); (5, 432, 432015)]).
Proof. vm_compute. reflexivity. Qed.
Example C06_ex_failed :
  let '(r, s) := commit_transaction x_env
     (mrun x_env (OStart :: x_body) (msr_init x_hw [false; false; false; false; false; true])) in
  r = Exn EError /\ ms_intr s = true /\ ms_log s = [(0, 416, 8)].
Proof. vm_compute. repeat split. Qed.

(** ** C43: the per-CPU cache *)

Theorem C43_cache_contract : forall env,
  wf_ci (me_ci env) -> modules_unique (ci_topo (me_ci env)) -> me_cache env = true ->
  forall ops s0 a x,
  (forall a, ms_cache s0 a = None) -> (forall o, In o ops -> cop_ok env o) ->
  cached_after env a x ops (cache_get env (crun env ops s0) a x).
Proof. exact cache_contract_l. Qed.
Print Assumptions C43_cache_contract.

(** Removal with the "global" scope raises KeyError if the name is not cached, so that a write with
    that scope never succeeds on a new object. *)
Theorem C43_global_remove_refuted : forall env hw faults a c v cpus vf,
  me_cache env = true -> normalize_cpus (me_ci env) (Some (c :: cpus)) false <> Exn EError ->
  exists s', write env a v (Some (c :: cpus)) SGlobal vf (msr_init hw faults) = (Exn EKey, s').
Proof. exact C43_global_remove_refuted_l. Qed.
Print Assumptions C43_global_remove_refuted.

Example C43_ex :
  let s := crun x_env [CAdd 7 0 100 SPackage; CAdd 7 1 200 SCore; CRemove 7 6 SPackage; CAdd 8 0 1 SGlobal]
             (msr_init x_hw []) in
  map (cache_get x_env s 7) [0; 1; 2; 3; 4] = [Some 100; Some 200; Some 100; Some 200; None] /\
  cache_get x_env s 8 7 = Some 1.
Proof. vm_compute. split; reflexivity. Qed.
Example C43_ex_hyps : modules_unique (ci_topo (me_ci x_env)) /\ cop_ok x_env (CRemove 7 6 SPackage).
Proof. split; [exact xci_modules|]. split; [vm_compute; tauto|discriminate]. Qed.
