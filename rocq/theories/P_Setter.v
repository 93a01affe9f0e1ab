(** C61: the "config" commands set several properties in one go.

    [prepare] runs the code of all properties, [config] is the whole command: [prepare] and the two commits.  The code of
    a property is any program over the two I/O objects ([prog]).  [registers] and [files] are the hardware and the files
    of the kernel, [sent] is what was handed over to them. *)
From Verif Require Import Base L_Base M_Text M_Sysfs S_Sysfs L_Sysfs X_Sysfs M_CPUInfo S_CPUInfo M_MSR S_MSR X_MSR
  M_Setter S_Setter L_Setter L_Setter2 X_Setter.

(** C61. Until all properties have been accepted no register changes, and - if the command has a sysfs transaction - no
    file: a value that is rejected for one property leaves the settings of all others as they were. *)
Theorem C61_nothing : forall env k sc, machine env sc k -> forall rep hw faults fs before props,
  printing_code sc before -> Forall (property_code env sc rep) props ->
  forall both r w1, prepare env k both before props (w_init hw faults fs) = (r, w1) ->
  registers w1 = hw /\ fst (sent w1) = [] /\ (both = true -> files w1 = fs /\ snd (sent w1) = []) /\
  forall e, r = Exn e -> config env k both before props (w_init hw faults fs) = (Exn e, w1).
Proof. exact C61_nothing_l. Qed.
Print Assumptions C61_nothing.

Example C61_nothing_case :
  machine x_env x_sc k1 /\ printing_code x_sc p_print /\ Forall (property_code x_env x_sc x_rep) [p_field 7; p_file pc; p_bad] /\
  fst (prepare x_env k1 true p_print [p_field 7; p_file pc; p_bad] (w_init x_hw64 [] x_fs)) = Exn ENotSupported.
Proof. exact C61_nothing_case_l. Qed.

(** The calls on the two objects are those of the properties: each property runs to its end, in the given order and
    inside the transactions, and what it does follows from the answers it gets.  The first property that fails is the
    last one to run, and its error is the error of the command. *)
Theorem C61_each : forall env k sc, machine env sc k -> forall rep both before props hw faults fs r w1,
  printing_code sc before -> Forall (property_code env sc rep) props ->
  prepare env k both before props (w_init hw faults fs) = (r, w1) ->
  exists t0,
    (exists e, r = Exn e /\ w_ev w1 = t0 /\ plays before t0 (Exn e)) \/
    plays before t0 (Ok tt) /\
    exists ps ts, Forall2 (fun p t => plays p t (Ok tt)) ps ts /\
      (r = Ok tt /\ props = ps /\ w_ev w1 = t0 ++ opening both ++ concat ts \/
       exists e p rest t, r = Exn e /\ props = ps ++ p :: rest /\ plays p t (Exn e) /\
         w_ev w1 = t0 ++ opening both ++ concat ts ++ t).
Proof. exact C61_each_l. Qed.
Print Assumptions C61_each.

Example C61_each_case : exists t0 t1 t2 t3,
  w_ev (snd (prepare x_env k1 true p_print [p_field 7; p_file pc; p_bad; p_field 3] (w_init x_hw64 [] x_fs))) = t0 ++ opening true ++ t1 ++ t2 ++ t3 /\
  plays p_print t0 (Ok tt) /\ plays (p_field 7) t1 (Ok tt) /\ plays (p_file pc) t2 (Ok tt) /\ plays p_bad t3 (Exn ENotSupported) /\
  t2 = [ESys (SRead pa) (Ok v0); ESys (SWriteInt pc (s2l "0x1") None) (Ok [])].
Proof. exact C61_each_case_l. Qed.

(** A command that succeeds has done everything: the registers are what the calls of the properties say, one after the
    other, and every file holds the last value that was written to it, written once. Nothing else changes. *)
Theorem C61_all : forall env k sc, machine env sc k -> forall rep hw faults fs before props,
  printing_code sc before -> Forall (property_code env sc rep) props ->
  forall both w1 w2, prepare env k both before props (w_init hw faults fs) = (Ok tt, w1) -> msr_fine w1 ->
  config env k both before props (w_init hw faults fs) = (Ok tt, w2) ->
  effects env (msr_calls w1) hw (registers w2) /\
  (both = true -> snd (sent w2) = merged (accepted w1) /\
     (forall p v, last_value (accepted w1) p = Some v -> contents (w_s w2) p = Some v) /\
     forall p, last_value (accepted w1) p = None -> files w2 p = fs p).
Proof. exact C61_all_l. Qed.
Print Assumptions C61_all.

Example C61_all_case :
  fst (prepare x_env k1 true p_print x_props (w_init x_hw64 [] x_fs)) = Ok tt /\ fst (config x_env k1 true p_print x_props (w_init x_hw64 [] x_fs)) = Ok tt /\
  msr_fine (snd (prepare x_env k1 true p_print x_props (w_init x_hw64 [] x_fs))) /\
  map (registers (snd (config x_env k1 true p_print x_props (w_init x_hw64 [] x_fs))) 432) [0; 1; 2; 3] = [263; 263; 263; 263] /\
  contents (w_s (snd (config x_env k1 true p_print x_props (w_init x_hw64 [] x_fs)))) pc = Some v1.
Proof. exact C61_all_case_l. Qed.

(** Once all properties have been accepted, only the I/O of the commits can fail. *)
Theorem C61_succeeds : forall env k sc, machine env sc k -> forall rep hw faults fs before props,
  printing_code sc before -> Forall (property_code env sc rep) props ->
  forall w1, prepare env k true before props (w_init hw faults fs) = (Ok tt, w1) ->
  msr_fine w1 -> ops_valid env false (msr_calls w1 ++ [OCommit]) -> (forall b, In b faults -> b = false) ->
  (forall a d, 0 <= hw a d < 2 ^ 64) ->
  (forall p v, last_value (accepted w1) p = Some v -> k_unreadable k p = false /\ (exists old, fs p = Some old) /\
     forall old, exists c, k_write k p old v = Some c /\ strip c = v) ->
  exists w2, config env k true before props (w_init hw faults fs) = (Ok tt, w2).
Proof. exact C61_succeeds_l. Qed.
Print Assumptions C61_succeeds.

Example C61_succeeds_case :
  let w1 := snd (prepare x_env k1 true p_print x_props (w_init x_hw64 [] x_fs)) in
  ops_valid x_env false (msr_calls w1 ++ [OCommit]) /\ accepted w1 = [(pc, v1)] /\
  k_unreadable k1 pc = false /\ x_fs pc = Some v0 /\ (forall old, k_write k1 pc old v1 = Some (v1 ++ ["010"%char])) /\
  strip (v1 ++ ["010"%char]) = v1.
Proof. exact C61_succeeds_case_l. Qed.

(** A command that fails after all properties have been accepted has changed either a part of the registers and no
    file, or all registers and the files up to the one that failed. *)
Theorem C61_failed : forall env k sc, machine env sc k -> forall rep hw faults fs before props,
  printing_code sc before -> Forall (property_code env sc rep) props ->
  forall w1 w2 e, prepare env k true before props (w_init hw faults fs) = (Ok tt, w1) ->
  config env k true before props (w_init hw faults fs) = (Exn e, w2) ->
  (files w2 = fs /\ exists done rest, pending_writes (w_m w1) = done ++ rest /\ fst (sent w2) = done) \/
  ((msr_fine w1 -> effects env (msr_calls w1) hw (registers w2)) /\
   exists pre p v rest, merged (accepted w1) = pre ++ (p, v) :: rest /\
     (forall q x, In (q, x) pre -> contents (w_s w2) q = Some x) /\
     (forall q, ~ In q (map fst pre) -> q <> p -> files w2 q = fs q) /\
     (snd (sent w2) = pre /\ files w2 p = fs p \/
      snd (sent w2) = pre ++ [(p, v)] /\ (contents (w_s w2) p <> Some v \/ k_unreadable k p = true))).
Proof. exact C61_failed_l. Qed.
Print Assumptions C61_failed.

Example C61_failed_case :
  fst (prepare x_env k1 true p_print [p_field 7; p_file pro] (w_init x_hw64 [] x_fs)) = Ok tt /\
  fst (config x_env k1 true p_print [p_field 7; p_file pro] (w_init x_hw64 [] x_fs)) = Exn EError.
Proof. vm_compute. split; reflexivity. Qed.

(** ** What is not true *)

(** The registers are committed first: when a file then refuses its value, the registers stay changed. *)
Theorem C61_half_refuted : exists env sc k rep hw fs before props w2 a d p v e,
  machine env sc k /\ printing_code sc before /\ Forall (property_code env sc rep) props /\
  config env k true before props (w_init hw [] fs) = (Exn e, w2) /\
  registers w2 a d <> hw a d /\ In (p, v) (accepted w2) /\ files w2 = fs /\ contents (w_s w2) p <> Some v.
Proof. exact C61_half_refuted_l. Qed.
Print Assumptions C61_half_refuted.

(** 'cstates config' and 'power config' have no sysfs transaction ('pstates restore' has one, but on an object that the
    properties do not use): the files that were written before a property is rejected stay changed. *)
Theorem C61_no_sysfs_transaction_refuted : exists env sc k rep hw fs before props w2 p e,
  machine env sc k /\ printing_code sc before /\ Forall (property_code env sc rep) props /\
  prepare env k false before props (w_init hw [] fs) = (Exn e, w2) /\
  config env k false before props (w_init hw [] fs) = (Exn e, w2) /\ files w2 p <> fs p.
Proof. exact C61_no_sysfs_transaction_refuted_l. Qed.
Print Assumptions C61_no_sysfs_transaction_refuted.

(** The power limit "enable" and "clamp" features flush the transaction (msr/PackagePowerLimit.py:212,217): when a later
    property is rejected, the registers stay changed. *)
Theorem C61_flush_refuted : exists env sc k rep hw fs before props w2 a d e,
  machine env sc k /\ printing_code sc before /\
  Forall (calls (fun o => o = OFlush \/ buffered_op o /\ op_scoped sc o /\ op_rep env rep o) (fun o => ~ sys_transaction o)) props /\
  prepare env k true before props (w_init hw [] fs) = (Exn e, w2) /\
  config env k true before props (w_init hw [] fs) = (Exn e, w2) /\ registers w2 a d <> hw a d.
Proof. exact C61_flush_refuted_l. Qed.
Print Assumptions C61_flush_refuted.
