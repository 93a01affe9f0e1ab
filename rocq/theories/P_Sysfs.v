(** Properties C07-C09: sysfs file access.

    [reached k fs ops tr s]: a new object on the files [fs] gets the calls [ops] (a caller may go on
    after exceptions) and is then in state [s]; [tr] pairs the calls with their success.
    [known tr] is what the caller can tell about the transaction from its own calls: is one open, and
    the values written in it and not flushed yet. *)
From Verif Require Import Base L_Base M_Text M_Sysfs S_Sysfs L_Sysfs X_Sysfs.

(** C07: a read returns what the file contains, or the value pending in the open transaction; it fails
    only if there is no such file or the file cannot be read. *)
Theorem C07_read : forall k, se_cache k = true -> forall fs ops tr s p, reached k fs ops tr s ->
  match fst (s_read k p s) with
  | Ok v => contents s p = Some v \/ fst (known tr) = true /\ last_value (snd (known tr)) p = Some v
  | Exn e => e = ENotSupported /\ ss_fs s p = None \/ e = EError /\ k_unreadable k p = true
  end.
Proof. exact C07_read_l. Qed.
Print Assumptions C07_read.

Example C07_read_case :
  reached k1 x_fs x_hist x_tr x_st /\
  fst (s_read k1 pc x_st) = Ok v2 /\ contents x_st pc = Some v0 /\
  fst (s_read k1 pro x_st) = Ok v0 /\ fst (s_read k1 (s2l "/none") x_st) = Exn ENotSupported.
Proof. split; [exact x_reached|]. vm_compute. repeat split. Qed.

(** The pending value is what is read, unless a write to that file or a flush has failed. *)
Theorem C07_read_pending : forall k, se_cache k = true -> forall fs ops tr s p v, reached k fs ops tr s ->
  Forall (fun e => ~ upsets p e) tr ->
  last_value (snd (known tr)) p = Some v -> fst (s_read k p s) = Ok v.
Proof. exact C07_read_pending_l. Qed.
Print Assumptions C07_read_pending.

Example C07_read_pending_case :
  Forall (fun e => ~ upsets pc e) x_tr /\ last_value (snd (known x_tr)) pc = Some v2.
Proof.
  split; [|rewrite x_known; vm_compute; reflexivity]. rewrite x_tr_eq.
  repeat constructor; cbn; try tauto. vm_compute. discriminate.
Qed.

(** Any successful write is read back, in a transaction or not. *)
Theorem C07_read_written : forall k, se_cache k = true -> forall fs ops tr s p v o s',
  reached k fs ops tr s -> (fst (known tr) = false -> plain_ok k o) ->
  asked o = Some (p, v) -> sstep k o s = (Ok tt, s') -> fst (s_read k p s') = Ok v.
Proof. exact C07_read_written_l. Qed.
Print Assumptions C07_read_written.

Example C07_read_written_case :
  fst (known x_tr) = true /\ asked (SWriteInt pa (s2l "0b11") None) = Some (pa, s2l "3") /\
  fst (sstep k1 (SWriteInt pa (s2l "0b11") None) x_st) = Ok tt.
Proof. rewrite x_known. vm_compute. repeat split. Qed.

(** With the cache switched off every read is a read of the file, and no transaction is ever open. *)
Theorem C07_uncached : forall k, se_cache k = false -> forall p s, s_read k p s = (on_disk k s p, s).
Proof. exact read_uncached. Qed.
Print Assumptions C07_uncached.

Theorem C07_uncached_transaction : forall k, se_cache k = false -> forall ops s,
  ss_intr s = false -> ss_intr (snd (srun k ops s)) = false.
Proof. exact uncached_run. Qed.
Print Assumptions C07_uncached_transaction.

Example C07_uncached_case :
  let k := x_kern false in
  let s := snd (srun k [SStart; SWrite pa v1 None] (s_init x_fs)) in
  contents s pa = Some v1 /\ fst (s_read k pa s) = Ok v1.
Proof. vm_compute. split; reflexivity. Qed.

(** Finding: after a write that the object rejects (a different description of the same file), the
    pending value is not visible any more, but a commit still writes it. *)
Theorem C07_pending_visible_refuted :
  exists k fs ops tr s p v w, se_cache k = true /\ reached k fs ops tr s /\
    fst (known tr) = true /\ last_value (snd (known tr)) p = Some v /\
    fst (s_read k p s) = Ok w /\ w <> v.
Proof. exact C07_pending_visible_refuted_l. Qed.
Print Assumptions C07_pending_visible_refuted.

(** C08: while a transaction is open no file changes, and nothing is handed over to the kernel, until
    a flush. *)
Theorem C08_deferred : forall k, se_cache k = true -> forall fs ops1 tr1 s1 ops2 tr2 s2,
  reached k fs ops1 tr1 s1 -> fst (known tr1) = true ->
  Forall (fun o => is_flush o = false) ops2 ->
  srun k ops2 s1 = (tr2, s2) -> ss_fs s2 = ss_fs s1 /\ ss_log s2 = ss_log s1.
Proof. exact C08_deferred_l. Qed.
Print Assumptions C08_deferred.

Example C08_deferred_case :
  fst (known x_tr) = true /\ map snd (fst (srun k1 [SWrite pro v1 None; SRead pa] x_st)) = [true; true].
Proof. rewrite x_known. vm_compute. split; reflexivity. Qed.

(** A successful commit writes every path of the transaction exactly once, in order of first write,
    with the last value written to it; the files contain these values and no other file changes.
    A new transaction can be started afterwards. *)
Theorem C08_commit : forall k, se_cache k = true -> forall fs ops tr s s',
  reached k fs ops tr s -> s_commit k s = (Ok tt, s') ->
  fst (known tr) = true /\
  ss_log s' = ss_log s ++ merged (snd (known tr)) /\
  (forall p v, last_value (snd (known tr)) p = Some v -> contents s' p = Some v) /\
  (forall p, last_value (snd (known tr)) p = None -> ss_fs s' p = ss_fs s p) /\
  fst (s_start k s') = Ok tt.
Proof. exact C08_commit_l. Qed.
Print Assumptions C08_commit.

(** The same for a flush that keeps the transaction open. *)
Theorem C08_flush : forall k, se_cache k = true -> forall fs ops tr s s',
  reached k fs ops tr s -> s_flush k s = (Ok tt, s') ->
  fst (known tr) = true /\
  ss_log s' = ss_log s ++ merged (snd (known tr)) /\
  (forall p v, last_value (snd (known tr)) p = Some v -> contents s' p = Some v) /\
  (forall p, last_value (snd (known tr)) p = None -> ss_fs s' p = ss_fs s p).
Proof. exact C08_flush_l. Qed.
Print Assumptions C08_flush.

Example C08_commit_case :
  fst (s_commit k1 x_st) = Ok tt /\
  ss_log (snd (s_commit k1 x_st)) = [(pa, v2)] ++ [(pc, v2); (pa, v1)] /\
  merged [(pc, v1); (pa, v1); (pc, v2)] = [(pc, v2); (pa, v1)].
Proof. vm_compute. repeat split. Qed.

(** The commit does succeed if the files exist and the kernel stores what is written. *)
Theorem C08_commit_succeeds : forall k, se_cache k = true -> forall fs ops tr s,
  reached k fs ops tr s -> fst (known tr) = true ->
  (forall p v, last_value (snd (known tr)) p = Some v ->
     k_unreadable k p = false /\ (exists old, ss_fs s p = Some old) /\
     forall old, exists c, k_write k p old v = Some c /\ strip c = v) ->
  fst (s_commit k s) = Ok tt.
Proof. exact C08_commit_succeeds_l. Qed.
Print Assumptions C08_commit_succeeds.

Example C08_commit_succeeds_case :
  ss_fs x_st pc = Some v0 /\ (forall old, k_write k1 pc old v2 = Some (v2 ++ ["010"%char])) /\
  strip (v2 ++ ["010"%char]) = v2.
Proof. split; [vm_compute; reflexivity|]. split; [intros old; vm_compute; reflexivity|vm_compute; reflexivity]. Qed.

(** C09: a failing commit stops at one path.  The paths before it hold their new values, the files
    after it and all other files are untouched; the failing file is untouched if the kernel refused
    the write, and does not verifiably hold the value otherwise.  No new transaction can be started.
    Missing: the values that were not written are still buffered, see below. *)
Theorem C09_failed_commit_partial : forall k, se_cache k = true -> forall fs ops tr s s' e,
  reached k fs ops tr s -> s_commit k s = (Exn e, s') -> fst (known tr) = true ->
  (exists pre p v post_, merged (snd (known tr)) = pre ++ (p, v) :: post_ /\
    (forall q w, In (q, w) pre -> contents s' q = Some w) /\
    (forall q, ~ In q (map fst pre) -> q <> p -> ss_fs s' q = ss_fs s q) /\
    (ss_log s' = ss_log s ++ pre /\ ss_fs s' p = ss_fs s p \/
     ss_log s' = ss_log s ++ pre ++ [(p, v)] /\ (contents s' p <> Some v \/ k_unreadable k p = true))) /\
  fst (s_start k s') = Exn EError.
Proof. exact C09_broken_l. Qed.
Print Assumptions C09_failed_commit_partial.

Example C09_failed_commit_partial_case :
  let s := snd (srun k1 [SStart; SWrite pa v1 None; SWrite pro v1 None; SWrite pc v1 None] (s_init x_fs)) in
  fst (s_commit k1 s) = Exn EError /\
  map (contents (snd (s_commit k1 s))) [pa; pro; pc] = [Some v1; Some v0; Some v0].
Proof. vm_compute. split; reflexivity. Qed.

(** Finding: the values of a failed commit stay in the buffer, and a later commit writes them even if
    nobody asks for them again. *)
Theorem C09_abandoned_refuted :
  exists k fs ops tr s ops2 tr2 s2 p v, se_cache k = true /\ reached k fs ops tr s /\
    ss_fs s p = fs p /\
    srun k ops2 s = (tr2, s2) /\
    (forall o, In o ops2 -> asked o <> Some (p, v)) /\
    contents s2 p = Some v /\ contents s p <> Some v.
Proof. exact C09_abandoned_refuted_l. Qed.
Print Assumptions C09_abandoned_refuted.
