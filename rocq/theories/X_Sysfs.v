(** Concrete cases for the sysfs properties. *)
From Verif Require Import Base L_Base M_Text L_Text M_Sysfs S_Sysfs L_Sysfs.

Definition pa := s2l "/sys/a".
Definition pb := s2l "/sys/b".
Definition pc := s2l "/sys/c".
Definition pro := s2l "/sys/ro".
Definition v0 := s2l "0".
Definition v1 := s2l "1".
Definition v2 := s2l "2".

(** Files store what is written plus a newline, except: "ro" rejects writes, and "b" stores a
    question mark while it contains "0". *)
Definition x_kern (cache : bool) : senv :=
  SE cache
     (fun p old v => if str_eqb p pro then None
                     else if str_eqb p pb && str_eqb old v0 then Some (s2l "?")
                     else Some (v ++ ["010"%char]))
     (fun _ c => c)
     (fun _ => false).
Definition x_fs : str -> option str :=
  fun p => if existsb (str_eqb p) [pa; pb; pc; pro] then Some v0 else None.

Definition k1 := x_kern true.

(** A transaction with a read, a write repeated with another value and a failing write. *)
Definition x_hist : list sop :=
  [SWrite pa v2 None; SStart; SWrite pc v1 None; SRead pa; SWriteVerify pa v1 None 0 0;
   SWriteInt pc (s2l "0x2") None; SWrite pa v2 (Some v1)].
Definition x_tr := fst (srun k1 x_hist (s_init x_fs)).
Definition x_st := snd (srun k1 x_hist (s_init x_fs)).

Lemma x_tr_eq : x_tr = combine x_hist [true; true; true; true; true; true; false].
Proof. vm_compute. reflexivity. Qed.

Lemma x_stores : stores k1 pa v2.
Proof. intros old c H. vm_compute in H. destruct old; injection H as <-; vm_compute; reflexivity. Qed.

Lemma x_reached : reached k1 x_fs x_hist x_tr x_st.
Proof.
  unfold reached. split; [unfold x_tr, x_st; now destruct (srun k1 x_hist (s_init x_fs))|].
  rewrite x_tr_eq. cbn [combine x_hist trusting].
  split; [intros _; exact x_stores|]. cbn [track asked fst].
  repeat (split; [intros H; exact I || discriminate H|]). exact I.
Qed.

Lemma x_known : known x_tr = (true, [(pc, v1); (pa, v1); (pc, v2)]).
Proof. rewrite x_tr_eq. vm_compute. reflexivity. Qed.

(** After a rejected write a pending value is no longer visible, although it will be written. *)
Lemma C07_pending_visible_refuted_l :
  exists k fs ops tr s p v w, se_cache k = true /\ reached k fs ops tr s /\
    fst (known tr) = true /\ last_value (snd (known tr)) p = Some v /\
    fst (s_read k p s) = Ok w /\ w <> v.
Proof.
  exists k1, x_fs, x_hist, x_tr, x_st, pa, v1, v2.
  split; [reflexivity|]. split; [exact x_reached|]. rewrite x_known.
  split; [reflexivity|]. split; [vm_compute; reflexivity|]. split; [vm_compute; reflexivity|].
  vm_compute. discriminate.
Qed.

(** A flush that fails in the middle leaves its values behind: they are written by the next commit,
    although the caller never asked for that in its new work. *)
Definition x_fail : list sop := [SStart; SWrite pb v1 None; SWrite pa v1 None; SCommit].
Definition x_later : list sop := [SStart; SWrite pc v1 None; SCommit].

Lemma C09_abandoned_refuted_l :
  exists k fs ops tr s ops2 tr2 s2 p v, se_cache k = true /\ reached k fs ops tr s /\
    ss_fs s p = fs p /\                                   (* the failed commit did not write it *)
    srun k ops2 s = (tr2, s2) /\
    (forall o, In o ops2 -> asked o <> Some (p, v)) /\     (* nobody asked for it again *)
    contents s2 p = Some v /\ contents s p <> Some v.
Proof.
  set (r1 := srun k1 x_fail (s_init x_fs)). set (r2 := srun k1 x_later (snd r1)).
  exists k1, x_fs, x_fail, (fst r1), (snd r1), x_later, (fst r2), (snd r2), pa, v1.
  split; [reflexivity|]. split.
  { split; [apply surjective_pairing|].
    assert (E : fst r1 = combine x_fail [true; true; true; false]) by (vm_compute; reflexivity).
    rewrite E. cbn [combine x_fail trusting track asked fst].
    repeat (split; [intros H; exact I || discriminate H|]). exact I. }
  split; [vm_compute; reflexivity|]. split; [apply surjective_pairing|]. split.
  - intros o Ho. cbn in Ho. destruct Ho as [H|[H|[H|[]]]]; subst o; cbn; try discriminate.
  - split; vm_compute; [reflexivity|discriminate].
Qed.
