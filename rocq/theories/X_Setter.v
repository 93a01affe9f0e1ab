(** Examples and counterexamples about setting several properties in one transaction. *)
From Coq Require Import ZifyBool.
From Verif Require Import Base L_Base M_Text M_Sysfs S_Sysfs L_Sysfs X_Sysfs M_CPUInfo S_CPUInfo X_CPUInfo M_MSR S_MSR L_MSR X_MSR
  M_Setter S_Setter L_Setter L_Setter2.

Definition done_or {A} (p : prog) (r : res A) : prog := match r with Ok _ => p | Exn e => PEnd (Exn e) end.

(** A register field of every core. *)
Definition p_field (v : Z) : prog :=
  PMsr (OWriteBits 432 (3, 0) (Some v) None SCore true) (done_or (PEnd (Ok tt))).
(** A file that is written if another one contains "0"; the number is given in hexadecimal form. *)
Definition p_file (f : str) : prog :=
  PSys (SRead pa) (fun r => match r with
                            | Ok v => if str_eqb v v0 then PSys (SWriteInt f (s2l "0x1") None) (done_or (PEnd (Ok tt))) else PEnd (Exn ENotSupported)
                            | Exn e => PEnd (Exn e)
                            end).
(** A property that is not supported, and one that flushes. *)
Definition p_bad : prog := PEnd (Exn ENotSupported).
Definition p_flush (v : Z) : prog :=
  PMsr OFlush (fun _ => PMsr (OWriteBits 416 (7, 4) (Some v) None SPackage true) (fun _ => PMsr OFlush (done_or (PEnd (Ok tt))))).
Definition p_print : prog := PMsr (ORead 432 None SCore) (fun _ => PSys (SRead pc) (fun _ => PEnd (Ok tt))).

Definition x_hw64 (a d : Z) : Z := if a =? 432 then 256 else 512.

Lemma x_machine : machine x_env x_sc k1.
Proof. constructor; [exact xci_wf|exact x_scope_right|exact x_faithful|reflexivity|reflexivity]. Qed.

Lemma p_field_ok v : 0 <= v -> property_code x_env x_sc x_rep (p_field v).
Proof.
  intros Hv. cbn. split; [|intros [|]; exact I]. split; [exact I|]. split.
  - split; [reflexivity|]. split; [repeat split; vm_compute; discriminate|exact Hv].
  - apply first_is_dec. vm_compute. reflexivity.
Qed.
Lemma p_file_ok f : property_code x_env x_sc x_rep (p_file f).
Proof.
  split; [intros []|]. intros [v|e]; [|exact I]. cbv beta iota. destruct (str_eqb v v0); [|exact I].
  split; [intros []|]. intros [|]; exact I.
Qed.
Lemma p_print_ok : printing_code x_sc p_print.
Proof. split; [exists 432, None; reflexivity|]. intros _. split; [left; eauto|]. intros _. exact I. Qed.

Definition x_props : list prog := [p_field 7; p_file pc].
Lemma x_props_ok : Forall (property_code x_env x_sc x_rep) x_props.
Proof. constructor; [apply (p_field_ok 7); lia|constructor; [apply p_file_ok|constructor]]. Qed.

Notation x_w0 := (w_init x_hw64 [] x_fs).

Lemma C61_nothing_case_l :
  machine x_env x_sc k1 /\ printing_code x_sc p_print /\ Forall (property_code x_env x_sc x_rep) [p_field 7; p_file pc; p_bad] /\
  fst (prepare x_env k1 true p_print [p_field 7; p_file pc; p_bad] x_w0) = Exn ENotSupported.
Proof.
  split; [exact x_machine|]. split; [exact p_print_ok|]. split; [constructor; [apply (p_field_ok 7); lia|constructor; [apply p_file_ok|constructor; [exact I|constructor]]]|].
  vm_compute. reflexivity.
Qed.

Lemma C61_all_case_l :
  fst (prepare x_env k1 true p_print x_props x_w0) = Ok tt /\ fst (config x_env k1 true p_print x_props x_w0) = Ok tt /\
  msr_fine (snd (prepare x_env k1 true p_print x_props x_w0)) /\
  map (registers (snd (config x_env k1 true p_print x_props x_w0)) 432) [0; 1; 2; 3] = [263; 263; 263; 263] /\
  contents (w_s (snd (config x_env k1 true p_print x_props x_w0))) pc = Some v1.
Proof.
  split; [vm_compute; reflexivity|]. split; [vm_compute; reflexivity|]. split; [|split; vm_compute; reflexivity].
  assert (E : map snd (w_mh (snd (prepare x_env k1 true p_print x_props x_w0))) = [true; true; true]) by (vm_compute; reflexivity).
  intros e He. apply (in_map snd) in He. rewrite E in He. cbn in He. destruct He as [<-|[<-|[<-|[]]]]; reflexivity.
Qed.

Lemma C61_succeeds_case_l :
  let w1 := snd (prepare x_env k1 true p_print x_props x_w0) in
  ops_valid x_env false (msr_calls w1 ++ [OCommit]) /\ accepted w1 = [(pc, v1)] /\
  k_unreadable k1 pc = false /\ x_fs pc = Some v0 /\ (forall old, k_write k1 pc old v1 = Some (v1 ++ ["010"%char])) /\
  strip (v1 ++ ["010"%char]) = v1.
Proof.
  cbv zeta. assert (E : msr_calls (snd (prepare x_env k1 true p_print x_props x_w0)) =
    [ORead 432 None SCore; OStart; OWriteBits 432 (3, 0) (Some 7) None SCore true]) by (vm_compute; reflexivity).
  rewrite E. split; [|split; [vm_compute; reflexivity|split; [reflexivity|split; [vm_compute; reflexivity|split; [intros old; vm_compute; reflexivity|vm_compute; reflexivity]]]]].
  cbn [app ops_valid op_valid targets]. repeat split; try reflexivity; try apply incl_refl; vm_compute; discriminate.
Qed.

Lemma C61_each_case_l : exists t0 t1 t2 t3,
  w_ev (snd (prepare x_env k1 true p_print [p_field 7; p_file pc; p_bad; p_field 3] x_w0)) = t0 ++ opening true ++ t1 ++ t2 ++ t3 /\
  plays p_print t0 (Ok tt) /\ plays (p_field 7) t1 (Ok tt) /\ plays (p_file pc) t2 (Ok tt) /\ plays p_bad t3 (Exn ENotSupported) /\
  t2 = [ESys (SRead pa) (Ok v0); ESys (SWriteInt pc (s2l "0x1") None) (Ok [])].
Proof.
  exists [EMsr (ORead 432 None SCore) (Ok [(0, 256); (1, 256); (2, 256); (3, 256); (4, 256); (5, 256); (6, 256); (7, 256)]); ESys (SRead pc) (Ok v0)],
    [EMsr (OWriteBits 432 (3, 0) (Some 7) None SCore true) (Ok [])],
    [ESys (SRead pa) (Ok v0); ESys (SWriteInt pc (s2l "0x1") None) (Ok [])], [].
  split; [vm_compute; reflexivity|]. repeat split; repeat constructor.
Qed.

(** ** What is not true *)

Lemma C61_half_refuted_l : exists env sc k rep hw fs before props w2 a d p v e,
  machine env sc k /\ printing_code sc before /\ Forall (property_code env sc rep) props /\
  config env k true before props (w_init hw [] fs) = (Exn e, w2) /\
  registers w2 a d <> hw a d /\ In (p, v) (accepted w2) /\ files w2 = fs /\ contents (w_s w2) p <> Some v.
Proof.
  set (c := config x_env k1 true p_print [p_field 7; p_file pro] x_w0).
  exists x_env, x_sc, k1, x_rep, x_hw64, x_fs, p_print, [p_field 7; p_file pro], (snd c), 432, 0, pro, v1, EError.
  split; [exact x_machine|]. split; [exact p_print_ok|]. split; [constructor; [apply (p_field_ok 7); lia|constructor; [apply p_file_ok|constructor]]|].
  assert (Ef : fst c = Exn EError) by (vm_compute; reflexivity).
  split; [rewrite <- Ef; unfold c; now destruct (config x_env k1 true p_print [p_field 7; p_file pro] x_w0)|].
  split; [vm_compute; discriminate|].
  split; [replace (accepted (snd c)) with [(pro, v1)] by (vm_compute; reflexivity); now left|].
  split; [vm_compute; reflexivity|vm_compute; discriminate].
Qed.

Lemma C61_no_sysfs_transaction_refuted_l : exists env sc k rep hw fs before props w2 p e,
  machine env sc k /\ printing_code sc before /\ Forall (property_code env sc rep) props /\
  prepare env k false before props (w_init hw [] fs) = (Exn e, w2) /\
  config env k false before props (w_init hw [] fs) = (Exn e, w2) /\ files w2 p <> fs p.
Proof.
  set (c := config x_env k1 false p_print [p_file pc; p_bad] x_w0).
  exists x_env, x_sc, k1, x_rep, x_hw64, x_fs, p_print, [p_file pc; p_bad], (snd c), pc, ENotSupported.
  split; [exact x_machine|]. split; [exact p_print_ok|]. split; [constructor; [apply p_file_ok|constructor; [exact I|constructor]]|].
  assert (Ef : fst (prepare x_env k1 false p_print [p_file pc; p_bad] x_w0) = Exn ENotSupported) by (vm_compute; reflexivity).
  unfold c, config, mbind. destruct (prepare x_env k1 false p_print [p_file pc; p_bad] x_w0) as [r w] eqn:E. cbn [fst] in Ef. subst r.
  split; [reflexivity|]. split; [reflexivity|]. cbn [snd].
  replace w with (snd (prepare x_env k1 false p_print [p_file pc; p_bad] x_w0)) by now rewrite E.
  vm_compute. discriminate.
Qed.

Lemma C61_flush_refuted_l : exists env sc k rep hw fs before props w2 a d e,
  machine env sc k /\ printing_code sc before /\
  Forall (calls (fun o => o = OFlush \/ buffered_op o /\ op_scoped sc o /\ op_rep env rep o) (fun o => ~ sys_transaction o)) props /\
  prepare env k true before props (w_init hw [] fs) = (Exn e, w2) /\
  config env k true before props (w_init hw [] fs) = (Exn e, w2) /\ registers w2 a d <> hw a d.
Proof.
  exists x_env, x_sc, k1, x_rep, x_hw64, x_fs, p_print, [p_field 7; p_flush 1; p_bad],
    (snd (prepare x_env k1 true p_print [p_field 7; p_flush 1; p_bad] x_w0)), 416, 0, ENotSupported.
  split; [exact x_machine|]. split; [exact p_print_ok|]. split.
  { constructor; [|constructor; [|constructor; [exact I|constructor]]].
    - destruct (p_field_ok 7 ltac:(lia)) as (H1 & H2). split; [right; exact H1|intros [|]; exact I].
    - split; [now left|]. intros _. split.
      + right. split; [exact I|]. split; [split; [reflexivity|split; [repeat split; vm_compute; discriminate|lia]]|].
        apply first_is_dec. vm_compute. reflexivity.
      + intros _. split; [now left|]. intros [|]; exact I. }
  assert (Ef : fst (prepare x_env k1 true p_print [p_field 7; p_flush 1; p_bad] x_w0) = Exn ENotSupported) by (vm_compute; reflexivity).
  assert (Er : registers (snd (prepare x_env k1 true p_print [p_field 7; p_flush 1; p_bad] x_w0)) 416 0 <> x_hw64 416 0) by (vm_compute; discriminate).
  unfold config, mbind. destruct (prepare x_env k1 true p_print [p_field 7; p_flush 1; p_bad] x_w0) as [r w]. cbn [fst snd] in *. subst r. auto.
Qed.
