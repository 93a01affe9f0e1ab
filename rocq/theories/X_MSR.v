(** An example MSR environment on the system of X_CPUInfo.v, and witnesses of what is not true. *)
From Verif Require Import Base L_Base M_CPUInfo S_CPUInfo L_CPUInfo X_CPUInfo M_MSR S_MSR L_MSR L_MSR3.

(** MSR 416 is shared by the CPUs of a package, MSR 432 by the CPUs of a core, all others are
    per-CPU. *)
Definition x_dom (a c : Z) : Z :=
  if a =? 416 then c / 4 else if a =? 432 then c / 4 * 2 + c mod 2 else c.
Definition x_sc (a : Z) : scope :=
  if a =? 416 then SPackage else if a =? 432 then SCore else SCPU.
Definition x_env : menv := ME xci true x_dom (fun _ _ v => v).
(** The same with hardware that ignores bit 0. *)
Definition x_env_ro : menv := ME xci true x_dom (fun _ _ v => Z.shiftl (Z.shiftr v 1) 1).
Definition x_rep (a d : Z) : Z :=
  if a =? 416 then d * 4 else if a =? 432 then d / 2 * 4 + d mod 2 else d.
Definition x_hw (a d : Z) : Z := a * 1000 + d.

Lemma x_faithful : faithful x_env.
Proof. intros a old v. reflexivity. Qed.

Lemma scope_right_dec env a sn :
  wf_ci (me_ci env) -> sn <> SGlobal -> (sn = SModule -> modules_unique (ci_topo (me_ci env))) ->
  forallb (fun c => match get_cpu_siblings (me_ci env) c sn with
                    | Ok l => forallb (fun x => Bool.eqb (inb x l)
                                 (me_dom env a x =? me_dom env a c)) (ci_online (me_ci env)) &&
                              subsetb l (ci_online (me_ci env))
                    | Exn _ => false
                    end) (ci_online (me_ci env)) = true ->
  scope_right env a sn.
Proof.
  intros Hwf Hng Hm H. split; [exact Hng|]. split; [exact Hm|]. intros c Hc x.
  rewrite forallb_forall in H. specialize (H c Hc).
  destruct (siblings_spec_l (me_ci env) c sn Hwf Hm Hc) as (l & El & _ & Il). rewrite El in H.
  apply andb_prop in H. destruct H as (H1 & H2). rewrite forallb_forall in H1.
  rewrite <- Il. split.
  - intros Hx. assert (Ho : In x (ci_online (me_ci env))).
    { apply subsetb_incl in H2. auto. }
    split; [exact Ho|]. specialize (H1 x Ho). rewrite (proj2 (inb_In x l) Hx) in H1.
    apply eqb_prop in H1. symmetry in H1. now apply Z.eqb_eq in H1.
  - intros (Ho & Hd). specialize (H1 x Ho). apply eqb_prop in H1.
    apply inb_In. rewrite H1. now apply Z.eqb_eq.
Qed.

Lemma x_scope_right a : scope_right x_env a (x_sc a).
Proof.
  unfold x_sc. destruct (Z.eqb_spec a 416) as [->|H1].
  - apply scope_right_dec; [exact xci_wf|discriminate|discriminate|vm_compute; reflexivity].
  - destruct (Z.eqb_spec a 432) as [->|H2].
    + apply scope_right_dec; [exact xci_wf|discriminate|discriminate|vm_compute; reflexivity].
    + apply scope_right_dec; [exact xci_wf|discriminate|discriminate|].
      cbn [me_dom x_env]. unfold x_dom.
      rewrite (proj2 (Z.eqb_neq a 416) H1), (proj2 (Z.eqb_neq a 432) H2). vm_compute. reflexivity.
Qed.

Lemma x_scope_right_ro a : scope_right x_env_ro a (x_sc a).
Proof. exact (x_scope_right a). Qed.

(** A history with a transaction, package-wide and per-CPU writes. *)
Definition x_ops : list mop :=
  [OWrite 416 5 (Some [1; 4]) SPackage true; ORead 416 None SPackage;
   OWriteBits 16 (7, 4) (Some 9) (Some [3; 5]) SCPU false].
Definition x_body : list mop :=
  [OWrite 416 7 (Some [0; 1]) SPackage true; OWriteBits 432 (3, 0) (Some 15) None SCore true;
   ORead 416 (Some [2]) SPackage; OWrite 416 8 (Some [0]) SPackage true].

Lemma x_ops_disciplined : disciplined x_env x_sc x_ops.
Proof.
  split.
  - intros o Ho. cbn in Ho. destruct Ho as [<-|[<-|[<-|[]]]]; cbn; auto.
    repeat split; vm_compute; discriminate.
  - left. cbn. intuition discriminate.
Qed.

Lemma first_is_dec env rep a cpus :
  forallb (fun c => match find (fun x => me_dom env a x =? me_dom env a c) (ordered_targets env cpus) with
                    | Some y => y =? rep a (me_dom env a c)
                    | None => false
                    end) (targets env cpus) = true -> first_is env rep a cpus.
Proof.
  intros H c Hc. rewrite forallb_forall in H. specialize (H c Hc).
  destruct (find _ _) as [y|]; [|discriminate]. apply Z.eqb_eq in H. now subst.
Qed.

Lemma x_body_ok : forall o, In o ([] ++ x_body) -> op_scoped x_sc o /\ op_rep x_env x_rep o.
Proof.
  intros o Ho. cbn in Ho. destruct Ho as [<-|[<-|[<-|[<-|[]]]]]; cbn [op_scoped op_rep];
    (split; [first [reflexivity|repeat split; vm_compute; discriminate]
            |first [exact I|apply first_is_dec; vm_compute; reflexivity]]).
Qed.

Lemma x_body_buffered : forall o, In o x_body -> buffered_op o.
Proof. intros o Ho. cbn in Ho. destruct Ho as [<-|[<-|[<-|[<-|[]]]]]; exact I. Qed.

(** Results of running the example. *)
Definition x_result : option mstate :=
  mrun_ok x_env (OStart :: x_body ++ [OCommit]) (msr_init x_hw []).

Lemma xci_modules : modules_unique (ci_topo (me_ci x_env)).
Proof.
  intros t u Ht Hu. vm_compute in Ht, Hu.
  repeat (destruct Ht as [<-|Ht];
          [repeat (destruct Hu as [<-|Hu]; [vm_compute; congruence|]); destruct Hu|]).
  destruct Ht.
Qed.

(** ** What is not true *)

(** Last write wins fails when one register is addressed through different CPUs in one transaction. *)
Definition x_bad : list mop :=
  [OStart; OWrite 416 1 (Some [0]) SPackage false; OWrite 416 2 (Some [1]) SPackage false;
   OWrite 416 3 (Some [0]) SPackage false; OCommit].

Lemma C06_last_write_wins_refuted_l :
  exists env sc ops hw s,
    wf_ci (me_ci env) /\ (forall a, scope_right env a (sc a)) /\ faithful env /\
    (forall o, In o ops -> op_scoped sc o) /\
    mrun_ok env (OStart :: ops ++ [OCommit]) (msr_init hw []) = Some s /\
    ~ effects env ops hw (ms_hw s).
Proof.
  assert (R : option_map (fun s => ms_hw s 416 0) (mrun_ok x_env x_bad (msr_init x_hw [])) = Some 2)
    by (vm_compute; reflexivity).
  destruct (mrun_ok x_env x_bad (msr_init x_hw [])) as [s|] eqn:Er; [|discriminate].
  cbn [option_map] in R. assert (R' : ms_hw s 416 0 = 2) by congruence. clear R.
  exists x_env, x_sc, [OWrite 416 1 (Some [0]) SPackage false; OWrite 416 2 (Some [1]) SPackage false;
   OWrite 416 3 (Some [0]) SPackage false], x_hw, s. split; [exact xci_wf|]. split; [exact x_scope_right|]. split; [exact x_faithful|].
  split. { intros o Ho. cbn in Ho. destruct Ho as [<-|[<-|[<-|[]]]]; reflexivity. }
  split. { exact Er. }
  intros H. inversion H as [|o t L L' L'' H1 H2]; subst.
  inversion H2 as [|o t M M' M'' H3 H4]; subst.
  inversion H4 as [|o t N N' N'' H5 H6]; subst.
  inversion H6 as [K K' H7|]; subst.
  cbn [op_effect] in H5. destruct (H5 416 0) as (H8 & _).
  assert (E : N' 416 0 = 3).
  { apply H8. split; [reflexivity|]. exists 0. split; [now left|reflexivity]. }
  specialize (H7 416 0). rewrite E, R' in H7. discriminate.
Qed.

Lemma C05_shared_transaction_refuted_l :
  exists env sc ops hw a c v s',
    wf_ci (me_ci env) /\ (forall a, scope_right env a (sc a)) /\ faithful env /\
    (forall o, In o ops -> op_scoped sc o) /\
    let s := mrun env ops (msr_init hw []) in
    ms_intr s = false /\ ms_tbuf s = [] /\
    read env a (Some [c]) (sc a) s = (Ok [(c, v)], s') /\ v <> ms_hw s a (me_dom env a c).
Proof.
  assert (R : fst (read x_env 416 (Some [0]) (x_sc 416) (mrun x_env x_bad (msr_init x_hw []))) = Ok [(0, 3)]) by (vm_compute; reflexivity).
  destruct (read x_env 416 (Some [0]) (x_sc 416) (mrun x_env x_bad (msr_init x_hw []))) as [r s'] eqn:Er. cbn [fst] in R. subst r.
  exists x_env, x_sc, x_bad, x_hw, 416, 0, 3, s'. split; [exact xci_wf|]. split; [exact x_scope_right|]. split; [exact x_faithful|].
  split. { intros o Ho. cbn in Ho. destruct Ho as [<-|[<-|[<-|[<-|[<-|[]]]]]]; cbn; auto. }
  intros s. split; [vm_compute; reflexivity|]. split; [vm_compute; reflexivity|]. split; [exact Er|].
  vm_compute. discriminate.
Qed.

(** With the "global" scope a write raises KeyError unless the register happens to be cached. *)
Lemma C43_global_remove_refuted_l : forall env hw faults a c v cpus vf,
  me_cache env = true -> normalize_cpus (me_ci env) (Some (c :: cpus)) false <> Exn EError ->
  exists s', write env a v (Some (c :: cpus)) SGlobal vf (msr_init hw faults) = (Exn EKey, s').
Proof.
  intros env hw faults a c v cpus vf Hc Hn. unfold write, mbind, lift.
  unfold normalize_cpus in *. unfold normalize_in in *.
  destruct (forallb _ _); [|congruence].
  unfold dedup. cbn [list_dedup mfor]. unfold mbind at 1. unfold cache_remove. rewrite Hc. cbn.
  eexists. reflexivity.
Qed.

Lemma C03_negative_refuted_l :
  exists r b v r', 0 <= r < 2 ^ 64 /\ field_ok b /\ ~ fits b v /\
    set_bits r b (Some v) = Ok r' /\ ~ (0 <= r' < 2 ^ 64) /\
    exists i, ~ in_field b i /\ 0 <= i /\ Z.testbit r' i <> Z.testbit r i.
Proof.
  exists 0, (3, 0), (-1), (-1). repeat split; try (vm_compute; congruence).
  - intros (H & _). vm_compute in H. now apply H.
  - intros (H & _). vm_compute in H. now apply H.
  - exists 10. repeat split; try (vm_compute; congruence). intros (_ & H). vm_compute in H. now apply H.
Qed.

Lemma C03_range_refuted_l :
  exists r b v r', 0 <= r < 2 ^ 64 /\ 64 < fst b /\ set_bits r b (Some v) = Ok r' /\ 2 ^ 64 <= r'.
Proof. exists 0, (70, 65), 1, (2 ^ 65). repeat split; vm_compute; congruence. Qed.

(** ** Proper calls *)

Lemma C05_ex_available_l : exists ops,
  ops = [OStart; OWrite 416 9 None SPackage true; OWriteBits 432 (3, 0) (Some 6) (Some [1; 0]) SCore true; OFlush;
         ORead 416 (Some [7]) SPackage; OCommit; OWriteBits 416 (7, 4) None (Some [4]) SPackage true] /\
  disciplined x_env x_sc ops /\ ops_valid x_env false ops.
Proof.
  eexists. split; [reflexivity|]. split.
  - split.
    + intros o Ho. cbn in Ho. repeat (destruct Ho as [<-|Ho]; [cbn [op_scoped]; first [reflexivity|exact I|repeat split; vm_compute; discriminate]|]). destruct Ho.
    + right. exists x_rep. intros o Ho. cbn in Ho.
      repeat (destruct Ho as [<-|Ho]; [cbn [op_rep]; first [exact I|apply first_is_dec; vm_compute; reflexivity]|]). destruct Ho.
  - assert (Hi : forall l, subsetb l (ci_online xci) = true -> incl l (ci_online xci)) by (intros l; apply subsetb_incl).
    cbn [ops_valid op_valid]. repeat split; try reflexivity; try (vm_compute; congruence); apply Hi; reflexivity.
Qed.
