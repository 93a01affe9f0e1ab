(** Lemmas about setting several properties in one transaction: the outcome. *)
From Coq Require Import ZifyBool.
From Verif Require Import Base L_Base L_Monad M_Text M_Sysfs S_Sysfs L_Sysfs M_CPUInfo S_CPUInfo M_MSR S_MSR L_MSR L_MSR2 L_MSR3 L_MSR4 L_MSR5
  M_Setter S_Setter L_Setter.

Lemma app_inj_len {A} (a b c d : list A) : length a = length c -> a ++ b = c ++ d -> a = c /\ b = d.
Proof.
  revert c. induction a as [|x a IH]; intros [|y c]; cbn; intros L E; try discriminate; [auto|].
  injection E as -> E. destruct (IH c ltac:(lia) E). split; congruence.
Qed.

Section Setter.
  Variable env : menv.
  Variable k : senv.
  Variable sc : Z -> scope.
  Hypothesis HM : machine env sc k.
  Let Hwf := mach_ci _ _ _ HM.
  Let Hsc := mach_scope _ _ _ HM.
  Let Hf := mach_msr _ _ _ HM.
  Let Hcm := mach_mcache _ _ _ HM.
  Let Hcs := mach_scache _ _ _ HM.
  Variable rep : Z -> Z -> Z.
  Variables (hw : Z -> Z -> Z) (faults : list bool) (fs : str -> option str).
  Notation w0 := (w_init hw faults fs).

  Lemma read_ops (m0 : list (mop * bool)) : (forall e, In e m0 -> msr_read sc (fst e)) -> forall o, In o (map fst m0) -> op_scoped sc o /\ op_rep env rep o /\ o <> OStart.
  Proof.
    intros H o Ho. apply in_map_iff in Ho as (e & <- & He). destruct (H e He) as (a & cpus & ->). cbn. repeat split. discriminate.
  Qed.

  Lemma body_ops (m1 : list (mop * bool)) : (forall e, In e m1 -> Pm env sc rep (fst e)) -> forall o, In o (map fst m1) -> buffered_op o /\ op_scoped sc o /\ op_rep env rep o.
  Proof. intros H o Ho. apply in_map_iff in Ho as (e & <- & He). exact (H e He). Qed.

  (** *** Registers before the commit *)
  Lemma registers_kept m0 m1 w1 sh : (forall e, In e m0 -> msr_read sc (fst e)) -> (forall e, In e m1 -> Pm env sc rep (fst e)) ->
    moves env k w0 w1 (m0 ++ (OStart, true) :: m1) sh -> registers w1 = hw /\ ms_log (w_m w1) = [].
  Proof.
    intros H0 H1 M. pose proof (mv_m _ _ _ _ _ _ M) as E. rewrite map_app in E. cbn [map fst] in E. unfold mrun in E.
    rewrite fold_left_app in E. cbn [fold_left] in E. fold (mrun env (map fst m0) (w_m w0)) in E.
    destruct (start_ok env k sc HM m0 hw faults H0) as (s' & Es). cbn [w_init w_m] in E.
    assert (Es2 : snd (mstep env OStart (mrun env (map fst m0) (msr_init hw faults))) = s').
    { cbn [mstep]. unfold mbind. now rewrite Es. }
    rewrite Es2 in E. fold (mrun env (map fst m1) s') in E.
    destruct (C06_deferred_l env sc Hwf Hsc rep (map fst m0) (map fst m1) hw faults s' Hf) as (D1 & D2); try assumption.
    { intros o Ho. apply in_app_iff in Ho as [Ho|Ho]; [apply (read_ops _ H0) in Ho|apply (body_ops _ H1) in Ho]; tauto. }
    { intros o Ho. apply (body_ops _ H1) in Ho. tauto. }
    destruct (msr_read_frame env k sc HM rep (map fst m0)) with (s := msr_init hw faults) as (F1 & F2 & _).
    { intros o Ho. apply in_map_iff in Ho as (e & <- & He). auto. }
    { apply Coh_init. }
    unfold registers. rewrite <- E. rewrite D1, D2, F1, F2. split; reflexivity.
  Qed.

  (** *** Files before the commit *)
  Definition opened (s0 s1 : list (sop * bool)) : list (sop * bool) := s0 ++ [(SStart, true)] ++ s1.

  Lemma opened_known s0 s1 : (forall e, In e s0 -> sys_read (fst e)) -> (forall e, In e s1 -> Ps (fst e)) ->
    known (opened s0 s1) = (true, accepted_in (opened s0 s1)) /\ trusting k (false, []) (opened s0 s1).
  Proof.
    intros H0 H1. unfold opened. split.
    - unfold known. rewrite fold_left_app. rewrite (proj1 (reads_track k s0 H0 (false, []))). cbn [app fold_left track].
      rewrite (nontrans_known s1 (true, []) H1 eq_refl). cbn [snd app]. f_equal. unfold accepted_in.
      rewrite flat_map_app. replace (flat_map _ s0) with (@nil (str * str)); [reflexivity|].
      symmetry. clear - H0. induction s0 as [|[o b] t IH]; [reflexivity|]. cbn [flat_map].
      rewrite IH by (intros; apply H0; now right). destruct (H0 (o, b) (or_introl eq_refl)) as [(p & E)|(p & E)]; cbn [fst snd] in *; subst o;
        destruct b; reflexivity.
    - apply (proj2 (reads_track k s0 H0 (false, []))). cbn [app trusting]. split; [intros _; exact I|].
      apply nontrans_trusting; [exact H1|reflexivity].
  Qed.

  Lemma files_kept s0 s1 w1 mh : (forall e, In e s0 -> sys_read (fst e)) -> (forall e, In e s1 -> Ps (fst e)) ->
    moves env k w0 w1 mh (opened s0 s1) -> files w1 = fs /\ ss_log (w_s w1) = [].
  Proof.
    intros H0 H1 M. pose proof (mv_s _ _ _ _ _ _ M) as E. unfold opened in E. rewrite app_assoc in E.
    rewrite map_app, (srun_app k) in E. destruct (srun k (map fst (s0 ++ [(SStart, true)])) (w_s w0)) as [t1 s2] eqn:E1.
    destruct (srun k (map fst s1) s2) as [t2 s3] eqn:E2. injection E as Et Es.
    assert (L : length t1 = length (s0 ++ [(SStart, true)])).
    { assert (G : forall ops s, length (fst (srun k ops s)) = length ops).
      { induction ops as [|o ops IH]; intros s; cbn [srun]; [reflexivity|]. destruct (sstep k o s) as [r sa].
        specialize (IH sa). destruct (srun k ops sa). cbn in *. now rewrite IH. }
      specialize (G (map fst (s0 ++ [(SStart, true)])) (w_s w0)). rewrite E1, map_length in G. exact G. }
    assert (Et1 : t1 = s0 ++ [(SStart, true)] /\ t2 = s1).
    { apply app_inj_len; [exact L|exact Et]. }
    destruct Et1 as (-> & ->).
    assert (Hr : S_Sysfs.reached k fs (map fst (s0 ++ [(SStart, true)])) (s0 ++ [(SStart, true)]) s2).
    { split; [exact E1|]. apply (proj2 (reads_track k s0 H0 (false, []))). cbn. auto. }
    destruct (C08_deferred_l k Hcs fs _ _ s2 (map fst s1) s1 s3 Hr) as (F1 & F2); [| |exact E2|].
    { unfold known. rewrite fold_left_app. reflexivity. }
    { apply Forall_forall. intros o Ho. apply in_map_iff in Ho as (e & <- & He). specialize (H1 e He). unfold Ps in H1. destruct (fst e); try reflexivity; exfalso; apply H1; exact I. }
    rewrite map_app, (srun_app k) in E1. destruct (srun k (map fst s0) (w_s w0)) as [ta sa] eqn:Ea.
    cbn [map fst srun] in E1. destruct (sstep k SStart sa) as [rb sb] eqn:Eb. injection E1 as Ex Ey.
    assert (Eta : ta = s0) by (apply app_inj_tail in Ex; tauto). subst ta.
    destruct (sys_read_frame k s0 H0 _ _ Ea) as (G1 & G2).
    assert (G3 : ss_fs sb = ss_fs sa /\ ss_log sb = ss_log sa).
    { cbn [sstep] in Eb. unfold s_start, mbind, gets in Eb. rewrite Hcs in Eb. cbn [negb] in Eb.
      destruct (ss_intr sa); injection Eb as _ <-; split; reflexivity. }
    unfold files. rewrite <- Es. destruct G3 as (G3 & G4). cbn [w_init w_s] in G1, G2.
    split; [rewrite F1, <- Ey, G3, G1|rewrite F2, <- Ey, G4, G2]; reflexivity.
  Qed.

  (** *** The commits *)
  Lemma effects_reads ops body L L' : (forall o, In o ops -> msr_read sc o) -> effects env body L L' ->
    effects env (ops ++ OStart :: body) L L'.
  Proof.
    induction ops as [|o t IH]; intros H E; cbn [app].
    - apply (eff_cons env _ _ L L); [|exact E]. cbn. reflexivity.
    - apply (eff_cons env _ _ L L); [|apply IH; [intros; apply H; now right|exact E]].
      destruct (H o (or_introl eq_refl)) as (a & cpus & ->). cbn. reflexivity.
  Qed.

  Lemma all_ops m0 m1 : (forall e, In e m0 -> msr_read sc (fst e)) -> (forall e, In e m1 -> Pm env sc rep (fst e)) ->
    forall o, In o (map fst (m0 ++ (OStart, true) :: m1)) -> op_scoped sc o /\ op_rep env rep o.
  Proof.
    intros H0 H1 o Ho. rewrite map_app in Ho. cbn [map fst] in Ho. apply in_app_iff in Ho as [Ho|[<-|Ho]].
    - apply (read_ops _ H0) in Ho. tauto.
    - cbn. auto.
    - apply (body_ops _ H1) in Ho. tauto.
  Qed.

  Lemma msr_committed m0 m1 w1 sh l w2 : (forall e, In e m0 -> msr_read sc (fst e)) -> (forall e, In e m1 -> Pm env sc rep (fst e)) ->
    moves env k w0 w1 (m0 ++ (OStart, true) :: m1) sh -> msr_call env OCommit w1 = (Ok l, w2) -> msr_fine w1 ->
    effects env (msr_calls w1) hw (registers w2).
  Proof.
    intros H0 H1 M E Hfine. destruct (msr_call_moves env k _ _ _ _ E) as (_ & Es & _).
    pose proof (mv_mh _ _ _ _ _ _ M) as Em. cbn [w_init w_ev msr_events flat_map app] in Em.
    unfold msr_calls. rewrite Em, map_app. cbn [map fst]. 
    assert (Hok : mrun_ok env (map fst (m0 ++ (OStart, true) :: m1)) (w_m w0) = Some (w_m w1)).
    { apply (mv_ok _ _ _ _ _ _ M). intros e He. apply Hfine. now rewrite Em. }
    rewrite map_app in Hok. cbn [map fst] in Hok. apply mrun_ok_app in Hok as (s1 & K0 & K1). cbn [w_init w_m] in K0.
    apply effects_reads; [intros o Ho; apply in_map_iff in Ho as (e & <- & He); auto|].
    pose proof (mrun_ok_mrun _ _ _ _ K0) as K0'.
    destruct (C06_commit_l env sc Hwf Hsc rep (map fst m0) (map fst m1) hw faults (w_m w2) Hf) as (C & _).
    { intros o Ho. apply in_app_iff in Ho as [Ho|Ho]; [apply (read_ops _ H0) in Ho|apply (body_ops _ H1) in Ho]; tauto. }
    { intros o Ho. apply (body_ops _ H1) in Ho. tauto. }
    { rewrite K0'. change (OStart :: map fst m1 ++ [OCommit]) with ((OStart :: map fst m1) ++ [OCommit]).
      eapply mrun_ok_app2; [exact K1|]. cbn [mrun_ok]. now rewrite Es. }
    destruct (msr_read_frame env k sc HM rep (map fst m0)) with (s := msr_init hw faults) as (F1 & _).
    { intros o Ho. apply in_map_iff in Ho as (e & <- & He). auto. }
    { apply Coh_init. }
    rewrite F1 in C. exact C.
  Qed.

  Lemma sys_known w1 mh s0 s1 : (forall e, In e s0 -> sys_read (fst e)) -> (forall e, In e s1 -> Ps (fst e)) ->
    moves env k w0 w1 mh (opened s0 s1) ->
    S_Sysfs.reached k fs (map fst (opened s0 s1)) (opened s0 s1) (w_s w1) /\ known (opened s0 s1) = (true, accepted w1).
  Proof.
    intros H0 H1 M. destruct (opened_known s0 s1 H0 H1) as (K & T).
    split; [split; [exact (mv_s _ _ _ _ _ _ M)|exact T]|]. rewrite K. f_equal. unfold accepted.
    pose proof (mv_sh _ _ _ _ _ _ M) as E. cbn [w_init w_ev sys_events flat_map app] in E. now rewrite E.
  Qed.

  Variables (before : prog) (props : list prog).
  Hypothesis Hb : printing_code sc before.
  Hypothesis Hp : Forall (property_code env sc rep) props.

  Lemma C61_nothing_l both r w1 : prepare env k both before props w0 = (r, w1) ->
    registers w1 = hw /\ fst (sent w1) = [] /\ (both = true -> files w1 = fs /\ snd (sent w1) = []) /\
    forall e, r = Exn e -> config env k both before props w0 = (Exn e, w1).
  Proof.
    intros E. destruct (prepare_shape env k sc HM rep both before props hw faults fs r w1 Hb Hp E) as (m0 & s0 & H0 & G0 & [(_ & M)|(m1 & s1 & M & H1 & G1)]).
    - destruct (msr_read_frame env k sc HM rep (map fst m0)) with (s := msr_init hw faults) as (F1 & F2 & _).
      { intros o Ho. apply in_map_iff in Ho as (e' & <- & He). auto. }
      { apply Coh_init. }
      pose proof (mv_m _ _ _ _ _ _ M) as Em. cbn [w_init w_m] in Em. unfold registers, sent, files. cbn [fst snd].
      rewrite <- Em, F1, F2. destruct (sys_read_frame k s0 G0 _ _ (mv_s _ _ _ _ _ _ M)) as (X1 & X2). rewrite X1, X2.
      split; [reflexivity|]. split; [reflexivity|]. split; [split; reflexivity|].
      intros e ->. unfold config, mbind. now rewrite E.
    - destruct (registers_kept m0 m1 w1 _ H0 H1 M) as (R1 & R2). split; [exact R1|]. split; [exact R2|]. split.
      + intros ->. exact (files_kept s0 s1 w1 _ G0 G1 M).
      + intros e ->. unfold config, mbind. now rewrite E.
  Qed.

  Lemma config_finish both w1 : prepare env k both before props w0 = (Ok tt, w1) ->
    config env k both before props w0 = finish env k both w1.
  Proof. intros E. unfold config, mbind. now rewrite E. Qed.

  Lemma C61_all_l both w1 w2 : prepare env k both before props w0 = (Ok tt, w1) -> msr_fine w1 ->
    config env k both before props w0 = (Ok tt, w2) ->
    effects env (msr_calls w1) hw (registers w2) /\
    (both = true -> snd (sent w2) = merged (accepted w1) /\
       (forall p v, last_value (accepted w1) p = Some v -> contents (w_s w2) p = Some v) /\
       forall p, last_value (accepted w1) p = None -> files w2 p = fs p).
  Proof.
    intros E Hfine E2. rewrite (config_finish _ _ E) in E2.
    destruct (prepare_shape env k sc HM rep both before props hw faults fs _ w1 Hb Hp E) as (m0 & s0 & H0 & G0 & [((e & [=]) & _)|(m1 & s1 & M & H1 & G1)]).
    unfold finish, mbind in E2. destruct (msr_call env OCommit w1) as [[l|e] w3] eqn:E3; [|discriminate].
    pose proof (msr_committed m0 m1 w1 _ l w3 H0 H1 M E3 Hfine) as Eff.
    destruct (msr_call_moves env k _ _ _ _ E3) as (_ & _ & Es).
    destruct both; [|injection E2 as <-; split; [exact Eff|discriminate]].
    destruct (sys_call k SCommit w3) as [[v|e] w4] eqn:E4; [|discriminate]. injection E2 as <-.
    destruct (sys_call_moves env k _ _ _ _ E4) as (_ & Ec & Em). unfold registers in *. rewrite Em.
    split; [exact Eff|]. intros _. cbn [sstep] in Ec. rewrite Es in Ec.
    destruct (sys_known w1 _ s0 s1 G0 G1 M) as (Hr & Kn).
    destruct (C08_commit_l k Hcs _ _ _ _ _ Hr Ec) as (_ & C1 & C2 & C3 & _). rewrite Kn in C1, C2, C3. cbn [snd] in C1, C2, C3.
    destruct (files_kept s0 s1 w1 _ G0 G1 M) as (Fk & Lk). unfold sent, files in *. cbn [snd].
    split; [now rewrite C1, Lk|]. split; [exact C2|]. intros p Hn. rewrite (C3 p Hn). now rewrite Fk.
  Qed.

  Lemma C61_failed_l w1 w2 e : prepare env k true before props w0 = (Ok tt, w1) ->
    config env k true before props w0 = (Exn e, w2) ->
    (files w2 = fs /\ exists done rest, pending_writes (w_m w1) = done ++ rest /\ fst (sent w2) = done) \/
    ((msr_fine w1 -> effects env (msr_calls w1) hw (registers w2)) /\
     exists pre p v rest, merged (accepted w1) = pre ++ (p, v) :: rest /\
       (forall q x, In (q, x) pre -> contents (w_s w2) q = Some x) /\
       (forall q, ~ In q (map fst pre) -> q <> p -> files w2 q = fs q) /\
       (snd (sent w2) = pre /\ files w2 p = fs p \/
        snd (sent w2) = pre ++ [(p, v)] /\ (contents (w_s w2) p <> Some v \/ k_unreadable k p = true))).
  Proof.
    intros E E2. rewrite (config_finish _ _ E) in E2.
    destruct (prepare_shape env k sc HM rep true before props hw faults fs _ w1 Hb Hp E) as (m0 & s0 & H0 & G0 & [((x & [=]) & _)|(m1 & s1 & M & H1 & G1)]).
    destruct (files_kept s0 s1 w1 _ G0 G1 M) as (Fk & Lk). destruct (registers_kept m0 m1 w1 _ H0 H1 M) as (_ & Rl).
    unfold finish, mbind in E2. destruct (msr_call env OCommit w1) as [[l|e1] w3] eqn:E3.
    - right. destruct (msr_call_moves env k _ _ _ _ E3) as (_ & _ & Es).
      destruct (sys_call k SCommit w3) as [[v|e1] w4] eqn:E4; [discriminate|]. injection E2 as -> <-.
      destruct (sys_call_moves env k _ _ _ _ E4) as (_ & Ec & Em).
      split; [intros Hfine; unfold registers in *; rewrite Em; exact (msr_committed m0 m1 w1 _ l w3 H0 H1 M E3 Hfine)|].
      cbn [sstep] in Ec. rewrite Es in Ec. destruct (sys_known w1 _ s0 s1 G0 G1 M) as (Hr & Kn).
      destruct (C09_broken_l k Hcs _ _ _ _ _ _ Hr Ec) as ((pre & p & v & rest & C1 & C2 & C3 & C4) & _); [now rewrite Kn|].
      rewrite Kn in C1. cbn [snd] in C1. exists pre, p, v, rest. unfold sent, files in *. cbn [snd].
      rewrite Lk in C4. rewrite Fk in C3, C4. cbn [app] in C4. auto.
    - left. injection E2 as -> <-. destruct (msr_call_moves env k _ _ _ _ E3) as (_ & Ec & Es).
      split; [unfold files in *; now rewrite Es|].
      cbn [mstep] in Ec. unfold mbind in Ec. destruct (commit_transaction env (w_m w1)) as [[u|e2] s'] eqn:E4; [discriminate|].
      injection Ec as -> ->. pose proof (mv_m _ _ _ _ _ _ M) as Em. cbn [w_init w_m] in Em. rewrite <- Em in E4.
      destruct (C06_failed_commit_l env sc Hwf Hsc rep _ hw faults _ _ Hf (all_ops m0 m1 H0 H1) E4) as (_ & _ & dn & rest & D1 & D2).
      rewrite Em in D1, D2. exists dn, rest. split; [exact D1|]. unfold sent. cbn [fst]. now rewrite D2, Rl.
  Qed.

  Lemma C61_succeeds_l w1 : prepare env k true before props w0 = (Ok tt, w1) ->
    msr_fine w1 -> ops_valid env false (msr_calls w1 ++ [OCommit]) -> (forall b, In b faults -> b = false) ->
    (forall a d, 0 <= hw a d < 2 ^ 64) ->
    (forall p v, last_value (accepted w1) p = Some v -> k_unreadable k p = false /\ (exists old, fs p = Some old) /\
       forall old, exists c, k_write k p old v = Some c /\ strip c = v) ->
    exists w2, config env k true before props w0 = (Ok tt, w2).
  Proof.
    intros E Hfine Hv Hio Hhw Hfs. rewrite (config_finish _ _ E).
    destruct (prepare_shape env k sc HM rep true before props hw faults fs _ w1 Hb Hp E) as (m0 & s0 & H0 & G0 & [((x & [=]) & _)|(m1 & s1 & M & H1 & G1)]).
    destruct (files_kept s0 s1 w1 _ G0 G1 M) as (Fk & _).
    pose proof (mv_mh _ _ _ _ _ _ M) as Em. cbn [w_init w_ev msr_events flat_map app] in Em.
    assert (Hd : disciplined env sc (msr_calls w1 ++ [OCommit])).
    { unfold msr_calls. rewrite Em. assert (A : forall o, In o (map fst (m0 ++ (OStart, true) :: m1) ++ [OCommit]) -> op_scoped sc o /\ op_rep env rep o).
      { intros o Ho. apply in_app_iff in Ho as [Ho|[<-|[]]]; [exact (all_ops m0 m1 H0 H1 o Ho)|cbn; auto]. }
      split; [intros o Ho; exact (proj1 (A o Ho))|right; exists rep; intros o Ho; exact (proj2 (A o Ho))]. }
    destruct (available_l env sc _ hw faults Hwf Hsc Hf Hd Hv Hio Hhw) as (s & Es).
    apply mrun_ok_app in Es as (sa & Ea & Eb).
    assert (Hok : mrun_ok env (msr_calls w1) (msr_init hw faults) = Some (w_m w1)).
    { unfold msr_calls. rewrite Em. apply (mv_ok _ _ _ _ _ _ M). intros e He. apply Hfine. now rewrite Em. }
    rewrite Hok in Ea. injection Ea as <-. cbn [mrun_ok] in Eb.
    unfold finish, mbind, msr_call. destruct (mstep env OCommit (w_m w1)) as [[l|e] m2]; [|discriminate].
    unfold sys_call. cbn [w_s]. cbn [sys_answer]. unfold mbind.
    destruct (sys_known w1 _ s0 s1 G0 G1 M) as (Hr & Kn).
    pose proof (C08_commit_succeeds_l k Hcs _ _ _ _ Hr) as C. rewrite Kn in C. cbn [fst snd] in C. specialize (C eq_refl).
    change (sstep k SCommit (w_s w1)) with (s_commit k (w_s w1)).
    destruct (s_commit k (w_s w1)) as [[u|e] s2]; [unfold ret; eauto|].
    exfalso. cbn [fst] in C. discriminate C. intros p v Hl. destruct (Hfs p v Hl) as (A1 & A2 & A3). unfold files in Fk. rewrite Fk. auto.
  Qed.
End Setter.
