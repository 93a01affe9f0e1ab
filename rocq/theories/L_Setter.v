(** Lemmas about setting several properties in one transaction. *)
From Coq Require Import ZifyBool.
From Verif Require Import Base L_Base L_Monad M_Text M_Sysfs S_Sysfs L_Sysfs M_CPUInfo S_CPUInfo M_MSR S_MSR L_MSR L_MSR2 L_MSR3 L_MSR4 L_MSR5
  M_Setter S_Setter.

Section Setter.
  Variable env : menv.
  Variable k : senv.

  (** The calls [mh] and [sh] lead from one world to the other. *)
  Record moves (w w' : world) (mh : list (mop * bool)) (sh : list (sop * bool)) : Prop := MV {
    mv_mh : w_mh w' = w_mh w ++ mh;
    mv_sh : w_sh w' = w_sh w ++ sh;
    mv_m : mrun env (map fst mh) (w_m w) = w_m w';
    mv_ok : (forall e, In e mh -> snd e = true) -> mrun_ok env (map fst mh) (w_m w) = Some (w_m w');
    mv_s : srun k (map fst sh) (w_s w) = (sh, w_s w') }.

  Lemma moves_refl w : moves w w [] [].
  Proof. constructor; cbn; rewrite ?app_nil_r; reflexivity. Qed.

  Lemma mrun_ok_app2 o1 : forall o2 s s1 s2, mrun_ok env o1 s = Some s1 -> mrun_ok env o2 s1 = Some s2 ->
    mrun_ok env (o1 ++ o2) s = Some s2.
  Proof.
    induction o1 as [|o t IH]; intros o2 s s1 s2; cbn [app mrun_ok]; [congruence|].
    destruct (mstep env o s) as [[r|e] s3]; [apply IH|discriminate].
  Qed.

  Lemma moves_trans w1 w2 w3 m1 m2 s1 s2 : moves w1 w2 m1 s1 -> moves w2 w3 m2 s2 -> moves w1 w3 (m1 ++ m2) (s1 ++ s2).
  Proof.
    intros [A1 A2 A3 A4 A5] [B1 B2 B3 B4 B5]. constructor.
    - now rewrite B1, A1, app_assoc.
    - now rewrite B2, A2, app_assoc.
    - rewrite map_app. unfold mrun in *. rewrite fold_left_app, A3. exact B3.
    - intros H. rewrite map_app. eapply mrun_ok_app2; [apply A4|apply B4]; intros; apply H, in_app_iff; auto.
    - rewrite map_app, (srun_app k), A5, B5. reflexivity.
  Qed.

  Lemma msr_call_moves o w r w' : msr_call env o w = (r, w') ->
    moves w w' [(o, is_ok r)] [] /\ mstep env o (w_m w) = (r, w_m w') /\ w_s w' = w_s w.
  Proof.
    unfold msr_call. destruct (mstep env o (w_m w)) as [r1 m] eqn:E. intros [= <- <-]. cbn [w_m w_s].
    split; [|split; reflexivity]. constructor; cbn [w_ev w_m w_s map fst srun].
    - unfold msr_events. rewrite flat_map_app. reflexivity.
    - unfold sys_events. rewrite flat_map_app. reflexivity.
    - cbn. rewrite E. reflexivity.
    - intros H. specialize (H _ (or_introl eq_refl)). cbn [snd] in H. cbn [mrun_ok]. rewrite E.
      destruct r1; [reflexivity|discriminate].
    - reflexivity.
  Qed.

  Lemma sys_answer_step o s : sstep k o s = (match fst (sys_answer k o s) with Ok _ => Ok tt | Exn e => Exn e end, snd (sys_answer k o s)).
  Proof.
    destruct o; cbn [sstep sys_answer]; unfold mbind.
    - destruct (s_read k p s) as [[v|e] s1]; reflexivity.
    - destruct (s_read_int k p s) as [[v|e] s1]; reflexivity.
    - destruct (s_write k p v what s) as [[[]|e] s1]; reflexivity.
    - destruct (s_write_int k p v what s) as [[[]|e] s1]; reflexivity.
    - destruct (s_write_verify k p v what retries sleep s) as [[[]|e] s1]; reflexivity.
    - destruct (s_write_verify_int k p v what retries sleep s) as [[[]|e] s1]; reflexivity.
    - destruct (s_start k s) as [[[]|e] s1]; reflexivity.
    - destruct (s_flush k s) as [[[]|e] s1]; reflexivity.
    - destruct (s_commit k s) as [[[]|e] s1]; reflexivity.
  Qed.

  Lemma sys_call_moves o w r w' : sys_call k o w = (r, w') ->
    moves w w' [] [(o, is_ok r)] /\ sstep k o (w_s w) = (match r with Ok _ => Ok tt | Exn e => Exn e end, w_s w') /\ w_m w' = w_m w.
  Proof.
    unfold sys_call. pose proof (sys_answer_step o (w_s w)) as E. destruct (sys_answer k o (w_s w)) as [r1 s].
    cbn [fst snd] in E. intros [= <- <-]. cbn [w_m w_s].
    split; [|split; [exact E|reflexivity]]. constructor; cbn [w_ev w_m w_s map fst srun].
    - unfold msr_events. rewrite flat_map_app. reflexivity.
    - unfold sys_events. rewrite flat_map_app. reflexivity.
    - reflexivity.
    - reflexivity.
    - rewrite E. now destruct r1.
  Qed.

  Lemma perform_moves Pm Ps p : calls Pm Ps p -> forall w r w', perform env k p w = (r, w') ->
    exists mh sh, moves w w' mh sh /\ (forall e, In e mh -> Pm (fst e)) /\ (forall e, In e sh -> Ps (fst e)).
  Proof.
    induction p as [r0|o c IH|o c IH]; cbn [calls perform]; intros H w r w' E.
    - injection E as _ <-. exists [], []. split; [apply moves_refl|]. cbn. tauto.
    - destruct H as (Ho & Hc). destruct (msr_call env o w) as [r1 w1] eqn:E1.
      destruct (msr_call_moves _ _ _ _ E1) as (M1 & _).
      destruct (IH r1 (Hc r1) _ _ _ E) as (mh & sh & M2 & Hm & Hs).
      exists ((o, is_ok r1) :: mh), sh. split; [exact (moves_trans _ _ _ _ _ _ _ M1 M2)|].
      split; [|exact Hs]. intros e [<-|He]; [exact Ho|auto].
    - destruct H as (Ho & Hc). destruct (sys_call k o w) as [r1 w1] eqn:E1.
      destruct (sys_call_moves _ _ _ _ E1) as (M1 & _).
      destruct (IH r1 (Hc r1) _ _ _ E) as (mh & sh & M2 & Hm & Hs).
      exists mh, ((o, is_ok r1) :: sh). split; [exact (moves_trans _ _ _ _ _ _ _ M1 M2)|].
      split; [exact Hm|]. intros e [<-|He]; [exact Ho|auto].
  Qed.

  Lemma props_moves Pm Ps props : Forall (calls Pm Ps) props -> forall w r w', mfor props (perform env k) w = (r, w') ->
    exists mh sh, moves w w' mh sh /\ (forall e, In e mh -> Pm (fst e)) /\ (forall e, In e sh -> Ps (fst e)).
  Proof.
    induction 1 as [|p t Hp Ht IH]; intros w r w' E; cbn [mfor] in E.
    - injection E as _ <-. exists [], []. split; [apply moves_refl|]. cbn. tauto.
    - unfold mbind in E. destruct (perform env k p w) as [[u|e] w1] eqn:E1.
      + destruct (perform_moves Pm Ps p Hp _ _ _ E1) as (m1 & s1 & M1 & A1 & B1).
        destruct (IH _ _ _ E) as (m2 & s2 & M2 & A2 & B2).
        exists (m1 ++ m2), (s1 ++ s2). split; [exact (moves_trans _ _ _ _ _ _ _ M1 M2)|].
        split; intros e He; apply in_app_iff in He; destruct He; auto.
      + injection E as _ <-. exact (perform_moves Pm Ps p Hp _ _ _ E1).
  Qed.

  (** ** The shape of the calls *)

  Lemma nontrans_track o b t : ~ sys_transaction o -> fst (track (o, b) t) = fst t.
  Proof.
    destruct b; [|intros _; destruct o; reflexivity]. destruct o; cbn; try tauto; intros _;
      try (destruct (str_to_int v)); destruct (fst t) eqn:E; cbn; congruence.
  Qed.

  Lemma nontrans_known sh : forall t, (forall e, In e sh -> ~ sys_transaction (fst e)) -> fst t = true ->
    fold_left (fun t e => track e t) sh t = (true, snd t ++ accepted_in sh).
  Proof.
    induction sh as [|[o b] sh IH]; intros t H Ht; cbn [fold_left accepted_in flat_map].
    - rewrite app_nil_r. destruct t; cbn in *; congruence.
    - assert (Ho : ~ sys_transaction o) by (apply (H (o, b)); now left).
      rewrite IH; [|intros; apply H; now right|rewrite nontrans_track by exact Ho; exact Ht].
      f_equal. unfold accepted_in. rewrite app_assoc. f_equal. cbn [fst snd].
      destruct b; [|destruct o; cbn; now rewrite app_nil_r].
      destruct o; cbn in *; try tauto; rewrite ?app_nil_r; try reflexivity; try (rewrite Ht; reflexivity);
        destruct (str_to_int v); rewrite ?Ht, ?app_nil_r; reflexivity.
  Qed.

  Lemma nontrans_trusting sh : forall t, (forall e, In e sh -> ~ sys_transaction (fst e)) -> fst t = true -> trusting k t sh.
  Proof.
    induction sh as [|[o b] sh IH]; intros t H Ht; cbn [trusting]; [exact I|].
    split; [congruence|]. apply IH; [intros; apply H; now right|].
    rewrite nontrans_track; [exact Ht|]. apply (H (o, b)). now left.
  Qed.

  Definition sys_read (o : sop) : Prop := (exists p, o = SRead p) \/ exists p, o = SReadInt p.

  Lemma reads_track sh : (forall e, In e sh -> sys_read (fst e)) -> forall t,
    fold_left (fun t e => track e t) sh t = t /\ forall r, trusting k t r -> trusting k t (sh ++ r).
  Proof.
    induction sh as [|[o b] sh IH]; intros H t; cbn [fold_left app trusting]; [auto|].
    assert (E : track (o, b) t = t /\ plain_ok k o).
    { specialize (H (o, b) (or_introl eq_refl)). cbn in H. destruct b; destruct H as [(p & ->)|(p & ->)]; cbn; auto. }
    destruct E as (E & Hp). rewrite E. destruct (IH ltac:(intros; apply H; now right) t) as (I1 & I2).
    split; [exact I1|]. intros r Hr. split; auto.
  Qed.

  (** ** Reads *)

  Lemma s_read_frame p s : ss_fs (snd (s_read k p s)) = ss_fs s /\ ss_log (snd (s_read k p s)) = ss_log s.
  Proof.
    unfold s_read, M_Sysfs.cache_get, M_Sysfs.cache_add, mbind, gets.
    destruct (if se_cache k then dget str_eqb (ss_cache s) p else None); [auto|].
    destruct (ss_fs s p); [|auto]. destruct (k_unreadable k p); [auto|]. destruct (se_cache k); auto.
  Qed.

  Lemma sys_read_frame sh : (forall e, In e sh -> sys_read (fst e)) -> forall s s', srun k (map fst sh) s = (sh, s') ->
    ss_fs s' = ss_fs s /\ ss_log s' = ss_log s.
  Proof.
    intros H. assert (H' : forall o, In o (map fst sh) -> sys_read o).
    { intros o Ho. apply in_map_iff in Ho as (e & <- & He). auto. }
    clear H. generalize sh at 2. induction (map fst sh) as [|o ops IH]; intros tr s s' E; cbn [srun] in E.
    - injection E as _ <-. auto.
    - assert (F : ss_fs (snd (sstep k o s)) = ss_fs s /\ ss_log (snd (sstep k o s)) = ss_log s).
      { destruct (H' o (or_introl eq_refl)) as [(p & ->)|(p & ->)]; cbn [sstep]; pose proof (s_read_frame p s) as F.
        - unfold mbind. destruct (s_read k p s) as [[v|e] s1]; exact F.
        - unfold s_read_int, mbind. destruct (s_read k p s) as [[v|e] s1]; [|exact F].
          destruct (str_to_int v); exact F. }
      destruct (sstep k o s) as [r s1]. destruct (srun k ops s1) as [tr2 s2] eqn:E2. injection E as _ <-.
      destruct (IH ltac:(intros; apply H'; now right) _ _ _ E2) as (I1 & I2). cbn [snd] in F.
      destruct F as (F1 & F2). split; congruence.
  Qed.

  Variable sc : Z -> scope.
  Hypothesis HM : machine env sc k.
  Let Hwf := mach_ci _ _ _ HM.
  Let Hsc := mach_scope _ _ _ HM.
  Let Hf := mach_msr _ _ _ HM.
  Let Hcm := mach_mcache _ _ _ HM.
  Let Hcs := mach_scache _ _ _ HM.

  Definition msr_read (o : mop) : Prop := exists a cpus, o = ORead a cpus (sc a).

  Lemma msr_read_frame rep ops : (forall o, In o ops -> msr_read o) -> forall s, Coh env rep sc s ->
    ms_hw (mrun env ops s) = ms_hw s /\ ms_log (mrun env ops s) = ms_log s /\ ms_intr (mrun env ops s) = ms_intr s.
  Proof.
    induction ops as [|o ops IH]; intros H s Hc; [auto|]. cbn [mrun fold_left].
    destruct (H o (or_introl eq_refl)) as (a & cpus & ->). cbn [mstep].
    pose proof (read_post env rep sc Hwf Hsc a cpus s Hc) as P. unfold post in P.
    assert (P' : cache_only s (snd (read env a cpus (sc a) s)) /\ Coh env rep sc (snd (read env a cpus (sc a) s))).
    { destruct (read env a cpus (sc a) s) as [[r|e] s1]; cbn [snd]; tauto. }
    destruct P' as (C & Hc').
    destruct (IH ltac:(intros; apply H; now right) _ Hc') as (I1 & I2 & I3). unfold mrun in I1, I2, I3.
    destruct C. rewrite I1, I2, I3. auto.
  Qed.

  (** ** What was done before the commits *)

  Definition Pm (rep : Z -> Z -> Z) (o : mop) : Prop := buffered_op o /\ op_scoped sc o /\ op_rep env rep o.
  Definition Ps (o : sop) : Prop := ~ sys_transaction o.

  Lemma start_ok (m0 : list (mop * bool)) hw faults : (forall e, In e m0 -> msr_read (fst e)) ->
    let s := mrun env (map fst m0) (msr_init hw faults) in exists s', start_transaction env s = (Ok tt, s').
  Proof.
    intros H s. unfold start_transaction. rewrite Hcm. cbn [negb]. unfold mbind, gets.
    destruct (msr_read_frame (fun _ _ => 0) (map fst m0)) with (s := msr_init hw faults) as (_ & _ & E).
    { intros o Ho. apply in_map_iff in Ho as (e & <- & He). auto. }
    { apply Coh_init. }
    fold s in E. rewrite E. cbn [ms_intr msr_init]. unfold modify. eauto.
  Qed.

  Lemma prepare_shape rep both before props hw faults fs r w1 :
    printing_code sc before -> Forall (property_code env sc rep) props ->
    prepare env k both before props (w_init hw faults fs) = (r, w1) ->
    exists m0 s0, (forall e, In e m0 -> msr_read (fst e)) /\ (forall e, In e s0 -> sys_read (fst e)) /\
      ((exists e, r = Exn e) /\ moves (w_init hw faults fs) w1 m0 s0 \/
       exists m1 s1, moves (w_init hw faults fs) w1 (m0 ++ (OStart, true) :: m1) (s0 ++ (if both then [(SStart, true)] else []) ++ s1) /\
         (forall e, In e m1 -> Pm rep (fst e)) /\ forall e, In e s1 -> Ps (fst e)).
  Proof.
    intros Hb Hp E. unfold prepare in E. unfold mbind at 1 in E.
    destruct (perform env k before (w_init hw faults fs)) as [rb w2] eqn:Eb.
    destruct (perform_moves _ _ before Hb _ _ _ Eb) as (m0 & s0 & M0 & Hm0 & Hs0). exists m0, s0.
    split; [exact Hm0|]. split; [exact Hs0|].
    destruct rb as [ub|e]; [right|left; injection E as <- <-; eauto].
    unfold mbind at 1 in E.
    assert (S : exists w3 u, (if both then sys_call k SStart ;; ret tt else ret tt) w2 = (Ok u, w3) /\
                  moves w2 w3 [] (if both then [(SStart, true)] else []) /\ w_m w3 = w_m w2).
    { destruct both; [|exists w2, tt; split; [reflexivity|]; split; [apply moves_refl|reflexivity]].
      unfold mbind. destruct (sys_call k SStart w2) as [r3 w3] eqn:E3. destruct (sys_call_moves _ _ _ _ E3) as (M3 & St & Em).
      assert (Hr : S_Sysfs.reached k fs (map fst s0) s0 (w_s w2)).
      { split; [exact (mv_s _ _ _ _ M0)|]. rewrite <- (app_nil_r s0). apply (proj2 (reads_track s0 Hs0 (false, []))). exact I. }
      pose proof (reached_Inv k Hcs _ _ _ _ Hr) as HI.
      assert (Hi : ss_intr (w_s w2) = false).
      { rewrite (inv_intr _ _ HI). unfold known. now rewrite (proj1 (reads_track s0 Hs0 (false, []))). }
      cbn [sstep] in St. unfold s_start, mbind, gets in St. rewrite Hcs in St. cbn [negb] in St. rewrite Hi in St. cbn in St.
      destruct r3 as [v|e]; [|discriminate]. exists w3, tt. split; [reflexivity|]. split; [exact M3|exact Em]. }
    destruct S as (w3 & u & E3 & M3 & Em). rewrite E3 in E. unfold mbind at 1 in E.
    destruct (msr_call env OStart w3) as [r4 w4] eqn:E4. destruct (msr_call_moves _ _ _ _ E4) as (M4 & St & _).
    assert (Hr4 : is_ok r4 = true).
    { destruct (start_ok m0 hw faults Hm0) as (s' & Es). cbn [mstep] in St. unfold mbind in St.
      rewrite Em, <- (mv_m _ _ _ _ M0) in St. cbn [w_init w_m] in St. rewrite Es in St. injection St as <- _. reflexivity. }
    destruct r4 as [l4|e]; [|discriminate].
    destruct (props_moves _ _ props Hp _ _ _ E) as (m1 & s1 & M1 & Hm1 & Hs1).
    exists m1, s1. split; [|split; [exact Hm1|exact Hs1]].
    pose proof (moves_trans _ _ _ _ _ _ _ M0 (moves_trans _ _ _ _ _ _ _ M3 (moves_trans _ _ _ _ _ _ _ M4 M1))) as M.
    cbn [app is_ok] in M. exact M.
  Qed.

  (** ** Who made the calls *)
  Lemma perform_plays p : forall w r w', perform env k p w = (r, w') -> exists t, w_ev w' = w_ev w ++ t /\ plays p t r.
  Proof.
    induction p as [r0|o c IH|o c IH]; cbn [perform]; intros w r w' E.
    - injection E as <- <-. exists []. rewrite app_nil_r. split; [reflexivity|constructor].
    - unfold msr_call in E. destruct (mstep env o (w_m w)) as [a m]. destruct (IH a _ _ _ E) as (t & E1 & H).
      exists (EMsr o a :: t). split; [rewrite E1; cbn [w_ev]; now rewrite <- app_assoc|now constructor].
    - unfold sys_call in E. destruct (sys_answer k o (w_s w)) as [a m]. destruct (IH a _ _ _ E) as (t & E1 & H).
      exists (ESys o a :: t). split; [rewrite E1; cbn [w_ev]; now rewrite <- app_assoc|now constructor].
  Qed.

  Lemma props_plays props : forall w r w', mfor props (perform env k) w = (r, w') ->
    exists ps ts, Forall2 (fun p t => plays p t (Ok tt)) ps ts /\
      (r = Ok tt /\ props = ps /\ w_ev w' = w_ev w ++ concat ts \/
       exists e p rest t, r = Exn e /\ props = ps ++ p :: rest /\ plays p t (Exn e) /\ w_ev w' = w_ev w ++ concat ts ++ t).
  Proof.
    induction props as [|p props IH]; intros w r w' E; cbn [mfor] in E.
    - injection E as <- <-. exists [], []. split; [constructor|]. left. cbn. rewrite app_nil_r. auto.
    - unfold mbind in E. destruct (perform env k p w) as [[[]|e] w1] eqn:E1; destruct (perform_plays p _ _ _ E1) as (t & Et & Hp).
      + destruct (IH _ _ _ E) as (ps & ts & F & [(-> & -> & Ew)|(e & q & rest & t2 & -> & -> & Hq & Ew)]).
        * exists (p :: ps), (t :: ts). split; [now constructor|]. left. cbn [concat]. rewrite Ew, Et, app_assoc. auto.
        * exists (p :: ps), (t :: ts). split; [now constructor|]. right. exists e, q, rest, t2. cbn [concat]. rewrite Ew, Et, !app_assoc. auto.
      + injection E as <- <-. exists [], []. split; [constructor|]. right. exists e, p, props, t. cbn. auto.
  Qed.

  Lemma C61_each_l rep both before props hw faults fs r w1 :
    printing_code sc before -> Forall (property_code env sc rep) props ->
    prepare env k both before props (w_init hw faults fs) = (r, w1) ->
    exists t0,
      (exists e, r = Exn e /\ w_ev w1 = t0 /\ plays before t0 (Exn e)) \/
      plays before t0 (Ok tt) /\
      exists ps ts, Forall2 (fun p t => plays p t (Ok tt)) ps ts /\
        (r = Ok tt /\ props = ps /\ w_ev w1 = t0 ++ opening both ++ concat ts \/
         exists e p rest t, r = Exn e /\ props = ps ++ p :: rest /\ plays p t (Exn e) /\
           w_ev w1 = t0 ++ opening both ++ concat ts ++ t).
  Proof.
    intros Hb Hp E. unfold prepare in E. unfold mbind at 1 in E.
    destruct (perform env k before (w_init hw faults fs)) as [rb w2] eqn:Eb.
    destruct (perform_plays before _ _ _ Eb) as (t0 & Et & Hpl). cbn [w_init w_ev app] in Et. exists t0.
    destruct (perform_moves _ _ before Hb _ _ _ Eb) as (m0 & s0 & M0 & Hm0 & Hs0).
    destruct rb as [[]|e]; [right|left; exists e; injection E as <- <-; auto].
    split; [exact Hpl|]. unfold mbind at 1 in E.
    assert (S : exists w3 u, (if both then sys_call k SStart ;; ret tt else ret tt) w2 = (Ok u, w3) /\ w_m w3 = w_m w2 /\
       w_ev w3 = t0 ++ (if both then [ESys SStart (Ok [])] else [])).
    { destruct both; [|exists w2, tt; rewrite app_nil_r; auto].
      assert (Hr : S_Sysfs.reached k fs (map fst s0) s0 (w_s w2)).
      { split; [exact (mv_s _ _ _ _ M0)|]. rewrite <- (app_nil_r s0). apply (proj2 (reads_track s0 Hs0 (false, []))). exact I. }
      pose proof (reached_Inv k Hcs _ _ _ _ Hr) as HI.
      assert (Hi : ss_intr (w_s w2) = false).
      { rewrite (inv_intr _ _ HI). unfold known. now rewrite (proj1 (reads_track s0 Hs0 (false, []))). }
      unfold mbind, sys_call. cbn [sys_answer sstep]. unfold s_start. rewrite Hcs. cbn [negb]. unfold mbind, ret, modify, gets. rewrite Hi.
      eexists _, tt. split; [reflexivity|]. split; [reflexivity|]. cbn [w_ev]. now rewrite Et. }
    destruct S as (w3 & u & S & Sm & Se). rewrite S in E. unfold mbind at 1 in E.
    destruct (msr_call env OStart w3) as [r4 w4] eqn:E4.
    unfold msr_call in E4. destruct (mstep env OStart (w_m w3)) as [a m] eqn:St.
    destruct (start_ok m0 hw faults Hm0) as (s' & Es). cbn [mstep] in St. unfold mbind in St.
    rewrite Sm, <- (mv_m _ _ _ _ M0) in St. cbn [w_init w_m] in St. rewrite Es in St. injection St as <- <-.
    injection E4 as <- <-.
    destruct (props_plays props _ _ _ E) as (ps & ts & F & H). exists ps, ts. split; [exact F|].
    cbn [w_ev] in H. unfold opening. rewrite Se in H.
    destruct H as [(-> & -> & Ew)|(e & p & rest & t & -> & -> & Hq & Ew)]; [left|right; exists e, p, rest, t];
      rewrite Ew, <- !app_assoc; auto.
  Qed.
End Setter.
