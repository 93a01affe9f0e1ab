(** The 'tpmi read' and 'tpmi write' commands. *)
From Verif Require Import Base L_Base L_Monad M_Text S_Text L_Text M_Kver M_Osa M_CPUInfo M_MSR S_MSR L_Bits
  M_Tpmi S_Tpmi L_Tpmi L_Tpmi2 L_Tpmi3 L_Tpmi4 L_Tpmi5 L_Tpmi6 M_TpmiCmd S_TpmiCmd L_TpmiCmd L_TpmiCmd2 L_TpmiCmd3 L_TpmiCmd4.
From Coq Require Import ZifyBool.

Section Cmds.
  Variables (nm : tnames) (env : tenv) (created : list ((Z * Z) * dump)) (s0 : tstate).
  Hypothesis H0 : reached nm env created s0.

  (** ** Writing *)
  Lemma write_unfold x pk ins v : num_list (wa_packages x) = Ok pk -> num_list (wa_instances x) = Ok ins ->
    str_to_int (wa_value x) = Ok v -> forall s, tpmi_write env x s =
    iter_do env (wa_fname x) (wa_addrs x) pk ins (fun (out : list (Z * Z * Z)) addr package inst =>
         t_write_register env v (wa_fname x) addr inst (wa_reg x) (wa_bf x) ;; ret (out ++ [(addr, package, inst)])) [] s.
  Proof. intros E1 E2 E3 s. unfold tpmi_write. unfold mbind at 1, lift at 1. rewrite E1. unfold mbind at 1, lift at 1. rewrite E2. unfold mbind at 1, lift at 1. now rewrite E3. Qed.

  Lemma same_none l l' : same_filter l l' -> l = None <-> l' = None.
  Proof. destruct l, l'; cbn; intuition congruence. Qed.

  Lemma cmd_write x pk ins v rd out s' : typed (wa_packages x) pk -> typed (wa_instances x) ins -> typed_value (wa_value x) v ->
    reg_def env (wa_fname x) (wa_reg x) rd -> fits_in rd (wa_bf x) v -> tpmi_write env x s0 = (Ok out, s') ->
    (forall a p i, In (a, p, i) out -> asked_for nm env created s0 (wa_fname x) (wa_addrs x) pk ins a p i) /\
    ((ins = None -> uniform nm env created s0 (wa_fname x) (wa_addrs x) pk) ->
       forall a p i, asked_for nm env created s0 (wa_fname x) (wa_addrs x) pk ins a p i -> In (a, p, i) out) /\
    only_words (wa_fname x) (fun a i o => (exists p, In (a, p, i) out) /\ reg_word rd o) s0 s' /\
    all_written (wa_fname x) rd (wa_bf x) v (fun a i => exists p, In (a, p, i) out) s0 s'.
  Proof.
    intros Hp Hi Hv Hr Hf E. destruct (typed_run _ _ Hp) as (pk' & Ep & Sp). destruct (typed_run _ _ Hi) as (ins' & Ei & Si).
    rewrite (write_unfold x pk' ins' v Ep Ei (typed_value_run _ _ Hv)) in E.
    destruct (write_ok_run nm env created s0 H0 _ _ _ _ _ _ _ rd Hr Hf out s' E) as (R1 & R2 & R3 & R4).
    split; [|split; [|split; [exact R3|exact R4]]].
    - intros a p i H. apply (same_asked nm env created s0 _ _ _ _ _ _ a p i Sp Si). exact (R1 a p i H).
    - intros HU a p i H. apply R2.
      + intros En. apply (same_uniform _ _ _ _ _ _ _ _ Sp). apply HU. now apply (same_none _ _ Si).
      + now apply (same_asked nm env created s0 _ _ _ _ _ _ a p i Sp Si).
  Qed.

  Lemma cmd_write_only x pk ins : typed (wa_packages x) pk -> typed (wa_instances x) ins ->
    only_words (wa_fname x) (fun a i o => (exists p, asked_for nm env created s0 (wa_fname x) (wa_addrs x) pk ins a p i) /\
      exists rd, reg_def env (wa_fname x) (wa_reg x) rd /\ reg_word rd o) s0 (snd (tpmi_write env x s0)).
  Proof.
    intros Hp Hi. destruct (typed_run _ _ Hp) as (pk' & Ep & Sp). destruct (typed_run _ _ Hi) as (ins' & Ei & Si).
    destruct (str_to_int (wa_value x)) as [v|e] eqn:Ev.
    - rewrite (write_unfold x pk' ins' v Ep Ei Ev). eapply only_mono; [|apply (write_frame_run nm env created s0 H0)].
      cbn beta. intros a i o ((p & Ha) & Hrd). split; [|exact Hrd]. exists p. now apply (same_asked nm env created s0 _ _ _ _ _ _ a p i Sp Si).
    - unfold tpmi_write. unfold mbind at 1, lift at 1. rewrite Ep. unfold mbind at 1, lift at 1. rewrite Ei. unfold mbind at 1, lift at 1. rewrite Ev. apply only_refl.
  Qed.

  Lemma cmd_write_live x pk ins v rd : typed (wa_packages x) pk -> typed (wa_instances x) ins -> typed_value (wa_value x) v ->
    reg_def env (wa_fname x) (wa_reg x) rd -> fits_in rd (wa_bf x) v ->
    filters_fit nm env created s0 (wa_fname x) (wa_addrs x) pk ins ->
    (ins = None -> uniform nm env created s0 (wa_fname x) (wa_addrs x) pk) ->
    (forall a p i d, asked_for nm env created s0 (wa_fname x) (wa_addrs x) pk ins a p i ->
       dget pair_eqb (t_devs s0) (a, wa_fname x) = Some d -> exists old, reg_value d i rd old) ->
    exists out s', tpmi_write env x s0 = (Ok out, s').
  Proof.
    intros Hp Hi Hv Hr Hf Hff HU Hd. destruct (typed_run _ _ Hp) as (pk' & Ep & Sp). destruct (typed_run _ _ Hi) as (ins' & Ei & Si).
    rewrite (write_unfold x pk' ins' v Ep Ei (typed_value_run _ _ Hv)). apply (write_live_run nm env created s0 H0 _ _ _ _ _ _ _ rd Hr Hf).
    - exact (same_fit _ _ _ _ _ _ _ _ _ _ Sp Si Hff).
    - intros En. apply (same_uniform _ _ _ _ _ _ _ _ Sp). apply HU. now apply (same_none _ _ Si).
    - intros a p i d Ha. apply (Hd a p i d). now apply (same_asked nm env created s0 _ _ _ _ _ _ a p i Sp Si).
  Qed.

  (** Writes that are refused. *)
  Lemma rej_value s f a i r rd b v : tinv s -> reg_def env f r rd -> v < 0 \/ 2 ^ rd_width rd <= v ->
    exists e s', t_write_register env v f a i r b s = (Exn e, s') /\ t_devs s' = t_devs s.
  Proof.
    intros Hi Hr Hv. unfold t_write_register. unfold mbind at 1, lift at 1.
    destruct (validate_names env f a r b) as [[]|e]; [|eauto]. unfold mbind at 1.
    destruct (ro_validate_instance f a i s Hi) as [_ R2]. destruct (validate_instance f a i s) as [[[]|e] s1]; cbn [snd] in R2; [|eauto].
    unfold t_write_register0. rewrite (get_regdict_known _ _ _ _ Hr). unfold mbind at 1, lift at 1.
    destruct (v <? 0) eqn:E0; [exists EError, s1; auto|]. destruct Hv as [Hv|Hv]; [lia|].
    rewrite Z.shiftl_1_l. destruct (2 ^ rd_width rd - 1 <? v) eqn:E3; [exists EError, s1; auto|]. lia.
  Qed.

  Lemma rej_unknown s f a i r b v :
    (forall rd, reg_def env f r rd -> exists y, b = Some y /\ dget Z.eqb (rd_fields rd) y = None) ->
    exists e s', t_write_register env v f a i r b s = (Exn e, s') /\ t_devs s' = t_devs s.
  Proof.
    intros Hu. unfold t_write_register. unfold mbind at 1, lift at 1. destruct (validate_names env f a r b) as [[]|e] eqn:Ev; [|eauto].
    exfalso. unfold validate_names in Ev. destruct (dget Z.eqb (te_fmaps env) f) as [fm|]; [|discriminate].
    destruct (dget Z.eqb fm a) as [p|]; [|discriminate]. destruct (get_regdict env f r) as [rd|e] eqn:Er; [|discriminate].
    pose proof (regdict_def env f r rd Er) as Hr. destruct (Hu rd Hr) as (y & -> & Ey). cbn [rbind] in Ev.
    rewrite Ey in Ev. discriminate.
  Qed.

  Lemma cmd_rejected x pk ins v : typed (wa_packages x) pk -> typed (wa_instances x) ins -> typed_value (wa_value x) v ->
    (forall rd, reg_def env (wa_fname x) (wa_reg x) rd ->
       (v < 0 \/ 2 ^ rd_width rd <= v) \/ exists y, wa_bf x = Some y /\ dget Z.eqb (rd_fields rd) y = None) ->
    (forall out s', tpmi_write env x s0 = (Ok out, s') -> (ins = None -> uniform nm env created s0 (wa_fname x) (wa_addrs x) pk) ->
       forall a p i, ~ asked_for nm env created s0 (wa_fname x) (wa_addrs x) pk ins a p i) /\
    t_devs (snd (tpmi_write env x s0)) = t_devs s0.
  Proof.
    intros Hp Hi Hv Hbad. destruct (typed_run _ _ Hp) as (pk' & Ep & Sp). destruct (typed_run _ _ Hi) as (ins' & Ei & Si).
    rewrite (write_unfold x pk' ins' v Ep Ei (typed_value_run _ _ Hv)).
    destruct (write_reject_run nm env created s0 H0 (wa_fname x) (wa_reg x) (wa_bf x) v (wa_addrs x) pk' ins') as [R1 R2].
    - intros s a p i Ha Ht _. destruct (get_regdict env (wa_fname x) (wa_reg x)) as [rd|e] eqn:Er.
      + pose proof (regdict_def _ _ _ _ Er) as Hr. destruct (Hbad rd Hr) as [Hv'|Hu]; [now apply rej_value with rd|].
        apply rej_unknown. intros rd' Hr'. now rewrite (def_unique env _ _ _ _ Hr' Hr).
      + apply rej_unknown. intros rd Hr. rewrite (get_regdict_known _ _ _ _ Hr) in Er. discriminate.
    - split; [|exact R2]. intros out s' E HU a p i Ha. apply (R1 out s' E) with a p i.
      + intros En. apply (same_uniform _ _ _ _ _ _ _ _ Sp). apply HU. now apply (same_none _ _ Si).
      + now apply (same_asked nm env created s0 _ _ _ _ _ _ a p i Sp Si).
  Qed.

  (** ** Reading *)
  Variable x : rargs.
  Definition names_of (fd : list (Z * rdict)) : list Z :=
    match ra_regs x with Some l => l | None => filter (fun r => negb (ra_reserved x r)) (map fst fd) end.

  Lemma names_asked f fd r : dget Z.eqb (te_fdicts env) f = Some fd -> In r (names_of fd) <-> reg_asked env x f r.
  Proof.
    intros Ef. unfold names_of, reg_asked. destruct (ra_regs x) as [l|]; [tauto|]. rewrite filter_In, key_get. split.
    - intros [H1 H2]. destruct (dget Z.eqb fd r) as [rd|] eqn:Er; [|congruence]. exists rd. split; [|now apply negb_true_iff in H2].
      exists fd. auto.
    - intros (rd & (fd' & E1 & E2) & H). assert (fd' = fd) by congruence. subst fd'. rewrite E2, H. split; [discriminate|reflexivity].
  Qed.

  Notation fnames := (match ra_fnames x with Some l => l | None => map fst (te_fmaps env) end).
  Lemma feature_has f : feature_asked env s0 x f -> In f fnames.
  Proof.
    unfold feature_asked. destruct (ra_fnames x) as [l|]; [auto|]. rewrite key_get.
    destruct (reached_inv _ _ _ _ H0) as (Hi & Hl & Hef).
    intros (a & d & Hd). destruct (lay_back _ _ _ _ Hl Hd) as (dc & Hdc). destruct (ef_has _ _ _ Hef _ _ _ Hdc) as (fm & p & E & _). congruence.
  Qed.
  Lemma has_feature f a d : In f fnames -> dget pair_eqb (t_devs s0) (a, f) = Some d -> feature_asked env s0 x f.
  Proof. unfold feature_asked. destruct (ra_fnames x) as [l|]; [auto|]. eauto. Qed.

  Definition JF (pk ins : option (list Z)) (dn : list Z) (info : rinfo) (s : tstate) : Prop :=
    at0 s0 s /\
    (forall f fi, dget Z.eqb info f = Some fi -> In f dn /\ exists fd, dget Z.eqb (te_fdicts env) f = Some fd /\
       told env nm created s0 x f (names_of fd) (ra_addrs x) pk ins fi) /\
    (forall f, In f dn -> dget Z.eqb info f <> None).

  Lemma JF_add pk ins dn info s s1 f fd fi : JF pk ins dn info s -> at0 s0 s1 -> dget Z.eqb (te_fdicts env) f = Some fd ->
    told env nm created s0 x f (names_of fd) (ra_addrs x) pk ins fi -> JF pk ins (dn ++ [f]) (dset Z.eqb info f fi) s1.
  Proof.
    intros (_ & A1 & A2) Hs1 Ef Ht. split; [exact Hs1|]. split.
    - intros g gi Hg. destruct (Z.eq_dec g f) as [->|Hn].
      + rewrite (dget_dset_same _ Zeqb_spec) in Hg. injection Hg as <-. split; [apply in_or_app; right; now left|]. eauto.
      + rewrite (dget_dset_other _ Zeqb_spec) in Hg by exact Hn. destruct (A1 g gi Hg) as [B1 B2]. split; [apply in_or_app; now left|exact B2].
    - intros g Hg. destruct (Z.eq_dec g f) as [->|Hn]; [rewrite (dget_dset_same _ Zeqb_spec); discriminate|].
      rewrite (dget_dset_other _ Zeqb_spec) by exact Hn. apply A2. apply in_app_or in Hg as [H|[H|[]]]; [exact H|congruence].
  Qed.

  Lemma features_post pk ins : forall l dn info s, JF pk ins dn info s ->
    post (mfold (read_feature env x pk ins) l info) s (fun info' s' => JF pk ins (dn ++ l) info' s') (fun _ _ => True).
  Proof.
    induction l as [|f l IH]; intros dn info s HJ; cbn [mfold]; [apply post_ret; now rewrite app_nil_r|].
    apply post_bind. unfold read_feature at 1. apply post_bind. apply post_lift; [|auto]. intros fd Efd.
    destruct (dget Z.eqb (te_fdicts env) f) as [fd0|] eqn:Ef; [|discriminate]. injection Efd as ->.
    apply post_bind. eapply post_conseq; [apply (read_devices_post env (env_tables _ _ _ _ H0) nm created s0 H0 x f (names_of fd) (ra_addrs x) pk ins s (proj1 HJ))|cbn beta|auto].
    intros fi s1 (K1 & K2). apply post_ret. replace (dn ++ f :: l) with ((dn ++ [f]) ++ l) by now rewrite <- app_assoc.
    apply IH. eapply JF_add; eassumption.
  Qed.

  Lemma JF_init pk ins : JF pk ins [] [] s0.
  Proof.
    destruct (reached_inv _ _ _ _ H0) as (Hi & _). split; [split; [exact Hi|reflexivity]|]. split; [discriminate|intros f []].
  Qed.

  Lemma cmd_read pk ins out s' : typed (ra_packages x) pk -> typed (ra_instances x) ins -> tpmi_read env x s0 = (Ok out, s') ->
    (forall f a p i r v fl, tells_reg out f a p i r v fl ->
       feature_asked env s0 x f /\ asked_for nm env created s0 f (ra_addrs x) pk ins a p i /\ reg_asked env x f r /\
       exists d rd, dget pair_eqb (t_devs s0) (a, f) = Some d /\ reg_def env f r rd /\ reg_value d i rd v /\ fields_told x rd v fl) /\
    (forall f a p i r, feature_asked env s0 x f -> (ins = None -> uniform nm env created s0 f (ra_addrs x) pk) ->
       asked_for nm env created s0 f (ra_addrs x) pk ins a p i -> reg_asked env x f r -> exists v fl, tells_reg out f a p i r v fl).
  Proof.
    intros Hp Hi E. destruct (typed_run _ _ Hp) as (pk' & Ep & Sp). destruct (typed_run _ _ Hi) as (ins' & Ei & Si).
    unfold tpmi_read in E.
    assert (E2 : exists info, mfold (read_feature env x pk' ins') fnames [] s0 = (Ok info, s') /\ out = info).
    { destruct (ra_regs x), (ra_bfs x); try discriminate;
      (unfold mbind at 1, lift at 1 in E; rewrite Ep in E; unfold mbind at 1, lift at 1 in E; rewrite Ei in E; unfold mbind in E;
       destruct (mfold (read_feature env x pk' ins') fnames [] s0) as [[info|e] s1]; [|discriminate];
       destruct info as [|e0 info]; [discriminate|]; unfold ret in E; injection E as <- <-; eauto). }
    destruct E2 as (info & E2 & ->). pose proof (features_post pk' ins' fnames [] [] s0 (JF_init pk' ins')) as P.
    unfold post in P. rewrite E2 in P. cbn [app] in P. destruct P as (_ & A1 & A2). split.
    - intros f a p i r v fl (devs & insts & regs & T1 & T2 & T3 & T4). destruct (A1 f devs T1) as (Hin & fd & Efd & (B1 & _)).
      destruct (B1 a p insts i regs T2 T3) as (Ha & (C1 & _)). destruct (C1 r v fl T4) as (Hn & d & rd & D1 & D2).
      split; [exact (has_feature f a d Hin D1)|]. split; [now apply (same_asked nm env created s0 _ _ _ _ _ _ a p i Sp Si)|].
      split; [now apply (names_asked f fd r Efd)|]. exists d, rd. split; [exact D1|exact D2].
    - intros f a p i r Hf HU Ha Hr. apply feature_has in Hf. pose proof (A2 f Hf) as Hg.
      destruct (dget Z.eqb info f) as [fi|] eqn:Eg; [|congruence]. destruct (A1 f fi Eg) as (_ & fd & Efd & (B1 & B2)).
      assert (HU' : ins' = None -> uniform nm env created s0 f (ra_addrs x) pk').
      { intros En. apply (same_uniform _ _ _ _ _ _ _ _ Sp). apply HU. now apply (same_none _ _ Si). }
      assert (Ha' : asked_for nm env created s0 f (ra_addrs x) pk' ins' a p i) by now apply (same_asked nm env created s0 _ _ _ _ _ _ a p i Sp Si).
      destruct (B2 HU' a p i Ha') as (insts & regs & T2 & T3). destruct (B1 a p insts i regs T2 T3) as (_ & (_ & C2)).
      apply (names_asked f fd r Efd) in Hr. pose proof (C2 r Hr) as Hg2. destruct (dget Z.eqb regs r) as [[v fl]|] eqn:Er; [|congruence].
      exists v, fl, fi, insts, regs. auto.
  Qed.

  Lemma iter_unchanged f addrs pk ins (A : Type) (body : A -> Z -> Z -> Z -> M tstate A) acc s :
    (forall acc a p i, ro (body acc a p i)) -> at0 s0 s -> at0 s0 (snd (iter_do env f addrs pk ins body acc s)).
  Proof.
    intros Hb Hs. pose proof (iter_do_post nm env created s0 H0 f A body (fun _ _ s => at0 s0 s) (fun _ s => at0 s0 s) (fun _ _ _ _ => True)) as Q.
    specialize (Q ltac:(intros dn a0 s1 [K1 K2]; split; [exact K1|rewrite K2; apply lay_refl])).
    specialize (Q ltac:(intros dn a0 s1 s2 [K1 K2] K3 K4; split; [exact K3|congruence])).
    assert (B : forall (dn : list (Z * Z * Z)) acc s a p i, at0 s0 s -> True ->
      post (body acc a p i) s (fun _ s' => at0 s0 s') (fun _ s' => at0 s0 s')).
    { intros dn a0 s1 a p i [K1 K2] _. destruct (Hb a0 a p i s1 K1) as [R1 R2]. unfold post.
      destruct (body a0 a p i s1) as [[b|e] s2]; cbn [snd] in R1, R2; (split; [exact R1|congruence]). }
    specialize (Q B addrs pk ins acc s Hs (fun _ _ _ _ _ _ _ _ _ _ _ => I)). unfold post in Q.
    destruct (iter_do env f addrs pk ins body acc s) as [[b|e] s']; cbn [snd].
    - destruct Q as (_ & _ & _ & Q). exact Q.
    - destruct Q as [Q|((dn & a0 & Q) & _)]; exact Q.
  Qed.

  Lemma cmd_read_ro : at0 s0 (snd (tpmi_read env x s0)).
  Proof.
    destruct (reached_inv _ _ _ _ H0) as (Hi & _). assert (Hs : at0 s0 s0) by (split; [exact Hi|reflexivity]).
    assert (G : forall pk ins l info s, at0 s0 s -> at0 s0 (snd (mfold (read_feature env x pk ins) l info s))).
    { intros pk ins. induction l as [|f l IH]; intros info s H; [exact H|]. cbn [mfold]. unfold mbind at 1.
      assert (K : at0 s0 (snd (read_feature env x pk ins info f s))).
      { unfold read_feature. unfold mbind at 1, lift at 1. destruct (dget Z.eqb (te_fdicts env) f) as [fd|]; [|exact H].
        unfold mbind at 1.
        pose proof (iter_unchanged f (ra_addrs x) pk ins _ (read_instance env x f (names_of fd)) [] s) as Q.
        assert (R : forall acc a p i, ro (read_instance env x f (names_of fd) acc a p i)).
        { intros acc a p i. unfold read_instance. cbv zeta.
          match goal with |- ro (match ?d with _ => _ end) => destruct d end; [apply ro_throw|]. apply ro_bind; [|intros; apply ro_ret].
          apply ro_mfold. intros regs r. unfold read_reg. apply ro_bind; [apply ro_read_register|]. intros v.
          destruct (dget Z.eqb regs r); [apply ro_throw|]. apply ro_bind; [apply ro_lift|intros; apply ro_ret]. }
        specialize (Q R H). unfold names_of in Q. destruct (iter_do env f (ra_addrs x) pk ins _ [] s) as [[fi|e] s1]; exact Q. }
      destruct (read_feature env x pk ins info f s) as [[info'|e] s1]; [now apply IH|exact K]. }
    assert (W : at0 s0 (snd ((let! packages := lift (num_list (ra_packages x)) in
        let! instances := lift (num_list (ra_instances x)) in
        let! info := mfold (read_feature env x packages instances) fnames [] in
        match info with [] => throw EError | _ => ret info end) s0))).
    { unfold mbind at 1, lift at 1. destruct (num_list (ra_packages x)) as [pk|]; [|exact Hs].
      unfold mbind at 1, lift at 1. destruct (num_list (ra_instances x)) as [ins|]; [|exact Hs]. unfold mbind.
      specialize (G pk ins fnames [] s0 Hs). destruct (mfold (read_feature env x pk ins) fnames [] s0) as [[info|e] s1]; [|exact G].
      destruct info; exact G. }
    unfold tpmi_read. destruct (ra_regs x), (ra_bfs x); try exact W. exact Hs.
  Qed.

  Lemma cmd_read_live pk ins l : typed_once (ra_packages x) pk -> typed_once (ra_instances x) ins ->
    ra_fnames x = Some l -> l <> [] -> keys_once env -> read_once x -> (ra_bfs x <> None -> ra_regs x <> None) ->
    (forall f, In f l -> dget Z.eqb (te_fdicts env) f <> None /\ filters_fit nm env created s0 f (ra_addrs x) pk ins /\
       (ins = None -> uniform nm env created s0 f (ra_addrs x) pk)) ->
    (forall f a p i d r, In f l -> asked_for nm env created s0 f (ra_addrs x) pk ins a p i -> dget pair_eqb (t_devs s0) (a, f) = Some d ->
       reg_asked env x f r -> exists rd v, reg_def env f r rd /\ reg_value d i rd v /\
         forall bl b, ra_bfs x = Some bl -> In b bl -> ra_reserved x b = false -> dget Z.eqb (rd_fields rd) b <> None) ->
    exists out s', tpmi_read env x s0 = (Ok out, s').
  Proof.
    intros Hp Hi El Hl Hk [Ho1 Ho2] Hbf Hf Hr. pose proof (typed_once_run _ _ Hp) as Ep. pose proof (typed_once_run _ _ Hi) as Ei.
    destruct (reached_inv _ _ _ _ H0) as (Hti & _). assert (Hs : at0 s0 s0) by (split; [exact Hti|reflexivity]).
    assert (G : forall l', incl l' l -> forall info s, at0 s0 s -> exists info' s', mfold (read_feature env x pk ins) l' info s = (Ok info', s') /\
              (info <> [] \/ l' <> [] -> info' <> [])).
    { induction l' as [|f l' IH]; intros Hin info s H; cbn [mfold].
      - exists info, s. split; [reflexivity|]. intros [K|K]; [exact K|congruence].
      - destruct (Hf f ltac:(apply Hin; now left)) as (F1 & F2 & F3).
        destruct (dget Z.eqb (te_fdicts env) f) as [fd|] eqn:Efd; [|congruence].
        destruct (read_devices_live env (env_tables _ _ _ _ H0) nm created s0 H0 x f (names_of fd) (ra_addrs x) pk ins s H F2 F3) as (fi & s1 & E1 & H1).
        + intros l0 [K|[K|K]]; [now apply Ho2|exact (typed_once_nodup _ _ Hp l0 K)|exact (typed_once_nodup _ _ Hi l0 K)].
        + unfold names_of. destruct (ra_regs x) as [rl|] eqn:Er; [now apply Ho1|]. apply NoDup_filter. exact (Hk f fd Efd).
        + intros a p i d r Ha Hd Hnm. apply (Hr f a p i d r ltac:(apply Hin; now left) Ha Hd). now apply (names_asked f fd r Efd).
        + assert (E : read_feature env x pk ins info f s = (Ok (dset Z.eqb info f fi), s1)).
          { unfold read_feature. unfold mbind at 1, lift at 1. rewrite Efd. unfold mbind at 1. unfold names_of in E1. now rewrite E1. }
          unfold mbind at 1. rewrite E. destruct (IH ltac:(intros y Hy; apply Hin; now right) (dset Z.eqb info f fi) s1 H1) as (info' & s' & E2 & K2).
          exists info', s'. split; [exact E2|]. intros _. apply K2. left. intros En.
          pose proof (dget_dset_same _ Zeqb_spec info f fi) as Eg. now rewrite En in Eg. }
    destruct (G l ltac:(intros y; auto) [] s0 Hs) as (info & s' & E & Hne). exists info, s'.
    assert (W : (let! packages := lift (num_list (ra_packages x)) in
        let! instances := lift (num_list (ra_instances x)) in
        let! info := mfold (read_feature env x packages instances) fnames [] in
        match info with [] => throw EError | _ => ret info end) s0 = (Ok info, s')).
    { unfold mbind at 1, lift at 1. rewrite Ep. unfold mbind at 1, lift at 1. rewrite Ei. unfold mbind. rewrite El, E.
      specialize (Hne (or_intror Hl)). destruct info; [congruence|reflexivity]. }
    unfold tpmi_read. destruct (ra_regs x), (ra_bfs x); try exact W. exfalso. apply Hbf; congruence.
  Qed.
End Cmds.
