(** Lemmas about TPMI: register access and iteration in every reachable state. *)
From Verif Require Import Base L_Base L_Monad M_Text S_Text L_Text M_Kver M_Osa M_CPUInfo M_MSR S_MSR L_Bits
  M_Tpmi S_Tpmi L_Tpmi L_Tpmi2 L_Tpmi3 L_Tpmi4 L_Tpmi5.
From Coq Require Import ZifyBool.

Section Access.
  Variables (nm : tnames) (env : tenv) (created : list ((Z * Z) * dump)).

  Lemma C35_read_l s f a i r rd d v : reached nm env created s -> dget pair_eqb (t_devs s) (a, f) = Some d ->
    reg_def env f r rd -> reg_value d i rd v ->
    exists s', t_read_register env f a i r None s = (Ok v, s') /\ t_devs s' = t_devs s.
  Proof.
    intros H E Hr Hv. destruct (reached_known _ _ _ _ _ _ _ _ _ H E Hr) as [Hk Hok].
    destruct (read_run env f a i r None s d rd v) as (s' & _ & K2 & K3); try assumption; [apply (reached_inv _ _ _ _ H)|exact I|].
    eauto.
  Qed.

  Lemma C35_read_field_l s f a i r rd d v b sm hl : reached nm env created s -> dget pair_eqb (t_devs s) (a, f) = Some d ->
    reg_def env f r rd -> reg_value d i rd v -> dget Z.eqb (rd_fields rd) b = Some sm -> mask_of hl sm ->
    exists x s', t_read_register env f a i r (Some b) s = (Ok x, s') /\ is_field hl v x /\ t_devs s' = t_devs s.
  Proof.
    intros H E Hr Hv Hb Hm. destruct (reached_known _ _ _ _ _ _ _ _ _ H E Hr) as [Hk Hok].
    destruct (read_run env f a i r (Some b) s d rd v) as (s' & _ & K2 & K3); try assumption;
      [apply (reached_inv _ _ _ _ H)|congruence|].
    rewrite Hb in K3. exists (get_bitfield v sm), s'. split; [exact K3|]. split; [now apply get_bitfield_field|exact K2].
  Qed.

  Definition only_dev (s s' : tstate) (k : Z * Z) (d' : dump) : Prop :=
    dget pair_eqb (t_devs s') k = Some d' /\
    forall k', k' <> k -> dget pair_eqb (t_devs s') k' = dget pair_eqb (t_devs s) k'.

  Lemma C35_write_l s f a i r rd d v old : reached nm env created s -> dget pair_eqb (t_devs s) (a, f) = Some d ->
    reg_def env f r rd -> reg_value d i rd old -> 0 <= v < 2 ^ rd_width rd ->
    exists s' d', t_write_register env v f a i r None s = (Ok tt, s') /\
      dget pair_eqb (t_devs s') (a, f) = Some d' /\
      (forall k', k' <> (a, f) -> dget pair_eqb (t_devs s') k' = dget pair_eqb (t_devs s) k') /\
      reg_changed d d' i rd v.
  Proof.
    intros H E Hr Hv Hrange. destruct (reached_known _ _ _ _ _ _ _ _ _ H E Hr) as [Hk Hok].
    destruct (write_run env f a i r None v s d rd old) as (s' & d' & K1 & _ & K3 & K4); try assumption; try exact I;
      [apply (reached_inv _ _ _ _ H)|].
    exists s', d'. split; [exact K1|]. rewrite K3. split; [apply (dget_dset_same _ pair_eqb_spec)|]. split; [|exact K4].
    intros k' Hk'. now apply (dget_dset_other _ pair_eqb_spec).
  Qed.

  Lemma fits_width b v n : 0 <= snd b <= fst b -> fst b < n -> fits b v -> 0 <= v < 2 ^ n.
  Proof.
    intros Hb Hn [H0 H1]. split; [exact H0|]. eapply Z.lt_le_trans; [exact H1|]. apply Z.pow_le_mono_r; [lia|].
    unfold field_width. lia.
  Qed.

  Lemma C35_write_field_l s f a i r rd d v old b sm hl : reached nm env created s ->
    dget pair_eqb (t_devs s) (a, f) = Some d -> reg_def env f r rd -> reg_value d i rd old ->
    dget Z.eqb (rd_fields rd) b = Some sm -> mask_of hl sm -> fst hl < rd_width rd -> fits hl v ->
    exists s' d' new, t_write_register env v f a i r (Some b) s = (Ok tt, s') /\
      dget pair_eqb (t_devs s') (a, f) = Some d' /\
      (forall k', k' <> (a, f) -> dget pair_eqb (t_devs s') k' = dget pair_eqb (t_devs s) k') /\
      reg_changed d d' i rd new /\ is_set hl v old new /\
      exists s2, t_read_register env f a i r (Some b) s' = (Ok v, s2) /\ t_devs s2 = t_devs s'.
  Proof.
    intros H E Hr Hv Hb Hm Hhl Hf. destruct (reached_known _ _ _ _ _ _ _ _ _ H E Hr) as [Hk Hok].
    destruct (reached_inv _ _ _ _ H) as (Hi & _).
    destruct (write_run env f a i r (Some b) v s d rd old) as (s' & d' & K1 & K2 & K3 & K4); try assumption.
    { eapply fits_width; [apply Hm|exact Hhl|exact Hf]. }
    { congruence. }
    { rewrite Hb. apply (set_bitfield_range hl); try assumption. eapply reg_value_range; [|exact Hv]. apply (proj1 Hi _ _ E). }
    rewrite Hb in K4. exists s', d', (set_bitfield old v sm). split; [exact K1|]. rewrite K3.
    split; [apply (dget_dset_same _ pair_eqb_spec)|]. split; [intros k' Hk'; now apply (dget_dset_other _ pair_eqb_spec)|].
    split; [exact K4|]. pose proof (set_bitfield_set hl sm old v Hm Hf) as Hset. split; [exact Hset|].
    assert (Hr' : reached nm env created s').
    { replace s' with (snd (t_write_register env v f a i r (Some b) s)) by now rewrite K1. now apply R_write. }
    destruct (C35_read_field_l s' f a i r rd d' (set_bitfield old v sm) b sm hl) as (x & s2 & R1 & R2 & R3); try assumption.
    { rewrite K3. apply (dget_dset_same _ pair_eqb_spec). }
    { apply K4. }
    exists s2. rewrite <- K3. split; [|exact R3]. rewrite R1. do 2 f_equal.
    eapply (field_unique hl (set_bitfield old v sm)); [apply Hm|exact R2|]. split; [exact Hf|].
    intros n Hn. apply Hset; [|exact Hn]. destruct Hm as (_ & Hm & _). unfold in_field in Hn. lia.
  Qed.

  Lemma C35_write_read_l s f a i r rd d v old : reached nm env created s -> dget pair_eqb (t_devs s) (a, f) = Some d ->
    reg_def env f r rd -> reg_value d i rd old -> 0 <= v < 2 ^ rd_width rd ->
    forall s1, t_write_register env v f a i r None s = (Ok tt, s1) ->
    exists s2, t_read_register env f a i r None s1 = (Ok v, s2).
  Proof.
    intros H E Hr Hv Hrange s1 E1. destruct (C35_write_l _ _ _ _ _ _ _ _ _ H E Hr Hv Hrange) as (s' & d' & K1 & K2 & _ & K3).
    assert (s' = s1) by congruence. subst s'. destruct (C35_read_l s1 f a i r rd d' v) as (s2 & R & _); try assumption.
    - replace s1 with (snd (t_write_register env v f a i r None s)) by now rewrite K1. now apply R_write.
    - apply K3.
    - eauto.
  Qed.

  (** A value that does not fit into the register. *)
  Lemma C35_rejects_value_l s f a i r rd b v : reached nm env created s -> reg_def env f r rd ->
    v < 0 \/ 2 ^ rd_width rd <= v ->
    exists e s', t_write_register env v f a i r b s = (Exn e, s') /\ t_devs s' = t_devs s.
  Proof.
    intros H Hr Hv. destruct (reached_inv _ _ _ _ H) as (Hi & _ & Hef). unfold t_write_register. unfold mbind at 1, lift at 1.
    destruct (validate_names env f a r b) as [[]|e]; [|eauto]. unfold mbind at 1.
    destruct (ro_validate_instance f a i s Hi) as [_ R2]. destruct (validate_instance f a i s) as [[[]|e] s1]; cbn [snd] in R2; [|eauto].
    unfold t_write_register0. rewrite (get_regdict_known _ _ _ _ Hr). unfold mbind at 1, lift at 1.
    destruct (v <? 0) eqn:E0; [exists EError, s1; auto|]. destruct Hv as [Hv|Hv]; [lia|].
    destruct Hr as (fd & E1 & E2). pose proof (ef_tables _ _ _ Hef _ _ _ _ E1 E2) as (_ & _ & Hw & _).
    rewrite Z.shiftl_1_l. destruct (2 ^ rd_width rd - 1 <? v) eqn:E3; [exists EError, s1; auto|]. lia.
  Qed.

  (** Names and numbers that do not exist. *)
  Lemma C35_rejects_unknown_l s f a i r b v : reached nm env created s ->
    (forall d rd, dget pair_eqb (t_devs s) (a, f) = Some d -> reg_def env f r rd ->
       (forall x, b = Some x -> dget Z.eqb (rd_fields rd) x <> None) -> In i (map ds_inst d) -> False) ->
    (exists e s', t_write_register env v f a i r b s = (Exn e, s') /\ t_devs s' = t_devs s) /\
    (exists e s', t_read_register env f a i r b s = (Exn e, s') /\ t_devs s' = t_devs s).
  Proof.
    intros H Hno. destruct (reached_inv _ _ _ _ H) as (Hi & Hl & Hef).
    assert (G : (exists e, validate_names env f a r b = Exn e) \/
                validate_names env f a r b = Ok tt /\ exists s1, t_devs s1 = t_devs s /\ validate_instance f a i s = (Exn EError, s1)).
    { unfold validate_names. destruct (dget Z.eqb (te_fmaps env) f) as [fm|] eqn:Ef; [|eauto].
      destruct (dget Z.eqb fm a) as [p|] eqn:Ea; [|eauto]. destruct (get_regdict env f r) as [rd|e] eqn:Er; [|left; cbn; eauto].
      cbn [rbind]. assert (Hr : reg_def env f r rd).
      { unfold get_regdict in Er. destruct (dget Z.eqb (te_fdicts env) f) as [fd|] eqn:Efd; [|discriminate].
        destruct (dget Z.eqb fd r) as [rd0|] eqn:Erd; [|discriminate]. injection Er as ->. exists fd. auto. }
      assert (Hd : exists d0, dget pair_eqb created (a, f) = Some d0).
      { apply (proj1 (ef_maps _ _ _ Hef f a p)). eauto. }
      destruct Hd as (d0 & Hd0). pose proof (Hl (a, f)) as Hla. rewrite Hd0 in Hla.
      destruct (dget pair_eqb (t_devs s) (a, f)) as [d|] eqn:Ed; [|destruct Hla].
      assert (V : (forall x, b = Some x -> dget Z.eqb (rd_fields rd) x <> None) ->
                  exists s1, t_devs s1 = t_devs s /\ validate_instance f a i s = (Exn EError, s1)).
      { intros Hb. destruct (validate_instance_run f a i s d Hi Ed) as (s1 & _ & R2 & R3).
        destruct (inb i (map ds_inst d)) eqn:Ei.
        - exfalso. apply inb_In in Ei. eapply Hno; eauto.
        - eauto. }
      destruct b as [x|].
      - destruct (dget Z.eqb (rd_fields rd) x) as [sm|] eqn:Ex; [|eauto]. right. split; [reflexivity|]. apply V. congruence.
      - right. split; [reflexivity|]. apply V. discriminate. }
    unfold t_write_register, t_read_register.
    split; (destruct G as [[e Ev]|[Ev (s1 & K1 & K2)]]; unfold mbind at 1, lift at 1; rewrite Ev;
      [eauto|unfold mbind at 1; rewrite K2; eauto]).
  Qed.

  (** A failed write changes nothing, when registers are not cut off by the end of the device. *)
  Lemma write_words_succeeds a f i rd v s d : tinv s -> dget pair_eqb (t_devs s) (a, f) = Some d -> reg_ok rd ->
    (exists x, reg_value d i rd x) ->
    exists s', t_write_words (Z.to_nat (rd_width rd)) a f i (rd_offset rd) (rd_width rd) v s = (Ok tt, s').
  Proof.
    intros Hi E Hok (x & Hx).
    assert (Hlow : forall v, 0 <= Z.land v 0xffffffff < 2 ^ 32).
    { intros w. change 0xffffffff with (Z.ones 32). rewrite Z.land_ones by lia. apply Z.mod_pos_bound. lia. }
    destruct Hx as [(Ew & Hx)|(Ew & lo & hi & Hlo & Hhi & _)]; rewrite Ew in *.
    - destruct (t_poke_run a f i (rd_offset rd) (Z.land v 0xffffffff) s d Hi E ltac:(eauto) (Hlow v)) as (d' & P & _).
      eexists. change (Z.to_nat 32) with (S (S 30)). cbn [t_write_words]. change (0 <? 32) with true. cbv iota.
      unfold mbind at 1. rewrite P. change (0 <? 32 - 32) with false. cbv iota. reflexivity.
    - destruct (t_poke_run a f i (rd_offset rd) (Z.land v 0xffffffff) s d Hi E ltac:(eauto) (Hlow v)) as (d' & P & Hi' & _ & _ & _ & Hf).
      set (s1 := TS (dset pair_eqb (t_devs s) (a, f) d') (t_mds s)) in *.
      assert (E1 : dget pair_eqb (t_devs s1) (a, f) = Some d') by apply (dget_dset_same _ pair_eqb_spec).
      destruct (t_poke_run a f i (rd_offset rd + 4) (Z.land (Z.shiftr v 32) 0xffffffff) s1 d' Hi' E1) as (d2 & P2 & _).
      { exists hi. apply Hf; [lia|exact Hhi]. }
      { apply Hlow. }
      eexists. change (Z.to_nat 64) with (S (S (S 61))). cbn [t_write_words]. change (0 <? 64) with true. cbv iota.
      unfold mbind at 1. rewrite P. change (0 <? 64 - 32) with true. cbv iota. unfold mbind at 1. rewrite P2.
      change (0 <? 64 - 32 - 32) with false. cbv iota. reflexivity.
  Qed.

  Lemma C35_failed_unchanged_l s f a i r b v e s' : reached nm env created s ->
    (forall d rd lo, dget pair_eqb (t_devs s) (a, f) = Some d -> reg_def env f r rd -> rd_width rd = 64 ->
       holds d i (rd_offset rd) lo -> exists hi, holds d i (rd_offset rd + 4) hi) ->
    t_write_register env v f a i r b s = (Exn e, s') -> t_devs s' = t_devs s.
  Proof.
    intros H Hcut E. destruct (reached_inv _ _ _ _ H) as (Hi & Hl & Hef). unfold t_write_register in E.
    unfold mbind at 1, lift at 1 in E. destruct (validate_names env f a r b) as [[]|e0] eqn:Ev; [|injection E as _ <-; reflexivity].
    unfold mbind at 1 in E. destruct (ro_validate_instance f a i s Hi) as [R1 R2].
    destruct (validate_instance f a i s) as [[[]|e0] s1]; cbn [snd] in *; [|injection E as _ <-; exact R2].
    unfold t_write_register0 in E. unfold mbind at 1, lift at 1 in E.
    destruct (get_regdict env f r) as [rd|e0] eqn:Er; [|injection E as _ <-; exact R2].
    destruct (v <? 0); [injection E as _ <-; exact R2|]. destruct (_ <? v); [injection E as _ <-; exact R2|].
    unfold mbind at 1 in E. destruct (t_get_mdmap_run f a s1 R1) as (s2 & T1 & T2 & T3). rewrite T3 in E.
    destruct (dget pair_eqb (t_devs s1) (a, f)) as [d|] eqn:Ed; [|injection E as _ <-; congruence].
    unfold mbind at 1, lift at 1 in E.
    destruct (validate_instance_offset (exp_md 0 d) i (rd_offset rd)) as [pp|e0] eqn:Eo; [|injection E as _ <-; congruence].
    unfold mbind at 1 in E.
    match type of E with (match ?m s2 with _ => _ end) = _ => assert (Rm : ro m) end.
    { destruct b; [|apply ro_ret]. apply ro_bind; [apply ro_read0|]. intros. apply ro_bind; [apply ro_lift|]. intros. apply ro_ret. }
    match type of E with (match ?m s2 with _ => _ end) = _ => destruct (Rm s2 T1) as [U1 U2]; destruct (m s2) as [[new|e0] s3] end;
      cbn [snd] in *; [|injection E as _ <-; congruence].
    exfalso. assert (Hr : reg_def env f r rd).
    { unfold get_regdict in Er. destruct (dget Z.eqb (te_fdicts env) f) as [fd|] eqn:Efd; [|discriminate].
      destruct (dget Z.eqb fd r) as [rd0|] eqn:Erd; [|discriminate]. injection Er as ->. exists fd. auto. }
    assert (Hok : reg_ok rd).
    { destruct Hr as (fd & E1 & E2). exact (ef_tables _ _ _ Hef _ _ _ _ E1 E2). }
    assert (Hd : dump_ok d) by (apply (proj1 R1 _ _ Ed)).
    assert (Hlo : exists lo, holds d i (rd_offset rd) lo).
    { apply word_exists_spec. destruct (word_exists d i (rd_offset rd)) eqn:Ew; [reflexivity|].
      assert (Hno : forall x, ~ holds d i (rd_offset rd) x).
      { intros x Hx. assert (word_exists d i (rd_offset rd) = true) by (apply word_exists_spec; eauto). congruence. }
      destruct (C34_only_l d i (rd_offset rd) [] Hd Hno) as (md & Eb & Em). rewrite build_show in Eb by exact Hd. injection Eb as <-.
      unfold read_text in Em. rewrite Eo in Em. cbn [rbind] in Em.
      assert (Hn : str_to_int16 (firstn 8 (skipn (Z.to_nat pp) [])) = Exn EBadFormat) by now rewrite skipn_nil.
      rewrite Hn in Em. discriminate. }
    destruct (write_words_succeeds a f i rd new s3 d U1 ltac:(congruence) Hok) as (s4 & E4).
    { destruct Hlo as (lo & Hlo). destruct Hok as (_ & _ & [Hw|Hw] & _).
      - exists lo. left. auto.
      - destruct (Hcut d rd lo ltac:(congruence) Hr Hw Hlo) as (hi & Hhi). exists (lo + 2 ^ 32 * hi). right. eauto 10. }
    rewrite E4 in E. discriminate.
  Qed.

  (** ** Iteration *)
  Definition insts_of (s : tstate) (f a : Z) : list Z :=
    match dget pair_eqb (t_devs s) (a, f) with Some d => map ds_inst d | None => [] end.

  Lemma mfor_validate f a d : forall l s, tinv s -> dget pair_eqb (t_devs s) (a, f) = Some d ->
    post (mfor l (fun i => validate_instance f a i)) s
      (fun _ s' => tinv s' /\ t_devs s' = t_devs s /\ incl l (map ds_inst d))
      (fun e s' => ~ incl l (map ds_inst d)).
  Proof.
    induction l as [|i l IH]; intros s Hi E; cbn [mfor].
    - apply post_ret. split; [exact Hi|]. split; [reflexivity|]. intros x [].
    - apply post_bind. destruct (validate_instance_run f a i s d Hi E) as (s1 & K1 & K2 & K3). unfold post at 1. rewrite K3.
      destruct (inb i (map ds_inst d)) eqn:Ei.
      + rewrite <- K2 in E. eapply post_conseq; [apply (IH s1 K1 E)| |].
        * intros _ s2 (R1 & R2 & R3). split; [exact R1|]. split; [congruence|]. apply inb_In in Ei. intros x [<-|Hx]; auto.
        * intros e s2 Hn Hc. apply Hn. intros x Hx. apply Hc. now right.
      + intros Hc. apply inb_false in Ei. apply Ei. apply Hc. now left.
  Qed.

  Lemma iter_device_post f a p ins out s d : tinv s -> dget pair_eqb (t_devs s) (a, f) = Some d ->
    let l := match ins with Some l => l | None => map ds_inst d end in
    post (iter_device f a p (ins, out)) s
      (fun r s' => tinv s' /\ t_devs s' = t_devs s /\ incl l (map ds_inst d) /\ r = (Some l, out ++ map (fun i => (a, p, i)) l))
      (fun e s' => ~ incl l (map ds_inst d)).
  Proof.
    intros Hi E l. unfold iter_device. apply post_bind.
    apply (post_conseq _ _ (fun l' s' => tinv s' /\ t_devs s' = t_devs s /\ incl l (map ds_inst d) /\ l' = l) _ (fun e s' => ~ incl l (map ds_inst d))).
    - destruct ins as [l0|]; subst l.
      + apply post_bind. eapply post_conseq; [apply (mfor_validate f a d l0 s Hi E)| |auto].
        intros _ s' (R1 & R2 & R3). apply post_ret. auto.
      + apply post_bind. destruct (t_get_mdmap_run f a s Hi) as (s1 & K1 & K2 & K3). unfold post at 1. rewrite K3, E.
        apply post_ret. split; [exact K1|]. split; [exact K2|]. split; [intros x Hx; exact Hx|]. apply exp_md_keys.
    - intros l' s' (R1 & R2 & R3 & ->). apply post_ret. auto.
    - auto.
  Qed.

  Lemma mfold_rets {A B} (l : list B) (a : A) (s : tstate) : mfold (fun a _ => ret a) l a s = (Ok a, s).
  Proof. induction l as [|x l IH]; [reflexivity|]. cbn [mfold]. unfold mbind, ret. exact IH. Qed.

  Definition pkg_is (fmap : list (Z * Z)) (ap : Z * Z) : bool :=
    match dget Z.eqb fmap (fst ap) with Some pkg => pkg =? snd ap | None => false end.
  Definition iter_step (f : Z) (fmap : list (Z * Z)) (st : option (list Z) * list (Z * Z * Z)) (ap : Z * Z) :=
    if pkg_is fmap ap then iter_device f (fst ap) (snd ap) st else ret st.

  Lemma mfold_app {A B} (g : A -> B -> M tstate A) l1 l2 a s :
    mfold g (l1 ++ l2) a s = (let! x := mfold g l1 a in mfold g l2 x) s.
  Proof.
    revert a s. induction l1 as [|x l1 IH]; intros a s; [reflexivity|]. cbn [mfold app]. unfold mbind in *.
    destruct (g a x s) as [[y|e] s1]; [apply IH|reflexivity].
  Qed.

  Lemma iter_flat f fmap plist : forall alist st s,
    mfold (fun st a => match dget Z.eqb fmap a with
                       | None => ret st
                       | Some pkg => mfold (fun st p => if pkg =? p then iter_device f a p st else ret st) plist st
                       end) alist st s =
    mfold (iter_step f fmap) (flat_map (fun a => map (pair a) plist) alist) st s.
  Proof.
    assert (G : forall a st s, match dget Z.eqb fmap a with
                       | None => ret st
                       | Some pkg => mfold (fun st p => if pkg =? p then iter_device f a p st else ret st) plist st
                       end s = mfold (iter_step f fmap) (map (pair a) plist) st s).
    { intros a. unfold iter_step, pkg_is. induction plist as [|p l IH]; intros st s; cbn [map mfold fst snd].
      - now destruct (dget Z.eqb fmap a).
      - destruct (dget Z.eqb fmap a) as [pkg|].
        + unfold mbind. destruct ((if pkg =? p then iter_device f a p st else ret st) s) as [[st1|e] s1]; [apply IH|reflexivity].
        + unfold mbind, ret at 2. apply IH. }
    induction alist as [|a l IH]; intros st s; [reflexivity|]. cbn [flat_map]. rewrite mfold_app. cbn [mfold].
    unfold mbind. rewrite G. destruct (mfold _ (map (pair a) plist) st s) as [[st1|e] s1]; [apply IH|reflexivity].
  Qed.

  Definition eff (s : tstate) (f : Z) (ins : option (list Z)) (sel : list (Z * Z)) : list Z :=
    match ins with Some l => l | None => match sel with [] => [] | ap :: _ => insts_of s f (fst ap) end end.
  Definition tuples (l : list Z) (sel : list (Z * Z)) : list (Z * Z * Z) :=
    flat_map (fun ap => map (fun i => (fst ap, snd ap, i)) l) sel.

  Lemma iter_steps f fmap : forall pairs ins out s, tinv s ->
    (forall a pkg, dget Z.eqb fmap a = Some pkg -> exists d, dget pair_eqb (t_devs s) (a, f) = Some d) ->
    let sel := filter (pkg_is fmap) pairs in let l := eff s f ins sel in
    post (mfold (iter_step f fmap) pairs (ins, out)) s
      (fun r s' => tinv s' /\ t_devs s' = t_devs s /\ (forall ap, In ap sel -> incl l (insts_of s f (fst ap))) /\
                   snd r = out ++ tuples l sel)
      (fun e s' => exists ap, In ap sel /\ ~ incl l (insts_of s f (fst ap))).
  Proof.
    induction pairs as [|[a p] pairs IH]; intros ins out s Hi Hdev sel l.
    - cbn [mfold]. apply post_ret. split; [exact Hi|]. split; [reflexivity|]. split; [intros ap []|]. cbn. now rewrite app_nil_r.
    - cbn [mfold]. apply post_bind. unfold iter_step at 1. subst sel l. cbn [filter].
      destruct (pkg_is fmap (a, p)) eqn:Ep.
      + cbn [fst snd]. assert (Hd : exists d, dget pair_eqb (t_devs s) (a, f) = Some d).
        { unfold pkg_is in Ep. cbn [fst] in Ep. destruct (dget Z.eqb fmap a) as [pkg|] eqn:Ea; [|discriminate]. eauto. }
        destruct Hd as (d & Ed). assert (Eio : insts_of s f a = map ds_inst d) by (unfold insts_of; now rewrite Ed).
        assert (El : match ins with Some l => l | None => map ds_inst d end = eff s f ins ((a, p) :: filter (pkg_is fmap) pairs)).
        { unfold eff. destruct ins; [reflexivity|]. cbn [fst]. now rewrite Eio. }
        eapply post_conseq; [apply (iter_device_post f a p ins out s d Hi Ed)| |].
        * intros r s1 (R1 & R2 & R3 & ->). rewrite El in *. set (l := eff s f ins ((a, p) :: filter (pkg_is fmap) pairs)) in *. clearbody l.
          eapply post_conseq; [apply (IH (Some l) _ s1 R1)| |].
          -- rewrite R2. exact Hdev.
          -- intros r s2 (S1 & S2 & S3 & S4). cbn [eff] in *. split; [exact S1|]. split; [congruence|]. split.
             ++ intros ap [<-|Hap]; cbn [fst]; [rewrite Eio; exact R3|]. specialize (S3 ap Hap). unfold insts_of in *. now rewrite R2 in S3.
             ++ rewrite S4. unfold tuples. cbn [flat_map fst snd]. now rewrite <- app_assoc.
          -- intros e s2 (ap & Hap & Hn). cbn [eff] in *. exists ap. split; [now right|]. unfold insts_of in *. now rewrite R2 in Hn.
        * intros e s1 Hn. rewrite El in Hn. exists (a, p). split; [now left|]. cbn [fst]. now rewrite Eio.
      + apply post_ret. apply (IH ins out s Hi Hdev).
  Qed.

  (** The selected pairs. *)
  Definition alist_of (fmap : list (Z * Z)) (addrs : option (list Z)) := match addrs with Some l => l | None => map fst fmap end.
  Definition plist_of (packages : option (list Z)) := match packages with Some l => l | None => te_packages env end.
  Definition sel_of fmap addrs packages :=
    filter (pkg_is fmap) (flat_map (fun a => map (pair a) (plist_of packages)) (alist_of fmap addrs)).

  Lemma sel_of_spec s f fmap addrs packages a p : reached nm env created s -> dget Z.eqb (te_fmaps env) f = Some fmap ->
    In (a, p) (sel_of fmap addrs packages) <-> exists d, selected nm env created s f addrs packages a p d.
  Proof.
    intros H Ef. destruct (reached_inv _ _ _ _ H) as (Hi & Hl & Hef). unfold sel_of. rewrite filter_In, in_flat_map. unfold pkg_is. cbn [fst snd].
    assert (Hm : dget Z.eqb fmap a = Some p <-> (exists d, dget pair_eqb created (a, f) = Some d) /\ reports nm (te_fdicts env) created a p).
    { rewrite <- (ef_maps _ _ _ Hef f a p). split; [eauto|]. intros (fm & E1 & E2). congruence. }
    split.
    - intros [(x & Hx & Hin) Hp]. apply in_map_iff in Hin as (q & E & Hq). injection E as -> ->.
      destruct (dget Z.eqb fmap a) as [pkg|] eqn:Ea; [|discriminate]. assert (pkg = p) by lia. subst pkg.
      destruct (proj1 Hm eq_refl) as [[d0 Hd0] Hr]. pose proof (Hl (a, f)) as Hla. rewrite Hd0 in Hla.
      destruct (dget pair_eqb (t_devs s) (a, f)) as [d|] eqn:Ed; [|destruct Hla]. exists d. split; [exact Ed|]. split; [exact Hr|].
      split; [destruct addrs; cbn in *; auto|destruct packages; cbn in *; auto].
    - intros (d & Ed & Hr & Ha & Hp). destruct (lay_back _ _ _ _ Hl Ed) as (d0 & Ed0).
      assert (Ea : dget Z.eqb fmap a = Some p) by (apply Hm; eauto). rewrite Ea, Z.eqb_refl. split; [|reflexivity].
      exists a. split.
      + destruct addrs; cbn in *; [exact Ha|]. apply (dget_In _ Zeqb_spec) in Ea. apply (in_map fst) in Ea. exact Ea.
      + apply in_map_iff. exists p. split; [reflexivity|]. destruct packages; cbn in *; [exact Hp|].
        apply (ef_pkgs _ _ _ Hef). exists a. split; [exact Hr|]. destruct Hr as (fd & rd & sm & d1 & v & _ & _ & _ & Hd1 & _). eauto.
  Qed.

  Lemma iter_run s f addrs packages instances : reached nm env created s ->
    post (iter_feature env f addrs packages instances) s
      (fun out s' => exists fmap, dget Z.eqb (te_fmaps env) f = Some fmap /\
         let sel := sel_of fmap addrs packages in let l := eff s f instances sel in
         (forall ap, In ap sel -> incl l (insts_of s f (fst ap))) /\ out = tuples l sel)
      (fun e s' => dget Z.eqb (te_fmaps env) f = None \/ exists fmap, dget Z.eqb (te_fmaps env) f = Some fmap /\
         ((exists a p, In a (or_none addrs) /\ In p (or_none packages) /\ validate_addr env fmap a p <> Ok tt) \/
          let sel := sel_of fmap addrs packages in let l := eff s f instances sel in
          exists ap, In ap sel /\ ~ incl l (insts_of s f (fst ap)))).
  Proof.
    intros H. destruct (reached_inv _ _ _ _ H) as (Hi & Hl & Hef). unfold iter_feature. apply post_bind.
    destruct (dget Z.eqb (te_fmaps env) f) as [fmap|] eqn:Ef; [|now left]. cbn [lift]. unfold post at 1, lift.
    apply post_bind. apply post_lift.
    2:{ intros e Ee. right. exists fmap. split; [reflexivity|]. left. revert Ee. generalize (or_none addrs) as la.
        induction la as [|x la IHa]; cbn [rmap]; [discriminate|].
        destruct (rmap (or_none packages) (fun p => validate_addr env fmap x p)) as [us|e2] eqn:Er; cbn [rbind].
        - destruct (rmap la _) as [us'|e3] eqn:Er3; cbn [rbind]; [discriminate|].
          intros Ee. destruct (IHa Ee) as (a & p & K1 & K2 & K3). exists a, p. split; [now right|auto].
        - intros _. revert e2 Er. generalize (or_none packages) as lp. induction lp as [|y lp IHp]; cbn [rmap]; [discriminate|].
          intros e2 Er. destruct (validate_addr env fmap x y) as [[]|e4] eqn:Ev; cbn [rbind] in Er.
          + destruct (rmap lp _) as [us''|e5] eqn:Er5; cbn [rbind] in Er; [discriminate|].
            destruct (IHp _ eq_refl) as (a & p & K1 & K2 & K3). exists a, p. split; [exact K1|]. split; [now right|exact K3].
          + exists x, y. split; [now left|]. split; [now left|]. congruence. }
    intros us _. apply post_bind. unfold post at 1. rewrite iter_flat.
    match goal with |- match ?m s with _ => _ end => fold (post m s) end.
    pose proof (iter_steps f fmap (flat_map (fun a => map (pair a) (plist_of packages)) (alist_of fmap addrs)) instances [] s Hi) as P.
    fold (sel_of fmap addrs packages) in P. cbv zeta in P.
    assert (Hdev : forall a pkg, dget Z.eqb fmap a = Some pkg -> exists d, dget pair_eqb (t_devs s) (a, f) = Some d).
    { intros a pkg Ea. destruct (proj1 (ef_maps _ _ _ Hef f a pkg)) as [[d0 Hd0] _]; [eauto|]. pose proof (Hl (a, f)) as Hla. rewrite Hd0 in Hla.
      destruct (dget pair_eqb (t_devs s) (a, f)); [eauto|destruct Hla]. }
    specialize (P Hdev). unfold post in P. unfold alist_of, plist_of in P.
    destruct (mfold (iter_step f fmap) _ (instances, []) s) as [[r|e] s1].
    - destruct P as (_ & _ & P3 & P4). unfold post, ret. exists fmap. split; [reflexivity|]. split; [exact P3|exact P4].
    - right. exists fmap. split; [reflexivity|]. right. exact P.
  Qed.

  Lemma tuples_In l sel a p i : In (a, p, i) (tuples l sel) <-> In (a, p) sel /\ In i l.
  Proof.
    unfold tuples. rewrite in_flat_map. split.
    - intros ([x q] & Hs & Hin). apply in_map_iff in Hin as (j & E & Hj). cbn [fst snd] in E. injection E as -> -> ->. auto.
    - intros [Hs Hi]. exists (a, p). split; [exact Hs|]. apply in_map_iff. eauto.
  Qed.

  Lemma C36_sound_l s s' f addrs packages instances out : reached nm env created s ->
    iter_feature env f addrs packages instances s = (Ok out, s') ->
    forall a p i, In (a, p, i) out -> exists d, selected nm env created s f addrs packages a p d /\
      In i (map ds_inst d) /\ wanted instances i.
  Proof.
    intros H E a p i Hin. pose proof (iter_run s f addrs packages instances H) as P. unfold post in P. rewrite E in P.
    destruct P as (fmap & Ef & P1 & ->). apply tuples_In in Hin as [Hs Hi].
    destruct (proj1 (sel_of_spec s f fmap addrs packages a p H Ef) Hs) as (d & Hd). exists d. split; [exact Hd|].
    specialize (P1 _ Hs i Hi). unfold insts_of in P1. cbn [fst] in P1. rewrite (proj1 Hd) in P1. split; [exact P1|].
    destruct instances as [l|]; [exact Hi|exact I].
  Qed.

  Lemma C36_complete_l s s' f addrs packages instances out : reached nm env created s ->
    (instances = None -> uniform nm env created s f addrs packages) ->
    iter_feature env f addrs packages instances s = (Ok out, s') ->
    forall a p i d, selected nm env created s f addrs packages a p d -> In i (map ds_inst d) -> wanted instances i ->
      In (a, p, i) out.
  Proof.
    intros H HU E a p i d Hd Hi Hw. pose proof (iter_run s f addrs packages instances H) as P. unfold post in P. rewrite E in P.
    destruct P as (fmap & Ef & P1 & ->). apply tuples_In. assert (Hs : In (a, p) (sel_of fmap addrs packages)).
    { apply (sel_of_spec s f fmap addrs packages a p H Ef). eauto. }
    split; [exact Hs|]. unfold eff. destruct instances as [l|]; [exact Hw|]. specialize (HU eq_refl).
    destruct (sel_of fmap addrs packages) as [|[x q] sel] eqn:Esel; [destruct Hs|]. cbn [fst].
    destruct (proj1 (sel_of_spec s f fmap addrs packages x q H Ef)) as (d0 & Hd0); [rewrite Esel; now left|].
    unfold insts_of. rewrite (proj1 Hd0). exact (HU _ _ _ _ _ _ i Hd Hd0 Hi).
  Qed.

  Lemma NoDup_flat_pairs (la lp : list Z) : NoDup la -> NoDup lp -> NoDup (flat_map (fun a => map (pair a) lp) la).
  Proof.
    intros Ha Hp. induction Ha as [|a la Hn Ha IH]; [constructor|]. cbn [flat_map]. apply NoDup_app_disj; [|exact IH|].
    - apply FinFun.Injective_map_NoDup; [|exact Hp]. intros x y [=]. assumption.
    - intros [x y] Hin2 Hin. apply in_map_iff in Hin as (q & [= <- <-] & _). apply in_flat_map in Hin2 as (z & Hz & Hin2).
      apply in_map_iff in Hin2 as (q2 & [= -> <-] & _). contradiction.
  Qed.

  Lemma NoDup_tuples l sel : NoDup l -> NoDup sel -> NoDup (tuples l sel).
  Proof.
    intros Hl Hs. unfold tuples. induction Hs as [|[a p] sel Hn Hs IH]; [constructor|]. cbn [flat_map fst snd].
    apply NoDup_app_disj; [|exact IH|].
    - apply FinFun.Injective_map_NoDup; [|exact Hl]. intros x y [=]. assumption.
    - intros x Hin2 Hin. apply in_map_iff in Hin as (i & <- & _). apply in_flat_map in Hin2 as ([b q] & Hb & Hin2).
      apply in_map_iff in Hin2 as (j & E & _). cbn [fst snd] in E. injection E as -> -> _. contradiction.
  Qed.

  Lemma C36_once_l s s' f addrs packages instances out : reached nm env created s ->
    (forall l, addrs = Some l \/ packages = Some l \/ instances = Some l -> NoDup l) ->
    iter_feature env f addrs packages instances s = (Ok out, s') -> NoDup out.
  Proof.
    intros H HN E. pose proof (iter_run s f addrs packages instances H) as P. unfold post in P. rewrite E in P.
    destruct P as (fmap & Ef & P1 & ->). destruct (reached_inv _ _ _ _ H) as (Hi & Hl & Hef). apply NoDup_tuples.
    - unfold eff. destruct instances as [l|]; [apply HN; auto|]. destruct (sel_of fmap addrs packages) as [|ap sel]; [constructor|].
      unfold insts_of. destruct (dget pair_eqb (t_devs s) (fst ap, f)) as [d|] eqn:Ed; [|constructor]. apply (proj1 Hi _ _ Ed).
    - unfold sel_of. apply NoDup_filter. apply NoDup_flat_pairs.
      + unfold alist_of. destruct addrs; [apply HN; auto|]. eapply ef_nd; eassumption.
      + unfold plist_of. destruct packages; [apply HN; auto|]. apply (ef_pkgs _ _ _ Hef).
  Qed.

  (** Asking for everything succeeds when the devices have the same instances. *)
  Lemma C36_all_l s f a0 d0 : reached nm env created s -> dget pair_eqb (t_devs s) (a0, f) = Some d0 -> uniform nm env created s f None None ->
    exists out s', iter_feature env f None None None s = (Ok out, s').
  Proof.
    intros H Hd0 HU. destruct (reached_inv _ _ _ _ H) as (Hi & Hl & Hef).
    destruct (lay_back _ _ _ _ Hl Hd0) as (dc & Hdc). destruct (ef_has _ _ _ Hef _ _ _ Hdc) as (fm0 & p0 & Ef0 & _).
    pose proof (iter_run s f None None None H) as P. unfold post in P.
    destruct (iter_feature env f None None None s) as [[out|e] s'] eqn:E; [eauto|]. exfalso.
    destruct P as [P|(fmap & Ef & [(a & p & K1 & K2 & K3)|(ap & Hap & Hn)])]; [congruence| |].
    - cbn in K1, K2. destruct K1 as [<-|[]], K2 as [<-|[]]. cbn in K3. congruence.
    - apply Hn. unfold eff. destruct (sel_of fmap None None) as [|[x q] sel] eqn:Esel; [intros i []|]. cbn [fst].
      destruct (proj1 (sel_of_spec s f fmap None None x q H Ef)) as (d1 & Hd1); [rewrite Esel; now left|].
      destruct ap as [y r]. destruct (proj1 (sel_of_spec s f fmap None None y r H Ef)) as (d2 & Hd2); [now rewrite Esel|].
      unfold insts_of. cbn [fst]. rewrite (proj1 Hd1), (proj1 Hd2). intros i Hin. exact (HU _ _ _ _ _ _ i Hd1 Hd2 Hin).
  Qed.

  (** Bad filters. *)
  Lemma C36_rejects_l s f addrs packages instances : reached nm env created s ->
    (exists a p d i l, selected nm env created s f addrs packages a p d /\ instances = Some l /\ In i l /\ ~ In i (map ds_inst d)) \/
    (exists a l, addrs = Some l /\ In a l /\ dget pair_eqb (t_devs s) (a, f) = None /\ packages <> Some []) \/
    (exists p l, packages = Some l /\ In p l /\ addrs = None /\ forall a, ~ reports nm (te_fdicts env) created a p) \/
    (exists a p la lp, addrs = Some la /\ In a la /\ packages = Some lp /\ In p lp /\ ~ reports nm (te_fdicts env) created a p) ->
    exists e s', iter_feature env f addrs packages instances s = (Exn e, s').
  Proof.
    intros H Hbad. pose proof (iter_run s f addrs packages instances H) as P. unfold post in P.
    destruct (iter_feature env f addrs packages instances s) as [[out|e] s'] eqn:E; [exfalso|eauto].
    destruct (reached_inv _ _ _ _ H) as (Hi & Hl & Hef).
    assert (V : forall fmap a p, dget Z.eqb (te_fmaps env) f = Some fmap -> In a (or_none addrs) -> In p (or_none packages) -> validate_addr env fmap a p = Ok tt).
    { intros fmap a p Ef Ha Hp. unfold iter_feature in E. rewrite Ef in E. unfold mbind at 1, lift at 1 in E. unfold mbind at 1, lift at 1 in E.
      match type of E with context [rmap ?x ?g] => destruct (rmap x g) as [us|e] eqn:Er; [|discriminate] end. clear E.
      revert us Er Ha. generalize (or_none addrs) as la. induction la as [|x la IH]; intros us Er Ha; [destruct Ha|]. cbn [rmap] in Er.
      destruct (rmap (or_none packages) (fun p => validate_addr env fmap x p)) as [us1|] eqn:Er1; [|discriminate]. cbn [rbind] in Er.
      destruct (rmap la _) as [us2|] eqn:Er2; [|discriminate]. destruct Ha as [->|Ha]; [|eapply IH; [reflexivity|exact Ha]].
      clear - Er1 Hp. revert us1 Er1 Hp. generalize (or_none packages) as lp. induction lp as [|y lp IH]; intros us1 Er Hp; [destruct Hp|].
      cbn [rmap] in Er. destruct (validate_addr env fmap a y) as [[]|] eqn:Ev; [|discriminate]. cbn [rbind] in Er.
      destruct (rmap lp _) as [us3|] eqn:Er3; [|discriminate]. destruct Hp as [->|Hp]; [exact Ev|]. eapply IH; [reflexivity|exact Hp]. }
    destruct P as (fmap & Ef & P1 & _).
    destruct Hbad as [(a & p & d & i & l & Hs & -> & Hin & Hn)|[(a & l & -> & Hin & Hn & Hp)|[(p & l & -> & Hin & -> & Hn)|(a & p & la & lp & -> & Ha & -> & Hp & Hn)]]].
    - apply Hn. specialize (P1 (a, p)). unfold insts_of in P1. cbn [fst eff] in P1. rewrite (proj1 Hs) in P1. apply P1; [|exact Hin].
      apply (sel_of_spec s f fmap addrs packages a p H Ef). eauto.
    - assert (Hpk : exists p, In p (or_none packages)).
      { destruct packages as [[|p lp]|]; [congruence| |]; cbn; eauto. }
      destruct Hpk as (p & Hpk). specialize (V fmap (Some a) p Ef ltac:(cbn; now apply in_map) Hpk). cbn in V.
      destruct (dget Z.eqb fmap a) as [q|] eqn:Ea; [|discriminate].
      destruct (proj1 (ef_maps _ _ _ Hef f a q)) as [[d0 Hd0] _]; [eauto|]. pose proof (Hl (a, f)) as Hla. now rewrite Hd0, Hn in Hla.
    - specialize (V fmap None (Some p) Ef ltac:(now left) ltac:(cbn; now apply in_map)). cbn in V.
      destruct (inb p (te_packages env)) eqn:Ep; [|discriminate]. apply inb_In in Ep. apply (ef_pkgs _ _ _ Hef) in Ep as (a & Hr & _).
      eapply Hn; exact Hr.
    - specialize (V fmap (Some a) (Some p) Ef ltac:(cbn; now apply in_map) ltac:(cbn; now apply in_map)). cbn in V.
      destruct (dget Z.eqb fmap a) as [q|] eqn:Ea; [|discriminate].
      destruct (p =? q) eqn:Eq; [|discriminate]. apply Z.eqb_eq in Eq. subst q.
      destruct (proj1 (ef_maps _ _ _ Hef f a p)) as [_ Hr]; [eauto|]. exact (Hn Hr).
  Qed.
End Access.

Lemma C36_devices_found_l nm env created f2n paths s :
  (forall k d, dget pair_eqb created k = Some d -> dump_ok d) -> dirs_match f2n paths created ->
  tables_ok (te_fdicts env) ->
  tpmi_init nm (te_fdicts env) f2n paths (TS created []) = (Ok env, s) ->
  t_devs s = created /\
  (forall f a p, (exists fm, dget Z.eqb (te_fmaps env) f = Some fm /\ dget Z.eqb fm a = Some p) <->
     (exists d, dget pair_eqb created (a, f) = Some d) /\ reports nm (te_fdicts env) created a p) /\
  (forall f a d, dget pair_eqb created (a, f) = Some d -> exists p, reports nm (te_fdicts env) created a p).
Proof.
  intros H1 H2 H3 H4. destruct (init_facts _ _ _ _ _ _ H1 H2 H3 H4) as (_ & K2 & K3). split; [exact K2|].
  split; [exact (ef_maps _ _ _ K3)|]. intros f a d Hd. destruct (ef_has _ _ _ K3 _ _ _ Hd) as (fm & p & E1 & E2).
  exists p. apply (proj1 (ef_maps _ _ _ K3 f a p)). eauto.
Qed.
