(** Lemmas about 'tpmi read'. *)
From Verif Require Import Base L_Base L_Monad M_Text S_Text L_Text M_Kver M_Osa M_CPUInfo M_MSR S_MSR L_Bits
  M_Tpmi S_Tpmi L_Tpmi L_Tpmi2 L_Tpmi3 L_Tpmi4 L_Tpmi5 L_Tpmi6 M_TpmiCmd S_TpmiCmd L_TpmiCmd L_TpmiCmd2 L_TpmiCmd3.
From Coq Require Import ZifyBool.

Lemma typed_once_run t l : typed_once t l -> num_list t = Ok l.
Proof.
  intros H. destruct H as [| |its ts H1 H2 H3 H4]; [reflexivity|reflexivity|].
  pose proof (parse_dedup_disjoint [ts] its ltac:(cbn [concat]; now rewrite app_nil_r) H2 H4) as E.
  unfold num_list. unfold parse_int_list in E. cbn [map nstr join] in E.
  destruct (commas ts) as [|c t] eqn:Ec; [congruence|]. change (join "," [c :: t]) with (c :: t) in E. now rewrite E.
Qed.
Lemma typed_once_nodup t l : typed_once t l -> forall l', l = Some l' -> NoDup l'.
Proof. intros H. destruct H as [| |its ts H1 H2 H3 H4]; intros l' [=]. now subst. Qed.
Lemma typed_once_typed t l : typed_once t l -> typed t l.
Proof. intros H. destruct H; econstructor; eassumption. Qed.

Lemma dget_set (l : list (Z * Z)) b c y : dget Z.eqb (dset Z.eqb l b y) c = if Z.eq_dec c b then Some y else dget Z.eqb l c.
Proof.
  destruct (Z.eq_dec c b) as [->|H]; [apply (dget_dset_same _ Zeqb_spec)|now apply (dget_dset_other _ Zeqb_spec)].
Qed.
Lemma key_get {B} (l : list (Z * B)) k : In k (map fst l) <-> dget Z.eqb l k <> None.
Proof.
  induction l as [|[k' v] l IH]; [cbn; tauto|]. cbn [map fst In dget]. destruct (k =? k') eqn:E.
  - assert (k = k') by lia. subst. split; [discriminate|auto].
  - rewrite <- IH. split; [intros [H|H]; [lia|exact H]|auto].
Qed.

Section Env.
  Variable env : tenv.
  Hypothesis Ht : tables_ok (te_fdicts env).

  (** ** Bit fields *)
  Definition fstep (x : rargs) (f r v : Z) (acc : res (list (Z * Z))) (b : Z) : res (list (Z * Z)) :=
    let? l := acc in
    if ra_reserved x b then Ok l
    else let? sm := get_bfdict env f r b in Ok (dset Z.eqb l b (get_bitfield v sm)).

  Lemma fstep_exn x f r v e bs : fold_left (fstep x f r v) bs (Exn e) = Exn e.
  Proof. induction bs as [|b bs IH]; [reflexivity|exact IH]. Qed.

  Lemma get_bfdict_def f r rd b : reg_def env f r rd ->
    get_bfdict env f r b = match dget Z.eqb (rd_fields rd) b with Some sm => Ok sm | None => Exn EError end.
  Proof. intros H. unfold get_bfdict. now rewrite (get_regdict_known _ _ _ _ H). Qed.

  Lemma fold_fields x f r v rd : reg_def env f r rd -> forall bs l fl, fold_left (fstep x f r v) bs (Ok l) = Ok fl ->
    (forall b y, dget Z.eqb fl b = Some y -> dget Z.eqb l b = Some y \/
       In b bs /\ ra_reserved x b = false /\ exists sm, dget Z.eqb (rd_fields rd) b = Some sm /\ y = get_bitfield v sm) /\
    (forall b, dget Z.eqb l b <> None -> dget Z.eqb fl b <> None) /\
    (forall b, In b bs -> ra_reserved x b = false -> dget Z.eqb fl b <> None).
  Proof.
    intros Hr. induction bs as [|b bs IH]; intros l fl E; cbn [fold_left] in E.
    - injection E as <-. split; [auto|]. split; [auto|intros b []].
    - unfold fstep at 2 in E. cbn [rbind] in E. destruct (ra_reserved x b) eqn:Er.
      + destruct (IH _ _ E) as (K1 & K2 & K3). split; [|split; [exact K2|]].
        * intros c y Hy. destruct (K1 c y Hy) as [H|(H1 & H2)]; [now left|]. right. split; [now right|exact H2].
        * intros c [<-|Hc]; [congruence|auto].
      + rewrite (get_bfdict_def _ _ _ _ Hr) in E. destruct (dget Z.eqb (rd_fields rd) b) as [sm|] eqn:Esm;
          cbn [rbind] in E; [|rewrite fstep_exn in E; discriminate].
        destruct (IH _ _ E) as (K1 & K2 & K3). split; [|split].
        * intros c y Hy. destruct (K1 c y Hy) as [H|(H1 & H2)]; [|right; split; [now right|exact H2]].
          rewrite dget_set in H. destruct (Z.eq_dec c b) as [->|Hn]; [|now left]. injection H as <-.
          right. split; [now left|]. split; [exact Er|]. eauto.
        * intros c Hc. apply K2. rewrite dget_set. destruct (Z.eq_dec c b); [discriminate|exact Hc].
        * intros c [<-|Hc] Hr'; [|auto]. apply K2. rewrite dget_set. destruct (Z.eq_dec b b); [discriminate|congruence].
  Qed.

  Lemma read_fields_told x f r v rd fl : reg_def env f r rd -> read_fields env x f r v = Ok fl -> fields_told x rd v fl.
  Proof.
    intros Hr E. unfold read_fields in E. rewrite (get_regdict_known _ _ _ _ Hr) in E. cbn [rbind] in E.
    destruct (fold_fields x f r v rd Hr _ _ _ E) as (K1 & _ & K3). split.
    - intros b y Hy. destruct (K1 b y Hy) as [H|(H1 & H2 & sm & H3 & H4)]; [discriminate|]. split.
      + split; [exact H2|]. destruct (ra_bfs x); [exact H1|]. now rewrite H3.
      + destruct (def_ok env Ht f r rd Hr) as (_ & _ & _ & Hm). destruct (Hm b sm H3) as (hl & Hhl). exists sm, hl.
        split; [exact H3|]. split; [exact Hhl|]. subst y. now apply get_bitfield_field.
    - intros b (H1 & H2). apply K3; [|exact H1]. destruct (ra_bfs x); [exact H2|]. now apply key_get.
  Qed.

  Lemma read_fields_ok x f r v rd : reg_def env f r rd ->
    (forall l b, ra_bfs x = Some l -> In b l -> ra_reserved x b = false -> dget Z.eqb (rd_fields rd) b <> None) ->
    exists fl, read_fields env x f r v = Ok fl.
  Proof.
    intros Hr Hb. unfold read_fields. rewrite (get_regdict_known _ _ _ _ Hr). cbn [rbind].
    assert (G : forall bs l, (forall b, In b bs -> ra_reserved x b = false -> dget Z.eqb (rd_fields rd) b <> None) ->
              exists fl, fold_left (fstep x f r v) bs (Ok l) = Ok fl).
    { induction bs as [|b bs IH]; intros l H; [eexists; reflexivity|]. cbn [fold_left]. unfold fstep at 2. cbn [rbind].
      destruct (ra_reserved x b) eqn:Er; [apply IH; intros c Hc; apply H; now right|].
      rewrite (get_bfdict_def _ _ _ _ Hr). pose proof (H b ltac:(now left) Er) as Hn.
      destruct (dget Z.eqb (rd_fields rd) b) as [sm|]; [|congruence]. cbn [rbind]. apply IH. intros c Hc. apply H. now right. }
    apply G. intros b Hin Hr'. destruct (ra_bfs x) as [l|] eqn:El; [exact (Hb l b eq_refl Hin Hr')|]. now apply key_get.
  Qed.

  (** ** Registers *)
  Lemma t_read_inv a f i o s d v s' : tinv s -> dget pair_eqb (t_devs s) (a, f) = Some d ->
    t_read a f i o (exp_md 0 d) s = (Ok v, s') -> exists w, holds d i o w.
  Proof.
    intros Hi Ed E. assert (Hd : dump_ok d) by (apply (proj1 Hi _ _ Ed)). apply word_exists_spec.
    destruct (word_exists d i o) eqn:Ew; [reflexivity|]. exfalso.
    assert (Hno : forall x, ~ holds d i o x).
    { intros x Hx. assert (word_exists d i o = true) by (apply word_exists_spec; eauto). congruence. }
    unfold t_read, mbind, lift in E. destruct (validate_instance_offset (exp_md 0 d) i o); [|discriminate].
    unfold t_text in E. rewrite Ed in E.
    destruct (C34_only_l d i o (show d) Hd Hno) as (md & Eb & Em). rewrite build_show in Eb by exact Hd. injection Eb as <-.
    rewrite Em in E. discriminate.
  Qed.

  Lemma read_inv f a i r s v s' : tinv s -> t_read_register env f a i r None s = (Ok v, s') ->
    exists d rd, dget pair_eqb (t_devs s) (a, f) = Some d /\ reg_def env f r rd /\ reg_value d i rd v /\ tinv s' /\ t_devs s' = t_devs s.
  Proof.
    intros Hi E. pose proof (ro_read_register env f a i r None s Hi) as [R1 R2]. rewrite E in R1, R2. cbn [snd] in R1, R2.
    pose proof E as E0. unfold t_read_register in E. unfold mbind at 1, lift at 1 in E.
    destruct (validate_names env f a r None) as [[]|] eqn:Ev; [|discriminate].
    unfold mbind at 1 in E. destruct (ro_validate_instance f a i s Hi) as [V1 V2].
    destruct (validate_instance f a i s) as [[[]|e] s1]; cbn [snd] in V1, V2; [|discriminate].
    unfold t_read_register0 in E. unfold mbind at 1, lift at 1 in E. destruct (get_regdict env f r) as [rd|] eqn:Er; [|discriminate].
    pose proof (regdict_def env f r rd Er) as Hr. pose proof (def_ok env Ht _ _ _ Hr) as Hok.
    unfold mbind at 1 in E. rewrite t_build_run in E by exact V1.
    destruct (dget pair_eqb (t_devs s1) (a, f)) as [d|] eqn:Ed; [|discriminate].
    assert (Hd : dump_ok d) by (apply (proj1 V1 _ _ Ed)).
    unfold mbind at 1 in E. destruct (t_read a f i (rd_offset rd) (exp_md 0 d) s1) as [[v0|e] s2] eqn:E1; [|discriminate].
    destruct (t_read_inv a f i _ s1 d v0 s2 V1 Ed E1) as (lo & Hlo).
    assert (Ho : 0 <= rd_offset rd /\ rd_offset rd mod 4 = 0) by (split; apply Hok). destruct Ho as [Ho1 Ho2].
    rewrite (t_read_run a f i (rd_offset rd) s1 d lo V1 Ed Ho1 Ho2 Hlo) in E1. injection E1 as <- <-.
    exists d, rd. split; [congruence|]. split; [exact Hr|]. split; [|auto].
    destruct Hok as (_ & _ & [Hw|Hw] & _); rewrite Hw in E.
    - change (32 <? 32) with false in E. cbv iota in E. cbn in E. injection E as <- _. left. auto.
    - change (32 <? 64) with true in E. cbv iota in E. unfold mbind in E.
      destruct (t_read a f i (rd_offset rd + 4) (exp_md 0 d) s1) as [[v1|e] s2] eqn:E2; [|discriminate].
      destruct (t_read_inv a f i _ s1 d v1 s2 V1 Ed E2) as (hi & Hhi).
      assert (Ho4 : (rd_offset rd + 4) mod 4 = 0) by (rewrite Z.add_mod, Ho2 by lia; reflexivity).
      rewrite (t_read_run a f i (rd_offset rd + 4) s1 d hi V1 Ed ltac:(lia) Ho4 Hhi) in E2. injection E2 as <- <-.
      unfold ret in E. assert (Ev' : v = lo + Z.shiftl hi 32) by congruence. clear E. subst v. right. split; [exact Hw|]. exists lo, hi. split; [exact Hlo|]. split; [exact Hhi|].
      rewrite Z.shiftl_mul_pow2 by lia. lia.
  Qed.

  Section Cmd.
    Variable nm : tnames.
    Variable created : list ((Z * Z) * dump).
    Variable s0 : tstate.
    Hypothesis H0 : reached nm env created s0.
    Variable x : rargs.

    Definition at0 (s : tstate) : Prop := tinv s /\ t_devs s = t_devs s0.

    (** What is told about the registers of an instance. *)
    Definition regs_told (f : Z) (names : list Z) (a i : Z) (regs : list (Z * reginfo)) : Prop :=
      (forall r v fl, dget Z.eqb regs r = Some (v, fl) -> In r names /\
         exists d rd, dget pair_eqb (t_devs s0) (a, f) = Some d /\ reg_def env f r rd /\ reg_value d i rd v /\ fields_told x rd v fl) /\
      (forall r, In r names -> dget Z.eqb regs r <> None).

    Lemma read_regs_post f a i : forall names done regs s, at0 s -> regs_told f done a i regs ->
      post (mfold (read_reg env x f a i) names regs) s
        (fun regs' s' => at0 s' /\ regs_told f (done ++ names) a i regs') (fun _ _ => True).
    Proof.
      induction names as [|r names IH]; intros done regs s Hs Hreg; cbn [mfold].
      - apply post_ret. rewrite app_nil_r. auto.
      - apply post_bind. unfold read_reg at 1. apply post_bind. unfold post at 1.
        destruct (t_read_register env f a i r None s) as [[v|e] s1] eqn:E1; [|exact I].
        destruct (read_inv f a i r s v s1 (proj1 Hs) E1) as (d & rd & K1 & K2 & K3 & K4 & K5).
        assert (Hs1 : at0 s1) by (split; [exact K4|rewrite K5; apply Hs]).
        destruct (dget Z.eqb regs r) as [ri|] eqn:Er; [exact I|]. apply post_bind. apply post_lift; [|auto]. intros fl Ef.
        apply post_ret. replace (done ++ r :: names) with ((done ++ [r]) ++ names) by now rewrite <- app_assoc.
        apply IH; [exact Hs1|]. destruct Hreg as [A1 A2]. split.
        + intros r' v' fl' Hg. destruct (Z.eq_dec r' r) as [->|Hne].
          * rewrite (dget_dset_same _ Zeqb_spec) in Hg. injection Hg as <- <-. split; [apply in_or_app; right; now left|].
            exists d, rd. rewrite <- (proj2 Hs). split; [exact K1|]. split; [exact K2|]. split; [exact K3|]. eapply read_fields_told; eassumption.
          * rewrite (dget_dset_other _ Zeqb_spec) in Hg by exact Hne. destruct (A1 r' v' fl' Hg) as (B1 & B2).
            split; [apply in_or_app; now left|exact B2].
        + intros r' Hin. destruct (Z.eq_dec r' r) as [->|Hne]; [rewrite (dget_dset_same _ Zeqb_spec); discriminate|].
          rewrite (dget_dset_other _ Zeqb_spec) by exact Hne. apply A2. apply in_app_or in Hin as [H|[H|[]]]; [exact H|congruence].
    Qed.

    (** Registers that can be read, each named once: nothing fails. *)
    Lemma read_regs_live f a i d : dget pair_eqb (t_devs s0) (a, f) = Some d -> forall names done regs s, at0 s ->
      (forall r, dget Z.eqb regs r <> None -> In r done) -> NoDup (done ++ names) ->
      (forall r, In r names -> exists rd v, reg_def env f r rd /\ reg_value d i rd v /\
         forall l b, ra_bfs x = Some l -> In b l -> ra_reserved x b = false -> dget Z.eqb (rd_fields rd) b <> None) ->
      exists regs' s', mfold (read_reg env x f a i) names regs s = (Ok regs', s').
    Proof.
      intros Ed. induction names as [|r names IH]; intros done regs s Hs Hk Hnd Hr; cbn [mfold]; [eexists _, _; reflexivity|].
      destruct (Hr r ltac:(now left)) as (rd & v & R1 & R2 & R3).
      destruct (reached_known _ _ _ _ _ _ _ _ _ H0 Ed R1) as [Hkn Hok].
      destruct (read_run env f a i r None s d rd v (proj1 Hs)) as (s1 & T1 & T2 & T3); try assumption; try exact I.
      { rewrite (proj2 Hs). exact Ed. }
      assert (Hs1 : at0 s1) by (split; [exact T1|rewrite T2; apply Hs]).
      destruct (read_fields_ok x f r v rd R1 R3) as (fl & Ef).
      assert (Er : read_reg env x f a i regs r s = (Ok (dset Z.eqb regs r (v, fl)), s1)).
      { unfold read_reg, mbind at 1. rewrite T3. destruct (dget Z.eqb regs r) as [ri|] eqn:Eg.
        - exfalso. apply NoDup_remove_2 in Hnd. apply Hnd. apply in_or_app. left. apply Hk. congruence.
        - unfold mbind, lift. now rewrite Ef. }
      unfold mbind. rewrite Er. apply (IH (done ++ [r])); [exact Hs1| |now rewrite <- app_assoc|].
      - intros r' Hg. apply in_or_app. destruct (Z.eq_dec r' r) as [->|Hne]; [right; now left|]. left. apply Hk.
        now rewrite (dget_dset_other _ Zeqb_spec) in Hg by exact Hne.
      - intros r' Hin. apply Hr. now right.
    Qed.

    (** ** Devices *)
    Definition JR (f : Z) (names : list Z) (dn : list (Z * Z * Z)) (fi : list (Z * addrinfo)) (s : tstate) : Prop :=
      at0 s /\
      (forall a p insts, dget Z.eqb fi a = Some (p, insts) -> (exists i, In (a, p, i) dn) /\
         forall i regs, dget Z.eqb insts i = Some regs -> In (a, p, i) dn /\ regs_told f names a i regs) /\
      (forall a p i, In (a, p, i) dn -> exists insts regs, dget Z.eqb fi a = Some (p, insts) /\ dget Z.eqb insts i = Some regs).

    Lemma JR_inv f names dn fi s : JR f names dn fi s -> tinv s /\ lay (t_devs s0) (t_devs s).
    Proof. intros ((H1 & H2) & _). split; [exact H1|]. rewrite H2. apply lay_refl. Qed.
    Lemma JR_ro f names dn fi s s' : JR f names dn fi s -> tinv s' -> t_devs s' = t_devs s -> JR f names dn fi s'.
    Proof. intros ((H1 & H2) & H3) H4 H5. split; [split; [exact H4|congruence]|exact H3]. Qed.

    Definition one_pkg (dn : list (Z * Z * Z)) (a p : Z) : Prop := forall q j, In (a, q, j) dn -> q = p.

    Lemma JR_add f names dn fi s s1 a p i regs : JR f names dn fi s -> at0 s1 -> regs_told f names a i regs -> one_pkg dn a p ->
      let ai := match dget Z.eqb fi a with Some ai => ai | None => (p, []) end in
      JR f names (dn ++ [(a, p, i)]) (dset Z.eqb fi a (fst ai, dset Z.eqb (snd ai) i regs)) s1.
    Proof.
      intros (Hs & A1 & A2) Hs1 Hreg Hp ai. assert (Ep : fst ai = p).
      { subst ai. destruct (dget Z.eqb fi a) as [[q insts]|] eqn:Ea; [|reflexivity]. destruct (A1 a q insts Ea) as ((j & Hj) & _). exact (Hp q j Hj). }
      assert (Eai : forall j regs', dget Z.eqb (snd ai) j = Some regs' -> In (a, p, j) dn /\ regs_told f names a j regs').
      { subst ai. intros j regs' Hj. destruct (dget Z.eqb fi a) as [[q insts]|] eqn:Ea; [|discriminate]. cbn [fst snd] in *. subst q.
        destruct (A1 a p insts Ea) as (_ & A3). exact (A3 j regs' Hj). }
      rewrite Ep. split; [exact Hs1|]. split.
      - intros b q insts Hg. destruct (Z.eq_dec b a) as [->|Hb].
        + rewrite (dget_dset_same _ Zeqb_spec) in Hg. injection Hg as <- <-. split; [exists i; apply in_or_app; right; now left|].
          intros j regs' Hj. destruct (Z.eq_dec j i) as [->|Hji].
          * rewrite (dget_dset_same _ Zeqb_spec) in Hj. injection Hj as <-. split; [apply in_or_app; right; now left|exact Hreg].
          * rewrite (dget_dset_other _ Zeqb_spec) in Hj by exact Hji. destruct (Eai j regs' Hj) as [E1 E2].
            split; [apply in_or_app; now left|exact E2].
        + rewrite (dget_dset_other _ Zeqb_spec) in Hg by exact Hb. destruct (A1 b q insts Hg) as ((j & Hj) & A3).
          split; [exists j; apply in_or_app; now left|]. intros j' regs' Hj'. destruct (A3 j' regs' Hj') as [E1 E2].
          split; [apply in_or_app; now left|exact E2].
      - intros b q j Hin. destruct (Z.eq_dec b a) as [->|Hb].
        + assert (q = p) by (apply in_app_or in Hin as [H|[[= <- <-]|[]]]; [exact (Hp q j H)|reflexivity]). subst q.
          exists (dset Z.eqb (snd ai) i regs). rewrite (dget_dset_same _ Zeqb_spec). destruct (Z.eq_dec j i) as [->|Hji].
          * exists regs. split; [reflexivity|]. apply (dget_dset_same _ Zeqb_spec).
          * apply in_app_or in Hin as [H|[[= <-]|[]]]; [|congruence]. destruct (A2 a p j H) as (insts & regs' & B1 & B2).
            exists regs'. split; [reflexivity|]. rewrite (dget_dset_other _ Zeqb_spec) by exact Hji. subst ai. now rewrite B1.
        + apply in_app_or in Hin as [H|[[=]|[]]]; [|congruence]. destruct (A2 b q j H) as (insts & regs' & B1 & B2).
          exists insts, regs'. split; [|exact B2]. now rewrite (dget_dset_other _ Zeqb_spec) by exact Hb.
    Qed.

    Lemma sel_pkg f fmap addrs pk a p : dget Z.eqb (te_fmaps env) f = Some fmap -> In (a, p) (sel_of env fmap addrs pk) -> dget Z.eqb fmap a = Some p.
    Proof.
      intros Ef H. unfold sel_of in H. apply filter_In in H as [_ H]. unfold pkg_is in H. cbn [fst snd] in H.
      destruct (dget Z.eqb fmap a) as [q|]; [|discriminate]. f_equal. lia.
    Qed.

    Lemma prefix_pkg f fmap addrs pk l dn a p i rest : dget Z.eqb (te_fmaps env) f = Some fmap ->
      tuples l (sel_of env fmap addrs pk) = dn ++ (a, p, i) :: rest -> one_pkg dn a p.
    Proof.
      intros Ef E q j Hq.
      assert (H1 : In (a, p, i) (tuples l (sel_of env fmap addrs pk))) by (rewrite E; apply in_or_app; right; now left).
      assert (H2 : In (a, q, j) (tuples l (sel_of env fmap addrs pk))) by (rewrite E; apply in_or_app; now left).
      apply tuples_In in H1 as [H1 _], H2 as [H2 _]. apply (sel_pkg f fmap addrs pk _ _ Ef) in H1, H2. congruence.
    Qed.

    Definition told (f : Z) (names : list Z) (addrs pk ins : option (list Z)) (fi : list (Z * addrinfo)) : Prop :=
      (forall a p insts i regs, dget Z.eqb fi a = Some (p, insts) -> dget Z.eqb insts i = Some regs ->
         asked_for nm env created s0 f addrs pk ins a p i /\ regs_told f names a i regs) /\
      ((ins = None -> uniform nm env created s0 f addrs pk) ->
       forall a p i, asked_for nm env created s0 f addrs pk ins a p i ->
         exists insts regs, dget Z.eqb fi a = Some (p, insts) /\ dget Z.eqb insts i = Some regs).

    Lemma read_devices_post f names addrs pk ins s : at0 s ->
      post (iter_do env f addrs pk ins (read_instance env x f names) []) s
        (fun fi s' => at0 s' /\ told f names addrs pk ins fi) (fun _ _ => True).
    Proof.
      intros Hs.
      pose proof (iter_do_post nm env created s0 H0 f _ (read_instance env x f names) (JR f names) (fun _ _ => True)
        (fun dn a p i => one_pkg dn a p) (JR_inv f names) (JR_ro f names)) as Q.
      assert (B : forall dn fi s a p i, JR f names dn fi s -> one_pkg dn a p ->
        post (read_instance env x f names fi a p i) s (fun fi' s' => JR f names (dn ++ [(a, p, i)]) fi' s') (fun _ _ => True)).
      { intros dn fi s1 a p i HJ Hp. unfold read_instance. cbv zeta.
        match goal with |- post (match ?d with _ => _ end) _ _ _ => destruct d end; [exact I|].
        apply post_bind. eapply post_conseq; [apply (read_regs_post f a i names [] [] s1 (proj1 HJ))|cbn beta|auto].
        - split; [discriminate|intros r []].
        - intros regs s2 (K1 & K2). apply post_ret. exact (JR_add f names dn fi s1 s2 a p i regs HJ K1 K2 Hp). }
      specialize (Q B addrs pk ins [] s). eapply post_conseq; [apply Q| |auto].
      - split; [exact Hs|]. split; [discriminate|intros a p i []].
      - intros fmap dn a p i rest Ef E _ _ _. exact (prefix_pkg f fmap addrs pk _ dn a p i rest Ef E).
      - cbn beta. intros fi s' (fmap & Ef & Hin & (J1 & J2 & J3)). cbv zeta in *. split; [exact J1|]. split.
        + intros a p insts i regs Ha Hi. destruct (J2 a p insts Ha) as (_ & J4). destruct (J4 i regs Hi) as [J5 J6].
          split; [exact (tuples_asked nm env created s0 H0 f addrs pk ins fmap a p i Ef Hin J5)|exact J6].
        + intros HU a p i Ha. apply J3. exact (asked_tuples nm env created s0 H0 f addrs pk ins fmap a p i Ef HU Ha).
    Qed.

    Lemma tuples_nodup f addrs pk ins fmap : dget Z.eqb (te_fmaps env) f = Some fmap ->
      (forall l, addrs = Some l \/ pk = Some l \/ ins = Some l -> NoDup l) ->
      NoDup (tuples (eff s0 f ins (sel_of env fmap addrs pk)) (sel_of env fmap addrs pk)).
    Proof.
      intros Ef HN. destruct (reached_inv _ _ _ _ H0) as (Hi & Hl & Hef). apply NoDup_tuples.
      - unfold eff. destruct ins as [l|]; [apply HN; auto|]. destruct (sel_of env fmap addrs pk) as [|ap sel]; [constructor|].
        unfold insts_of. destruct (dget pair_eqb (t_devs s0) (fst ap, f)) as [d|] eqn:Ed; [|constructor]. apply (proj1 Hi _ _ Ed).
      - unfold sel_of. apply NoDup_filter. apply NoDup_flat_pairs.
        + unfold alist_of. destruct addrs; [apply HN; auto|]. eapply ef_nd; eassumption.
        + unfold plist_of. destruct pk; [apply HN; auto|]. apply (ef_pkgs _ _ _ Hef).
    Qed.

    Lemma read_devices_live f names addrs pk ins s : at0 s -> filters_fit nm env created s0 f addrs pk ins ->
      (ins = None -> uniform nm env created s0 f addrs pk) ->
      (forall l, addrs = Some l \/ pk = Some l \/ ins = Some l -> NoDup l) -> NoDup names ->
      (forall a p i d r, asked_for nm env created s0 f addrs pk ins a p i -> dget pair_eqb (t_devs s0) (a, f) = Some d -> In r names ->
         exists rd v, reg_def env f r rd /\ reg_value d i rd v /\
         forall l b, ra_bfs x = Some l -> In b l -> ra_reserved x b = false -> dget Z.eqb (rd_fields rd) b <> None) ->
      exists fi s', iter_do env f addrs pk ins (read_instance env x f names) [] s = (Ok fi, s') /\ at0 s'.
    Proof.
      intros Hs Hff HU HN Hnd Hread. destruct (fit_ok nm env created s0 H0 f addrs pk ins Hff HU) as (fmap & Ef & Hva & Hnb).
      pose proof (iter_do_post nm env created s0 H0 f _ (read_instance env x f names) (JR f names) (fun _ _ => False)
        (fun dn a p i => one_pkg dn a p /\ ~ In (a, p, i) dn /\ asked_for nm env created s0 f addrs pk ins a p i) (JR_inv f names) (JR_ro f names)) as Q.
      assert (B : forall dn fi s a p i, JR f names dn fi s -> one_pkg dn a p /\ ~ In (a, p, i) dn /\ asked_for nm env created s0 f addrs pk ins a p i ->
        post (read_instance env x f names fi a p i) s (fun fi' s' => JR f names (dn ++ [(a, p, i)]) fi' s') (fun _ _ => False)).
      { intros dn fi s1 a p i HJ (Hp & Hn & Ha). unfold read_instance. cbv zeta.
        match goal with |- post (match ?d with _ => _ end) _ _ _ => destruct d as [regs0|] eqn:Ei end.
        - exfalso. destruct HJ as (_ & A1 & _). destruct (dget Z.eqb fi a) as [[q insts]|] eqn:Ea; [|discriminate]. cbn [snd] in Ei.
          destruct (A1 a q insts Ea) as (_ & A3). destruct (A3 i regs0 Ei) as [A4 _]. rewrite (Hp q i A4) in A4. exact (Hn A4).
        - pose proof Ha as (d & Hsel & _).
          destruct (read_regs_live f a i d (proj1 Hsel) names [] [] s1 (proj1 HJ)) as (regs & s2 & E2).
          + intros r Hr. now cbn in Hr.
          + exact Hnd.
          + intros r Hr. exact (Hread a p i d r Ha (proj1 Hsel) Hr).
          + pose proof (read_regs_post f a i names [] [] s1 (proj1 HJ)) as P. unfold post in P. rewrite E2 in P.
            destruct P as (K1 & K2); [split; [discriminate|intros r []]|]. unfold post, mbind. rewrite E2. cbn.
            exact (JR_add f names dn fi s1 s2 a p i regs HJ K1 K2 Hp). }
      specialize (Q B addrs pk ins [] s). unfold post in Q.
      destruct (iter_do env f addrs pk ins (read_instance env x f names) [] s) as [[fi|e] s'].
      - exists fi, s'. split; [reflexivity|]. destruct Q as (fm & _ & _ & (J1 & _)); [| |exact J1].
        + split; [exact Hs|]. split; [discriminate|intros a p i []].
        + intros fm dn a p i rest Efm E Hx Hy Hz. split; [exact (prefix_pkg f fm addrs pk _ dn a p i rest Efm E)|]. split.
          * pose proof (tuples_nodup f addrs pk ins fm Efm HN) as Hu. rewrite E in Hu. apply NoDup_remove_2 in Hu.
            intros Hc. apply Hu. apply in_or_app. now left.
          * exact (loop_asked nm env created s0 H0 f addrs pk ins fm (a, p) i Efm Hx Hy Hz).
      - exfalso. destruct Q as [[]|(_ & [Q|(fm & Efm & [(a & p & Q1 & Q2 & Q3)|Q])])].
        + split; [exact Hs|]. split; [discriminate|intros a p i []].
        + intros fm dn a p i rest Efm E Hx Hy Hz. split; [exact (prefix_pkg f fm addrs pk _ dn a p i rest Efm E)|]. split.
          * pose proof (tuples_nodup f addrs pk ins fm Efm HN) as Hu. rewrite E in Hu. apply NoDup_remove_2 in Hu.
            intros Hc. apply Hu. apply in_or_app. now left.
          * exact (loop_asked nm env created s0 H0 f addrs pk ins fm (a, p) i Efm Hx Hy Hz).
        + congruence.
        + assert (fm = fmap) by congruence. subst fm. apply Q3. now apply Hva.
        + assert (fm = fmap) by congruence. subst fm. now apply Hnb.
    Qed.
  End Cmd.
End Env.
