(** Lemmas about histories of frequency settings, about setting both frequencies, and about restoring them. *)
From Coq Require Import ZifyBool.
From Verif Require Import Base L_Base L_Monad M_Text M_Sysfs S_Sysfs S_SysView M_CPUFreq M_PStates S_PStates L_PStates.

Lemma dget_pname (d : list (pname * fval)) pn val : dget pname_eqb ((pn, val) :: d) pn = Some val.
Proof.
  cbn. assert (E : pname_eqb pn pn = true).
  { destruct pn as [u m|n]; cbn; [now rewrite !Bool.eqb_reflx|apply Z.eqb_refl]. }
  now rewrite E.
Qed.

Lemma set_freq_mechs_ok {W K} (m : Z) (io : freq_io W K) rest b val keys w w' :
  set_freq io b val keys w = (Ok tt, w') -> set_freq_mechs ((m, io) :: rest) b val keys w = (Ok m, w').
Proof. intros E. cbn. now rewrite E. Qed.
Lemma set_freq_mechs_order {W K} (m : Z) (io : freq_io W K) rest b val keys w w' :
  set_freq io b val keys w = (Exn EFreqOrder, w') -> set_freq_mechs ((m, io) :: rest) b val keys w = (Exn EFreqOrder, w').
Proof. intros E. cbn. now rewrite E. Qed.

Section Generic.
  Context {W K : Type}.
  Variable v : fview W K.
  Variable io : freq_io W K.
  Variable quiet : W -> W -> Prop.
  Variable good : W -> Prop.
  Variable dom : K -> Prop.
  Variable rnd : K -> Z -> Z.
  Variable live : W -> bool -> Z -> K -> Prop.
  Variable Kdec : forall a b : K, {a = b} + {a <> b}.
  Hypothesis R : relied v io quiet good dom rnd live.

  (** ** Histories *)
  Definition sane (w : W) : Prop := good w /\ forall key, dom key -> ordered v w key.

  Lemma set_freq_keeps b val keys w : fails_cleanly v io good dom rnd -> rounds v good dom rnd ->
    sane w -> Forall dom keys ->
    let w' := snd (set_freq io b val keys w) in
    good w' /\
    (forall b' key, dom key -> v_cur v w' b' key = v_cur v w b' key \/
       (b' = b /\ exists f, fits v w b key f /\ v_cur v w' b' key = Ok (rnd key f))) /\
    (forall b' key, dom key -> v_limit v w' b' key = v_limit v w b' key).
  Proof.
    intros FC RO [G O] D. cbv zeta. unfold set_freq.
    destruct (validate_run v io quiet good dom rnd live R b val keys w G D) as (r1 & w1 & E1 & Q1 & G1 & H1).
    unfold mbind. rewrite E1.
    assert (Qc : forall b' key, v_cur v w1 b' key = v_cur v w b' key)
      by (intros; apply (quiet_cur v io quiet good dom rnd live R); exact Q1).
    assert (Ql : forall b' key, v_limit v w1 b' key = v_limit v w b' key)
      by (intros; apply (quiet_limit v io quiet good dom rnd live R); exact Q1).
    destruct r1 as [l|e].
    2:{ cbn. split; [exact G1|]. split; [intros; left; apply Qc|intros; apply Ql]. }
    destruct H1 as [Hk Hl]. rewrite Forall_forall in Hl.
    assert (Dl : forall key f, In (key, f) l -> dom key).
    { intros key f H. rewrite Forall_forall in D. apply D. rewrite <- Hk. change key with (fst (key, f)). now apply in_map. }
    set (I := fun w' => good w' /\
      (forall b' key, dom key -> v_cur v w' b' key = v_cur v w b' key \/
         (b' = b /\ exists f, In (key, f) l /\ v_cur v w' b' key = Ok (rnd key f))) /\
      (forall b' key, dom key -> v_limit v w' b' key = v_limit v w b' key)).
    assert (Ord : forall w', I w' -> forall key, dom key -> ordered v w' key).
    { intros w' (_ & C & _) key Dk. destruct (O key Dk) as (mn & mx & H1 & H2 & H3). destruct RO as [RM RF].
      assert (Fx : forall b0 x, v_cur v w b0 key = Ok x -> rnd key x = x) by (intros b0 x; now apply (RF w)).
      pose proof (Fx _ _ H1) as F1. pose proof (Fx _ _ H2) as F2.
      destruct (C true key Dk) as [E|(Eb & f & Hf & E)]; destruct (C false key Dk) as [E'|(Eb' & f' & Hf' & E')].
      - exists mn, mx. rewrite E, E'. auto.
      - destruct (Hl _ Hf') as [_ [_ (cur & Ec & Ho)]]. cbn [fst snd] in *. subst b. cbn in Ec, Ho.
        exists mn, (rnd key f'). split; [congruence|]. split; [exact E'|]. assert (cur = mn) by congruence. subst cur.
        rewrite <- F1. now apply RM.
      - destruct (Hl _ Hf) as [_ [_ (cur & Ec & Ho)]]. cbn [fst snd] in *. subst b. cbn in Ec, Ho.
        exists (rnd key f), mx. split; [exact E|]. split; [congruence|]. assert (cur = mx) by congruence. subst cur.
        rewrite <- F2. now apply RM.
      - congruence. }
    assert (P : post (mfor (freq2keys l) (fun fk => f_set io b (fst fk) (snd fk))) w1 (fun _ => I) (fun _ => I)).
    { apply (post_mfor _ (fun _ => I)).
      2:{ split; [exact G1|]. split; [intros; left; apply Qc|intros; apply Ql]. }
      intros pre [f ks] suf Ep w2 I2. cbn [fst snd]. pose proof I2 as (G2 & C2 & L2).
      assert (Hin : forall key, In key ks -> In (key, f) l).
      { intros key H. apply freq2keys_in. exists ks. split; [rewrite Ep; apply in_or_app; right; now left|exact H]. }
      assert (Dk : Forall dom ks) by (apply Forall_forall; intros key H; apply (Dl key f); auto).
      unfold post. destruct (f_set io b f ks w2) as [[[]|x] w3] eqn:E.
      - destruct (r_set _ _ _ _ _ _ _ R w2 w3 b f ks G2 Dk E) as (G3 & C3 & F3 & L3 & S3 & V3).
        split; [exact G3|]. split.
        + intros b' key Dkey. destruct (in_dec Kdec key ks) as [Hk1|Hk1]; [destruct (Bool.bool_dec b' b) as [->|Hb]|].
          * right. split; [reflexivity|]. exists f. split; [now apply Hin|now apply C3].
          * rewrite F3 by (tauto || exact Dkey). now apply C2.
          * rewrite F3 by (tauto || exact Dkey). now apply C2.
        + intros b' key Dkey. rewrite L3 by exact Dkey. now apply L2.
      - destruct (FC w2 w3 b f ks x G2 Dk (Ord w2 I2) E) as (G3 & C3 & L3).
        split; [exact G3|]. split.
        + intros b' key Dkey. destruct (C3 b' key Dkey) as [->|(-> & Hk1 & Ec)]; [now apply C2|].
          right. split; [reflexivity|]. exists f. split; [now apply Hin|exact Ec].
        + intros b' key Dkey. rewrite L3 by exact Dkey. now apply L2. }
    assert (Fin : I (snd (mfor (freq2keys l) (fun fk => f_set io b (fst fk) (snd fk)) w1))).
    { unfold post in P. destruct (mfor _ _ w1) as [[u|x] w2]; exact P. }
    destruct Fin as (G2 & C2 & L2). split; [exact G2|]. split; [|exact L2].
    intros b' key Dkey. destruct (C2 b' key Dkey) as [->|(-> & f & Hf & Ec)]; [now left|]. right.
    split; [reflexivity|]. exists f. split; [now apply (Hl (key, f))|exact Ec].
  Qed.

  Lemma set_freq_sane b val keys w : fails_cleanly v io good dom rnd -> rounds v good dom rnd ->
    sane w -> Forall dom keys -> sane (snd (set_freq io b val keys w)) /\
    (forall b' key, dom key -> v_limit v (snd (set_freq io b val keys w)) b' key = v_limit v w b' key) /\
    (rounds_limits v good dom rnd -> forall key, dom key -> limited v w key ->
       limited v (snd (set_freq io b val keys w)) key).
  Proof.
    intros FC RO SA D. destruct (set_freq_keeps b val keys w FC RO SA D) as (G' & C & L).
    set (w' := snd _) in *. clearbody w'. destruct SA as [G O]. destruct RO as [RM RF].
    split; [split; [exact G'|]|split; [exact L|]].
    - intros key Dk. destruct (O key Dk) as (mn & mx & H1 & H2 & H3).
      pose proof (RF w _ _ _ G Dk H1) as F1. pose proof (RF w _ _ _ G Dk H2) as F2.
      destruct (C true key Dk) as [E|(Eb & f & [_ (cur & Ec & Ho)] & E)];
        destruct (C false key Dk) as [E'|(Eb' & f' & [_ (cur' & Ec' & Ho')] & E')]; [| | |congruence].
      + exists mn, mx. rewrite E, E'. auto.
      + subst b. cbn in Ec', Ho'. assert (cur' = mn) by congruence. subst cur'.
        exists mn, (rnd key f'). split; [congruence|]. split; [exact E'|]. rewrite <- F1. now apply RM.
      + subst b. cbn in Ec, Ho. assert (cur = mx) by congruence. subst cur.
        exists (rnd key f), mx. split; [exact E|]. split; [congruence|]. rewrite <- F2. now apply RM.
    - intros RL key Dk (lo & hi & mn & mx & A1 & A2 & H1 & H2 & H3 & H4 & H5).
      pose proof (RF w _ _ _ G Dk H1) as F1. pose proof (RF w _ _ _ G Dk H2) as F2.
      pose proof (RL w _ _ _ G Dk A1) as F3. pose proof (RL w _ _ _ G Dk A2) as F4.
      assert (B : forall f, in_limits v w key f -> lo <= rnd key f <= hi).
      { intros f (lo' & hi' & B1 & B2 & B3). assert (lo' = lo) by congruence. assert (hi' = hi) by congruence. subst.
        split; [rewrite <- F3|rewrite <- F4]; now apply RM. }
      destruct (C true key Dk) as [E|(Eb & f & [In1 (cur & Ec & Ho)] & E)];
        destruct (C false key Dk) as [E'|(Eb' & f' & [In2 (cur' & Ec' & Ho')] & E')]; [| | |congruence];
        exists lo, hi; rewrite !L by exact Dk.
      + exists mn, mx. rewrite E, E'. auto 10.
      + subst b. cbn in Ec', Ho'. assert (cur' = mn) by congruence. subst cur'.
        exists mn, (rnd key f'). split; [exact A1|]. split; [exact A2|]. split; [congruence|]. split; [exact E'|].
        apply B in In2. assert (rnd key mn <= rnd key f') by now apply RM. lia.
      + subst b. cbn in Ec, Ho. assert (cur = mx) by congruence. subst cur.
        exists (rnd key f), mx. split; [exact A1|]. split; [exact A2|]. split; [exact E|]. split; [congruence|].
        apply B in In1. assert (rnd key f <= rnd key mx) by now apply RM. lia.
  Qed.

  Lemma history_sane ops : forall w, fails_cleanly v io good dom rnd -> rounds v good dom rnd ->
    sane w -> Forall (fun op => Forall dom (snd op)) ops -> sane (freq_history io ops w) /\
    (forall b' key, dom key -> v_limit v (freq_history io ops w) b' key = v_limit v w b' key) /\
    (rounds_limits v good dom rnd -> forall key, dom key -> limited v w key -> limited v (freq_history io ops w) key).
  Proof.
    induction ops as [|[[b val] keys] ops IH]; intros w FC RO SA D; [cbn; auto|].
    inversion D as [|? ? D1 D2]; subst. cbn [snd] in D1. cbn [freq_history].
    destruct (set_freq_sane b val keys w FC RO SA D1) as (S1 & L1 & M1).
    destruct (IH _ FC RO S1 D2) as (S2 & L2 & M2). split; [exact S2|]. split.
    - intros b' key Dk. rewrite L2 by exact Dk. now apply L1.
    - intros RL key Dk H. apply M2; [exact RL|exact Dk|]. now apply M1.
  Qed.

  (** ** One setting, if all can be read *)
  Definition stepped (b : bool) (g : K -> Z) (keys : list K) (w w' : W) : Prop :=
    good w' /\ (forall key, In key keys -> v_cur v w' b key = Ok (g key)) /\
    (forall b' key, dom key -> ~ (b' = b /\ In key keys) -> v_cur v w' b' key = v_cur v w b' key) /\
    (forall b' key, dom key -> v_limit v w' b' key = v_limit v w b' key) /\
    (forall b' f key, dom key -> live w b' f key -> live w' b' f key).

  Lemma set_run b val keys g w : good w -> Forall dom keys ->
    (forall key, In key keys -> means v w val keys key = Ok (g key) /\ in_limits v w key (g key) /\ live w b (g key) key /\
       exists cur, v_cur v w (negb b) key = Ok cur) ->
    exists r w', set_freq io b val keys w = (r, w') /\
      ((r = Ok tt /\ (forall key, In key keys -> in_order v w b key (g key)) /\
        stepped b (fun key => rnd key (g key)) keys w w') \/
       (r = Exn EFreqOrder /\ ~ (forall key, In key keys -> in_order v w b key (g key)) /\ quiet w w' /\ good w')).
  Proof.
    intros G D H. destruct (set_freq_run v io quiet good dom rnd live R b val keys w G D) as (r & w' & E & X).
    exists r, w'. split; [exact E|]. destruct X as [(A & B & C)|(A & Q & G' & e & -> & _ & B)].
    - left. assert (r = Ok tt).
      { apply C. intros key f Hk Hf. destruct (H key Hk) as (M & _ & L & _). congruence. }
      split; [assumption|]. destruct (B H0) as (G' & (S1 & S2 & S3) & _ & V'). split.
      + intros key Hk. destruct (A key Hk) as (f & Hf & _ & Ho). destruct (H key Hk) as (M & _). congruence.
      + split; [exact G'|]. split; [|auto]. intros key Hk. destruct (S1 key Hk) as (f & Hf & Ec).
        destruct (H key Hk) as (M & _). congruence.
    - right. split; [f_equal; apply B|].
      + intros key Hk. destruct (H key Hk) as (M & (lo & hi & L1 & L2 & _) & _ & Cu). split; [eauto|]. split; [eauto|]. split; [eauto|exact Cu].
      + intros key f Hk Hf. destruct (H key Hk) as (M & I & _). congruence.
      + split; [|auto]. intros Ho. apply A. intros key Hk. destruct (H key Hk) as (M & I & _). exists (g key). auto.
  Qed.

  Lemma quiet_stepped_l b g keys w w1 w2 : quiet w w1 -> stepped b g keys w1 w2 -> stepped b g keys w w2.
  Proof.
    intros Q (A & B & C & L & V). split; [exact A|]. split; [exact B|]. split; [|split].
    - intros b' key Dk N. rewrite C by assumption. now apply (quiet_cur v io quiet good dom rnd live R).
    - intros b' key Dk. rewrite L by assumption. now apply (quiet_limit v io quiet good dom rnd live R).
    - intros b' f key Dk HL. apply V; [exact Dk|]. exact (r_live _ _ _ _ _ _ _ R w w1 Q b' f key HL).
  Qed.

  (** ** Both frequencies *)
  Lemma stepped_both keys b mn mx w w1 w2 : Forall dom keys -> 
    stepped b (fun key => if b then mn else mx) keys w w1 ->
    stepped (negb b) (fun key => if b then mx else mn) keys w1 w2 -> good w2 /\ both_set v dom keys mn mx w w2.
  Proof.
    intros D (_ & B1 & C1 & L1 & _) (G2 & B2 & C2 & L2 & _). split; [exact G2|]. rewrite Forall_forall in D.
    split; [|split].
    - intros key Hk. specialize (B1 key Hk). specialize (B2 key Hk).
      assert (E : v_cur v w2 b key = v_cur v w1 b key) by (apply C2; [now apply D|]; destruct b; cbn; intros [X _]; discriminate).
      destruct b; cbn in *; split; congruence.
    - intros b' key Dk N. rewrite C2 by (tauto || exact Dk). apply C1; tauto.
    - intros b' key Dk. rewrite L2 by exact Dk. now apply L1.
  Qed.

  Section Pair.
    Variables (m : Z) (rest : list (Z * freq_io W K)) (keys : list K) (u : bool).
    Variable setp : pname -> fval -> M W Z.
    Hypothesis Hset : set_with ((m, io) :: rest) keys u setp.
    Variables mn mx : Z.
    Hypothesis Hle : mn <= mx.
    Variable w : W.
    Hypothesis G : good w.
    Hypothesis D : Forall dom keys.
    Hypothesis Hx : exact rnd keys mn /\ exact rnd keys mx.
    Hypothesis Hlim : forall key, In key keys -> limited v w key /\ in_limits v w key mn /\ in_limits v w key mx.
    Hypothesis Hlive : forall key, In key keys -> live w true mn key /\ live w false mx key.

    Let Dk : forall key, In key keys -> dom key.
    Proof. now apply Forall_forall. Qed.

    Definition val_of (b : bool) : Z := if b then mn else mx.

    (** Setting one of them in a state where the frequencies are as they were. *)
    Lemma pair_first b w0 : good w0 -> (forall b' key, dom key -> v_cur v w0 b' key = v_cur v w b' key) ->
      (forall b' key, dom key -> v_limit v w0 b' key = v_limit v w b' key) ->
      (forall b' f key, dom key -> live w b' f key -> live w0 b' f key) ->
      exists r w1, setp (PFreq u b) (VNum (val_of b)) w0 = (r, w1) /\
        ((r = Ok m /\ (forall key, In key keys -> in_order v w b key (val_of b)) /\ stepped b (fun _ => val_of b) keys w0 w1) \/
         (r = Exn EFreqOrder /\ ~ (forall key, In key keys -> in_order v w b key (val_of b)) /\ quiet w0 w1 /\ good w1)).
    Proof.
      intros G0 Ec El Ev.
      destruct (set_run b (VNum (val_of b)) keys (fun _ => val_of b) w0 G0 D) as (r & w1 & E & X).
      { intros key Hk. split; [reflexivity|]. pose proof (Dk key Hk) as Dkey.
        destruct (Hlim key Hk) as ((lo & hi & a & z & A1 & A2 & A3 & A4 & A5) & I1 & I2). destruct (Hlive key Hk) as [V1 V2].
        split; [|split].
        - unfold in_limits. rewrite !El by exact Dkey. destruct b; assumption.
        - apply Ev; [exact Dkey|]. destruct b; assumption.
        - rewrite Ec by exact Dkey. destruct b; cbn; eauto. }
      assert (Eo : (forall key, In key keys -> in_order v w0 b key (val_of b)) <-> (forall key, In key keys -> in_order v w b key (val_of b))).
      { split; intros H key Hk; specialize (H key Hk); unfold in_order in *.
        - now rewrite Ec in H by now apply Dk.
        - now rewrite Ec by now apply Dk. }
      rewrite (Hset b). destruct X as [(-> & Ho & S)|(-> & Ho & Q & G1)].
      - exists (Ok m), w1. split; [now apply set_freq_mechs_ok|]. left. split; [reflexivity|]. split; [now apply Eo|].
        destruct S as (S1 & S2 & S3). split; [exact S1|]. split; [|exact S3]. intros key Hk. rewrite S2 by exact Hk. f_equal.
        destruct Hx as [X1 X2]. destruct b; cbn; [now apply X1|now apply X2].
      - exists (Exn EFreqOrder), w1. split; [now apply set_freq_mechs_order|]. right. split; [reflexivity|].
        split; [|auto]. intros H. apply Ho. now apply Eo.
    Qed.

    (** Setting the other one after the first. *)
    Lemma pair_second b w1 w0 : good w0 -> (forall b' key, dom key -> v_limit v w0 b' key = v_limit v w b' key) ->
      (forall b' f key, dom key -> live w b' f key -> live w0 b' f key) -> stepped b (fun _ => val_of b) keys w0 w1 ->
      exists w2, setp (PFreq u (negb b)) (VNum (val_of (negb b))) w1 = (Ok m, w2) /\
        stepped (negb b) (fun _ => val_of (negb b)) keys w1 w2.
    Proof.
      intros G0 El Ev (G1 & B1 & C1 & L1 & V1).
      destruct (set_run (negb b) (VNum (val_of (negb b))) keys (fun _ => val_of (negb b)) w1 G1 D) as (r & w2 & E & X).
      { intros key Hk. split; [reflexivity|]. pose proof (Dk key Hk) as Dkey.
        destruct (Hlim key Hk) as (_ & I1 & I2). destruct (Hlive key Hk) as [U1 U2].
        split; [|split].
        - unfold in_limits. rewrite !L1, !El by exact Dkey. destruct b; assumption.
        - apply V1; [exact Dkey|]. apply Ev; [exact Dkey|]. destruct b; assumption.
        - rewrite Bool.negb_involutive. eauto. }
      rewrite (Hset (negb b)). destruct X as [(-> & Ho & S)|(-> & Ho & Q & G2)].
      - exists w2. split; [now apply set_freq_mechs_ok|].
        destruct S as (S1 & S2 & S3). split; [exact S1|]. split; [|exact S3]. intros key Hk. rewrite S2 by exact Hk. f_equal.
        destruct Hx as [X1 X2]. destruct b; cbn; [now apply X2|now apply X1].
      - exfalso. apply Ho. intros key Hk. exists (val_of b). rewrite Bool.negb_involutive. split; [now apply B1|].
        destruct b; cbn; exact Hle.
    Qed.

    Let Wc : forall b' key, dom key -> v_cur v w b' key = v_cur v w b' key.
    Proof. reflexivity. Qed.

    Notation NMin := (PFreq u true).
    Notation NMax := (PFreq u false).

    Lemma names : pname_eqb NMin NMin = true /\ pname_eqb NMax NMax = true /\ pname_eqb NMin NMax = false /\ pname_eqb NMax NMin = false.
    Proof. destruct u; auto. Qed.

    Lemma ddel_names (a z : Z) :
      ddel pname_eqb [(NMin, VNum a); (NMax, VNum z)] NMin = [(NMax, VNum z)] /\
      ddel pname_eqb [(NMax, VNum z); (NMin, VNum a)] NMax = [(NMin, VNum a)] /\
      ddel pname_eqb (ddel pname_eqb [(NMin, VNum a); (NMax, VNum z)] NMax) NMin = [] /\
      ddel pname_eqb [(NMin, VNum a)] NMin = [] /\ ddel pname_eqb [(NMax, VNum z)] NMax = [].
    Proof. destruct u; repeat split. Qed.

    Lemma min_first_l :
      exists r w', set_each setp [NMin; NMax] [(NMin, VNum mn); (NMax, VNum mx)] [] w = (r, w') /\
        ((r = Ok [(NMin, m); (NMax, m)] \/ r = Ok [(NMax, m); (NMin, m)]) /\ good w' /\ both_set v dom keys mn mx w w' \/
         r = Exn EFreqOrder /\ quiet w w' /\
         ~ (forall key, In key keys -> in_order v w true key mn) /\ ~ (forall key, In key keys -> in_order v w false key mx)).
    Proof.
      destruct names as (N1 & N2 & N3 & N4). destruct (ddel_names mn mx) as (M1 & M2 & M3 & M4 & M5).
      destruct (pair_first true w G Wc ltac:(reflexivity) ltac:(auto)) as (r1 & w1 & E1 & X1). cbn [val_of] in E1.
      destruct X1 as [(-> & Ho & S1)|(-> & Ho & Q1 & G1)].
      - destruct (pair_second true w1 w G ltac:(reflexivity) ltac:(auto) S1) as (w2 & E2 & S2). cbn [negb val_of] in E2.
        exists (Ok [(NMin, m); (NMax, m)]), w2. split.
        + cbn [set_each]. unfold mbind at 1, pstates_set_prop at 1, base_set_prop at 1. cbn [dget]. rewrite N1.
          unfold mbind at 1. rewrite E1. unfold ret at 1. cbn [dset]. rewrite M1.
          unfold mbind at 1, pstates_set_prop at 1, base_set_prop at 1. cbn [dget]. rewrite N2.
          unfold mbind at 1. rewrite E2. unfold ret at 1. cbn [dset]. rewrite N4. reflexivity.
        + left. split; [now left|]. now apply (stepped_both keys true mn mx w w1 w2).
      - destruct (pair_first false w1 G1) as (r2 & w2 & E2 & X2).
        { intros. now apply (quiet_cur v io quiet good dom rnd live R). }
        { intros. now apply (quiet_limit v io quiet good dom rnd live R). }
        { intros b' f key _ HL. exact (r_live _ _ _ _ _ _ _ R w w1 Q1 b' f key HL). }
        cbn [val_of] in E2, X2. destruct X2 as [(-> & Ho2 & S2)|(-> & Ho2 & Q2 & G2)].
        + destruct (pair_second false w2 w1 G1) as (w3 & E3 & S3); [| |exact S2|].
          { intros. now apply (quiet_limit v io quiet good dom rnd live R). }
          { intros b' f key _ HL. exact (r_live _ _ _ _ _ _ _ R w w1 Q1 b' f key HL). }
          cbn [negb val_of] in E3.
          exists (Ok [(NMax, m); (NMin, m)]), w3. split.
          * cbn [set_each]. unfold mbind at 1, pstates_set_prop at 1, base_set_prop at 1. cbn [dget]. rewrite N1.
            unfold mbind at 1. rewrite E1. cbn [other_freq dget]. rewrite N4, N2.
            unfold mbind at 1. rewrite E2. unfold mbind at 1. rewrite E3. unfold ret at 1. rewrite M3. cbn [dset]. rewrite N3.
            unfold mbind at 1, pstates_set_prop at 1, base_set_prop at 1. reflexivity.
          * left. split; [now right|]. apply (stepped_both keys false mn mx w w2 w3); [exact D| |exact S3].
            apply (quiet_stepped_l _ _ _ _ w1); assumption.
        + exists (Exn EFreqOrder), w2. split.
          * cbn [set_each]. unfold mbind at 1, pstates_set_prop at 1, base_set_prop at 1. cbn [dget]. rewrite N1.
            unfold mbind at 1. rewrite E1. cbn [other_freq dget]. rewrite N4, N2.
            unfold mbind at 1. rewrite E2. reflexivity.
          * right. split; [reflexivity|]. split; [|split; assumption]. now apply (r_trans _ _ _ _ _ _ _ R _ w1).
    Qed.

    Lemma max_first_l :
      exists r w', set_each setp [NMax; NMin] [(NMax, VNum mx); (NMin, VNum mn)] [] w = (r, w') /\
        (r = Ok [(NMax, m); (NMin, m)] /\ good w' /\ both_set v dom keys mn mx w w' \/
         r = Exn EFreqOrder /\ quiet w w' /\ ~ (forall key, In key keys -> in_order v w false key mx)).
    Proof.
      destruct names as (N1 & N2 & N3 & N4). destruct (ddel_names mn mx) as (M1 & M2 & M3 & M4 & M5).
      destruct (pair_first false w G Wc ltac:(reflexivity) ltac:(auto)) as (r1 & w1 & E1 & X1). cbn [val_of] in E1.
      destruct X1 as [(-> & Ho & S1)|(-> & Ho & Q1 & G1)].
      - destruct (pair_second false w1 w G ltac:(reflexivity) ltac:(auto) S1) as (w2 & E2 & S2). cbn [negb val_of] in E2.
        exists (Ok [(NMax, m); (NMin, m)]), w2. split.
        + cbn [set_each]. unfold mbind at 1, pstates_set_prop at 1, base_set_prop at 1. cbn [dget]. rewrite N2.
          unfold mbind at 1. rewrite E1. unfold ret at 1. cbn [dset]. rewrite M2.
          unfold mbind at 1, pstates_set_prop at 1, base_set_prop at 1. cbn [dget]. rewrite N1.
          unfold mbind at 1. rewrite E2. unfold ret at 1. cbn [dset]. rewrite N3. reflexivity.
        + left. split; [reflexivity|]. now apply (stepped_both keys false mn mx w w1 w2).
      - exists (Exn EFreqOrder), w1. split.
        + cbn [set_each]. unfold mbind at 1, pstates_set_prop at 1, base_set_prop at 1. cbn [dget]. rewrite N2.
          unfold mbind at 1. rewrite E1. reflexivity.
        + right. auto.
    Qed.
  End Pair.

  (** ** Restoring *)
  Section Restore.
    Variables (m : Z) (rest : list (Z * freq_io W K)) (keys : list K) (u : bool).
    Variable setn : pname -> fval -> list K -> M W unit.
    Hypothesis Hset : restored_with ((m, io) :: rest) u setn.
    Variable sav : bool -> K -> Z.
    Hypothesis D : Forall dom keys.
    Hypothesis RM : forall key x y, dom key -> x <= y -> rnd key x <= rnd key y.

    Let Dk : forall key, In key keys -> dom key.
    Proof. now apply Forall_forall. Qed.

    Notation rp := (restore_prop setn VMin VMax).

    Lemma setn_ok b val nums w w' : set_freq io b val nums w = (Ok tt, w') -> setn (PFreq u b) val nums w = (Ok tt, w').
    Proof. intros E. rewrite Hset. now rewrite (set_freq_mechs_ok m io rest b val nums w w' E). Qed.
    Lemma setn_order b val nums w w' : set_freq io b val nums w = (Exn EFreqOrder, w') ->
      setn (PFreq u b) val nums w = (Exn EFreqOrder, w').
    Proof. intros E. rewrite Hset. now rewrite (set_freq_mechs_order m io rest b val nums w w' E). Qed.

    (** What is needed to restore frequency 'b' from any state. *)
    Definition ready (b : bool) (w : W) : Prop :=
      good w /\ saved_ok v rnd live sav keys w /\
      forall key, In key keys -> (exists c, v_cur v w b key = Ok c /\ in_limits v w key c) /\ exists c, v_cur v w (negb b) key = Ok c.

    Definition changes (b : bool) (nums : list K) (w w' : W) : Prop :=
      (forall key, In key nums -> v_cur v w' b key = Ok (sav b key)) /\
      (forall key, dom key -> ~ In key nums -> v_cur v w' b key = v_cur v w b key) /\
      (forall key, dom key -> ~ In key nums -> v_cur v w' (negb b) key = v_cur v w (negb b) key) /\
      (forall b' key, dom key -> v_limit v w' b' key = v_limit v w b' key) /\
      (forall b' f key, dom key -> live w b' f key -> live w' b' f key).

    Lemma saved_step w w' : (forall b' key, dom key -> v_limit v w' b' key = v_limit v w b' key) ->
      (forall b' f key, dom key -> live w b' f key -> live w' b' f key) ->
      saved_ok v rnd live sav keys w -> saved_ok v rnd live sav keys w'.
    Proof.
      intros L V S key Hk. destruct (S key Hk) as (S1 & S2 & S3). pose proof (Dk key Hk) as Dkey.
      split; [|split; [exact S2|]].
      - intros b. destruct (S1 b) as (A & B & C). split; [|split; [exact B|auto]]. unfold in_limits. now rewrite !L.
      - intros b f Hf. rewrite L in Hf by exact Dkey. auto.
    Qed.

    Lemma lim_step w w' key x : (forall b' key, dom key -> v_limit v w' b' key = v_limit v w b' key) ->
      dom key -> in_limits v w key x -> in_limits v w' key x.
    Proof. intros L Dkey H. unfold in_limits. now rewrite !L. Qed.

    Lemma restore_group b f nums w : ready b w -> incl nums keys -> (forall key, In key nums -> f = sav b key) ->
      exists w', rp (PFreq u b) (VNum f) nums w = (Ok tt, w') /\ ready b w' /\ changes b nums w w'.
    Proof.
      intros (G & S & C) Hin Hf.
      assert (Dn : Forall dom nums) by (apply Forall_forall; intros key Hk; apply Dk; auto).
      assert (Dn' : forall key, In key nums -> dom key) by (intros key Hk; apply Dk; auto).
      assert (Rx : forall key, In key nums -> rnd key f = f).
      { intros key Hk. rewrite (Hf key Hk). now apply S, Hin. }
      destruct (set_run b (VNum f) nums (fun _ => f) w G Dn) as (r1 & w1 & E1 & X1).
      { intros key Hk. destruct (S key (Hin key Hk)) as (S1 & _). destruct (S1 b) as (A & B & L).
        rewrite (Hf key Hk). split; [reflexivity|]. split; [exact A|]. split; [exact L|]. now apply C, Hin. }
      destruct X1 as [(-> & Ho & (G1 & B1 & C1 & L1 & V1))|(-> & Ho & Q1 & G1)].
      - exists w1. split; [unfold restore_prop; now rewrite (setn_ok _ _ _ _ _ E1)|]. split.
        + split; [exact G1|]. split; [now apply (saved_step w w1)|]. intros key Hk. destruct (C key Hk) as ((c & Ec & Il) & c' & Ec').
          assert (Ex : v_cur v w1 (negb b) key = Ok c') by (rewrite C1; [exact Ec'|now apply Dk|destruct b; intros [X _]; discriminate]).
          split; [|eauto]. destruct (in_dec Kdec key nums) as [Hn|Hn].
          * exists (sav b key). rewrite B1, Rx, (Hf key Hn) by exact Hn. split; [reflexivity|].
            apply (lim_step w w1); [exact L1|now apply Dk|]. now apply S.
          * exists c. rewrite C1 by (try apply Dk; tauto). split; [exact Ec|]. apply (lim_step w w1); auto.
        + split; [intros key Hk; rewrite B1, Rx, (Hf key Hk) by exact Hk; reflexivity|].
          split; [intros; apply C1; tauto|]. split; [intros; apply C1; tauto|]. split; assumption.
      - (* the other one is moved out of the way *)
        assert (Qc : forall b' key, v_cur v w1 b' key = v_cur v w b' key)
          by (intros; apply (quiet_cur v io quiet good dom rnd live R); exact Q1).
        assert (Ql : forall b' key, v_limit v w1 b' key = v_limit v w b' key)
          by (intros; apply (quiet_limit v io quiet good dom rnd live R); exact Q1).
        assert (Qv : forall b' f' key, live w b' f' key -> live w1 b' f' key)
          by (intros b' f' key HL; exact (r_live _ _ _ _ _ _ _ R w w1 Q1 b' f' key HL)).
        set (ov := if b then VMax else VMin).
        set (lim := fun key => match v_limit v w (negb b) key with Ok x => x | Exn _ => 0 end).
        assert (Elim : forall key, In key nums -> v_limit v w (negb b) key = Ok (lim key) /\ in_limits v w key (lim key) /\
          (if b then f <= lim key else lim key <= f)).
        { intros key Hk. destruct (S key (Hin key Hk)) as (S1 & _). destruct (S1 b) as ((lo & hi & A1 & A2 & A3) & _).
          rewrite <- (Hf key Hk) in A3. unfold lim. destruct b; cbn [negb] in *.
          - rewrite A2. split; [reflexivity|]. split; [exists lo, hi; repeat split; auto; lia|lia].
          - rewrite A1. split; [reflexivity|]. split; [exists lo, hi; repeat split; auto; lia|lia]. }
        destruct (set_run (negb b) ov nums lim w1 G1 Dn) as (r2 & w2 & E2 & X2).
        { intros key Hk. destruct (Elim key Hk) as (A & B & _). split; [|split; [|split]].
          - unfold ov. destruct b; cbn in *; rewrite Ql; exact A.
          - unfold in_limits. rewrite !Ql. exact B.
          - apply Qv. destruct (S key (Hin key Hk)) as (_ & _ & S3). now apply S3.
          - rewrite Bool.negb_involutive, Qc. destruct (C key (Hin key Hk)) as ((c & Ec & _) & _). eauto. }
        destruct X2 as [(-> & Ho2 & (G2 & B2 & C2 & L2 & V2))|(-> & Ho2 & _)].
        2:{ exfalso. apply Ho2. intros key Hk. destruct (C key (Hin key Hk)) as ((c & Ec & (lo & hi & A1 & A2 & A3)) & _).
            exists c. rewrite Bool.negb_involutive, Qc. split; [exact Ec|]. destruct (Elim key Hk) as (Z1 & _).
            clearbody lim. destruct b; cbn [negb] in *.
            - rewrite A2 in Z1. injection Z1 as <-. lia.
            - rewrite A1 in Z1. injection Z1 as <-. lia. }
        assert (L02 : forall b' key, dom key -> v_limit v w2 b' key = v_limit v w b' key)
          by (intros b' key Dkey; rewrite L2 by exact Dkey; apply Ql).
        assert (V02 : forall b' f' key, dom key -> live w b' f' key -> live w2 b' f' key)
          by (intros b' f' key Dkey HL; apply V2; [exact Dkey|]; now apply Qv).
        destruct (set_run b (VNum f) nums (fun _ => f) w2 G2 Dn) as (r3 & w3 & E3 & X3).
        { intros key Hk. destruct (S key (Hin key Hk)) as (S1 & _). destruct (S1 b) as (A & B & L). pose proof (Dn' key Hk) as Dkey.
          rewrite (Hf key Hk). split; [reflexivity|]. split; [unfold in_limits; rewrite !L02 by exact Dkey; exact A|].
          split; [now apply V02|]. eauto. }
        destruct X3 as [(-> & Ho3 & (G3 & B3 & C3 & L3 & V3))|(-> & Ho3 & _)].
        2:{ exfalso. apply Ho3. intros key Hk. exists (rnd key (lim key)). split; [now apply B2|].
            destruct (Elim key Hk) as (_ & _ & Z). pose proof (Rx key Hk). destruct b.
            - rewrite <- H. apply RM; [now apply Dn'|exact Z].
            - rewrite <- H. apply RM; [now apply Dn'|exact Z]. }
        assert (L03 : forall b' key, dom key -> v_limit v w3 b' key = v_limit v w b' key)
          by (intros b' key Dkey; rewrite L3 by exact Dkey; now apply L02).
        assert (V03 : forall b' f' key, dom key -> live w b' f' key -> live w3 b' f' key)
          by (intros b' f' key Dkey HL; apply V3; [exact Dkey|]; now apply V02).
        assert (Nb : negb b <> b) by (destruct b; discriminate).
        assert (C03 : forall b' key, dom key -> ~ In key nums -> v_cur v w3 b' key = v_cur v w b' key).
        { intros b' key Dkey Hn. rewrite C3 by tauto. rewrite C2 by tauto. apply Qc. }
        exists w3. split.
        { unfold restore_prop. rewrite (setn_order _ _ _ _ _ E1). unfold mbind. unfold ov in E2. destruct b; cbn [negb] in *.
          - rewrite (setn_ok _ _ _ _ _ E2). now apply setn_ok.
          - rewrite (setn_ok _ _ _ _ _ E2). now apply setn_ok. }
        split.
        + split; [exact G3|]. split; [now apply (saved_step w w3)|]. intros key Hk. destruct (C key Hk) as ((c & Ec & Il) & c' & Ec').
          destruct (in_dec Kdec key nums) as [Hn|Hn].
          * split.
            -- exists (sav b key). rewrite B3, Rx, (Hf key Hn) by exact Hn. split; [reflexivity|].
               apply (lim_step w w3); [exact L03|now apply Dk|]. now apply S.
            -- rewrite C3 by (try (now apply Dk); tauto). eauto.
          * rewrite !C03 by (try (now apply Dk); tauto). split; [|eauto]. exists c. split; [exact Ec|].
            apply (lim_step w w3); auto.
        + split; [intros key Hk; rewrite B3, Rx, (Hf key Hk) by exact Hk; reflexivity|].
          split; [auto|]. split; [auto|]. split; assumption.
    Qed.

    (** All the groups of the first property. *)
    Lemma restore_first b groups : forall w, ready b w ->
      (forall val nums, In (val, nums) groups -> exists f, val = VNum f /\ forall key, In key nums -> In key keys /\ f = sav b key) ->
      exists w', mfor groups (fun vn => rp (PFreq u b) (fst vn) (snd vn)) w = (Ok tt, w') /\ ready b w' /\
        (forall key, (exists val nums, In (val, nums) groups /\ In key nums) -> v_cur v w' b key = Ok (sav b key)) /\
        (forall key, In key keys -> v_cur v w b key = Ok (sav b key) -> v_cur v w' b key = Ok (sav b key)) /\
        (forall b' key, dom key -> ~ In key keys -> v_cur v w' b' key = v_cur v w b' key) /\
        (forall b' key, dom key -> v_limit v w' b' key = v_limit v w b' key).
    Proof.
      induction groups as [|[val nums] groups IH]; intros w Rd H.
      - exists w. split; [reflexivity|]. split; [exact Rd|]. split; [intros key (? & ? & [] & _)|]. auto.
      - destruct (H val nums (or_introl eq_refl)) as (f & -> & Hf).
        destruct (restore_group b f nums w Rd) as (w1 & E1 & Rd1 & (A1 & A2 & A3 & A4 & A5)).
        { intros key Hk. now apply Hf. } { intros key Hk. now apply Hf. }
        destruct (IH w1 Rd1) as (w2 & E2 & Rd2 & B1 & B2 & B3 & B4).
        { intros val' nums' Hin. apply H. now right. }
        assert (Step : forall key, In key keys -> v_cur v w b key = Ok (sav b key) -> v_cur v w1 b key = Ok (sav b key)).
        { intros key Hk E. destruct (in_dec Kdec key nums) as [Hn|Hn]; [now apply A1|]. rewrite A2; [exact E|now apply Dk|exact Hn]. }
        exists w2. split; [cbn [mfor fst snd]; unfold mbind; now rewrite E1|]. split; [exact Rd2|].
        split; [|split; [|split]].
        + intros key (val' & nums' & [E|Hin] & Hk); [|apply B1; eauto].
          injection E as <- <-. apply B2; [now apply Hf|]. now apply A1.
        + intros key Hk E. apply B2; [exact Hk|]. now apply Step.
        + intros b' key Dkey Hn. rewrite B3 by assumption. assert (Hn' : ~ In key nums) by (intros Hx; apply Hn; now apply Hf).
          destruct b', b; cbn in *; auto.
        + intros b' key Dkey. rewrite B4 by exact Dkey. now apply A4.
    Qed.

    (** All the groups of the second property. *)
    Lemma restore_second b groups : forall w, good w -> saved_ok v rnd live sav keys w -> (forall key, In key keys -> v_cur v w (negb b) key = Ok (sav (negb b) key)) ->
      (forall val nums, In (val, nums) groups -> exists f, val = VNum f /\ forall key, In key nums -> In key keys /\ f = sav b key) ->
      exists w', mfor groups (fun vn => rp (PFreq u b) (fst vn) (snd vn)) w = (Ok tt, w') /\ good w' /\
        (forall key, (exists val nums, In (val, nums) groups /\ In key nums) -> v_cur v w' b key = Ok (sav b key)) /\
        (forall key, In key keys -> v_cur v w b key = Ok (sav b key) -> v_cur v w' b key = Ok (sav b key)) /\
        (forall key, In key keys -> v_cur v w' (negb b) key = Ok (sav (negb b) key)) /\
        (forall b' key, dom key -> ~ In key keys -> v_cur v w' b' key = v_cur v w b' key) /\
        (forall b' key, dom key -> v_limit v w' b' key = v_limit v w b' key).
    Proof.
      induction groups as [|[val nums] groups IH]; intros w G S Oth H.
      - exists w. split; [reflexivity|]. split; [exact G|]. split; [intros key (? & ? & [] & _)|]. auto.
      - destruct (H val nums (or_introl eq_refl)) as (f & -> & Hf).
        assert (Dn : Forall dom nums) by (apply Forall_forall; intros key Hk; now apply Dk, Hf).
        destruct (set_run b (VNum f) nums (fun _ => f) w G Dn) as (r1 & w1 & E1 & X1).
        { intros key Hk. destruct (Hf key Hk) as (Hi & ->). destruct (S key Hi) as (S1 & _). destruct (S1 b) as (A & B & L).
          split; [reflexivity|]. split; [exact A|]. split; [exact L|]. eauto. }
        destruct X1 as [(-> & _ & (G1 & B1 & C1 & L1 & V1))|(-> & Ho & _)].
        2:{ exfalso. apply Ho. intros key Hk. destruct (Hf key Hk) as (Hi & ->). exists (sav (negb b) key).
            split; [now apply Oth|]. destruct (S key Hi) as (_ & S2 & _). destruct b; cbn; lia. }
        assert (Nb : negb b <> b) by (destruct b; discriminate).
        assert (Bv : forall key, In key nums -> v_cur v w1 b key = Ok (sav b key)).
        { intros key Hk. destruct (Hf key Hk) as (Hi & Ef). destruct (S key Hi) as (S1 & _). destruct (S1 b) as (_ & B & _).
          rewrite B1 by exact Hk. rewrite Ef. now rewrite B. }
        assert (Ot1 : forall key, In key keys -> v_cur v w1 (negb b) key = Ok (sav (negb b) key)).
        { intros key Hk. rewrite C1; [now apply Oth|now apply Dk|tauto]. }
        assert (Step : forall key, In key keys -> v_cur v w b key = Ok (sav b key) -> v_cur v w1 b key = Ok (sav b key)).
        { intros key Hk E. destruct (in_dec Kdec key nums) as [Hn|Hn]; [now apply Bv|]. rewrite C1; [exact E|now apply Dk|tauto]. }
        assert (S1 : saved_ok v rnd live sav keys w1) by now apply (saved_step w w1).
        destruct (IH w1 G1 S1 Ot1) as (w2 & E2 & G2 & X1 & X2 & X3 & X4 & X5).
        { intros val' nums' Hin. apply H. now right. }
        exists w2. split; [cbn [mfor fst snd]; unfold mbind, restore_prop at 1; now rewrite (setn_ok _ _ _ _ _ E1)|].
        split; [exact G2|]. split; [|split; [|split; [exact X3|split]]].
        + intros key (val' & nums' & [E|Hin] & Hk); [|apply X1; eauto].
          injection E as <- <-. apply X2; [now apply Hf|]. now apply Bv.
        + intros key Hk E. apply X2; [exact Hk|]. now apply Step.
        + intros b' key Dkey Hn. rewrite X4 by assumption. apply C1; [exact Dkey|]. intros (_ & Hx). apply Hn. now apply Hf.
        + intros b' key Dkey. rewrite X5 by exact Dkey. now apply L1.
    Qed.

    (** The properties that have nothing to do with the frequencies. *)
    Definition neutral (pv : pname * list (fval * list K)) : Prop :=
      (forall b, fst pv <> PFreq u b) /\ unrelated v good dom live setn (fst pv).

    Definition kept (w w' : W) : Prop :=
      good w' /\ forall b key, dom key -> v_cur v w' b key = v_cur v w b key /\ v_limit v w' b key = v_limit v w b key /\
        forall f, live w b f key -> live w' b f key.

    Lemma neutral_run l : Forall neutral l -> forall w, good w ->
      exists w', mfor l (fun pv => mfor (snd pv) (fun vn => rp (fst pv) (fst vn) (snd vn))) w = (Ok tt, w') /\ kept w w'.
    Proof.
      assert (One : forall pn groups, unrelated v good dom live setn pn -> forall w, good w ->
        exists w', mfor groups (fun vn => rp pn (fst vn) (snd vn)) w = (Ok tt, w') /\ kept w w').
      { intros pn groups Un. induction groups as [|[val nums] groups IH]; intros w G.
        - exists w. split; [reflexivity|]. split; [exact G|auto].
        - destruct (Un w val nums G) as (w1 & E1 & G1 & K1). destruct (IH w1 G1) as (w2 & E2 & G2 & K2).
          exists w2. split; [cbn [mfor fst snd]; unfold mbind, restore_prop at 1; now rewrite E1|]. split; [exact G2|].
          intros b key Dkey. destruct (K1 b key Dkey) as (A1 & A2 & A3). destruct (K2 b key Dkey) as (B1 & B2 & B3).
          split; [congruence|]. split; [congruence|]. auto. }
      induction l as [|[pn groups] l IH]; intros H w G.
      - exists w. split; [reflexivity|]. split; [exact G|auto].
      - inversion H as [|? ? [_ H1] H2]; subst. cbn [fst] in H1. destruct (One pn groups H1 w G) as (w1 & E1 & G1 & K1).
        destruct (IH H2 w1 G1) as (w2 & E2 & G2 & K2). exists w2. split; [cbn [mfor fst snd]; unfold mbind; now rewrite E1|].
        split; [exact G2|]. intros b key Dkey. destruct (K1 b key Dkey) as (A1 & A2 & A3). destruct (K2 b key Dkey) as (B1 & B2 & B3).
        split; [congruence|]. split; [congruence|]. auto.
    Qed.

    Lemma kept_ready b w w' : kept w w' -> ready b w -> ready b w'.
    Proof.
      intros [G' Kp] (G & S & C). split; [exact G'|]. split.
      - apply (saved_step w w'); [| |exact S]; intros; now apply Kp.
      - intros key Hk. destruct (C key Hk) as ((c & Ec & Il) & c' & Ec'). pose proof (Dk key Hk) as Dkey.
        destruct (Kp b key Dkey) as (-> & _). destruct (Kp (negb b) key Dkey) as (-> & _). split; [|eauto].
        exists c. split; [exact Ec|]. apply (lim_step w w'); [|exact Dkey|exact Il]. intros; now apply Kp.
    Qed.

    Lemma restore_l b1 pre g1 mid g2 suf w : good w -> saved_ok v rnd live sav keys w ->
      (forall key, In key keys -> limited v w key) ->
      Forall neutral pre -> Forall neutral mid -> Forall neutral suf ->
      groups_of sav b1 keys g1 -> groups_of sav (negb b1) keys g2 ->
      exists w', mfor (pre ++ (PFreq u b1, g1) :: mid ++ (PFreq u (negb b1), g2) :: suf)
          (fun pv => mfor (snd pv) (fun vn => rp (fst pv) (fst vn) (snd vn))) w = (Ok tt, w') /\ good w' /\
        (forall b key, In key keys -> v_cur v w' b key = Ok (sav b key)) /\
        (forall b key, dom key -> ~ In key keys -> v_cur v w' b key = v_cur v w b key) /\
        (forall b key, dom key -> v_limit v w' b key = v_limit v w b key).
    Proof.
      intros G S Hl Npre Nmid Nsuf (H1 & H1') (H2 & H2').
      assert (Rd : ready b1 w).
      { split; [exact G|]. split; [exact S|]. intros key Hk.
        destruct (Hl key Hk) as (lo & hi & mn & mx & A1 & A2 & A3 & A4 & A5 & A6 & A7).
        destruct b1; cbn [negb].
        - split; [|eauto]. exists mn. split; [exact A3|]. exists lo, hi. repeat split; auto; lia.
        - split; [|eauto]. exists mx. split; [exact A4|]. exists lo, hi. repeat split; auto; lia. }
      destruct (neutral_run pre Npre w G) as (w1 & E1 & K1). pose proof (kept_ready b1 w w1 K1 Rd) as Rd1.
      destruct (restore_first b1 g1 w1 Rd1 H1) as (w2 & E2 & Rd2 & A1 & A2 & A3 & A4).
      assert (Good2 : good w2) by apply Rd2.
      destruct (neutral_run mid Nmid w2 Good2) as (w3 & E3 & K3). pose proof (kept_ready b1 w2 w3 K3 Rd2) as Rd3.
      assert (V3 : forall key, In key keys -> v_cur v w3 b1 key = Ok (sav b1 key)).
      { intros key Hk. destruct K3 as [_ K3]. destruct (K3 b1 key (Dk key Hk)) as (-> & _). apply A1. now apply H1'. }
      destruct Rd3 as (G3 & S3 & _).
      destruct (restore_second (negb b1) g2 w3 G3 S3) as (w4 & E4 & G4 & B1 & _ & B2 & B3 & B4).
      { intros key Hk. rewrite Bool.negb_involutive. now apply V3. }
      { exact H2. }
      destruct (neutral_run suf Nsuf w4 G4) as (w5 & E5 & G5 & K5).
      exists w5. split.
      { rewrite mfor_app. unfold mbind. rewrite E1. cbn [mfor fst snd]. unfold mbind. rewrite E2.
        change (mfor (mid ++ (PFreq u (negb b1), g2) :: suf) (fun pv => mfor (snd pv) (fun vn => rp (fst pv) (fst vn) (snd vn))) w2 = (Ok tt, w5)).
        rewrite mfor_app. unfold mbind. rewrite E3. cbn [mfor fst snd]. unfold mbind. rewrite E4. exact E5. }
      split; [exact G5|]. split; [|split].
      - intros b key Hk. destruct (K5 b key (Dk key Hk)) as (-> & _).
        destruct (Bool.bool_dec b (negb b1)) as [->|Hb]; [apply B1; now apply H2'|].
        assert (b = b1) by (destruct b, b1; cbn in Hb; congruence). subst b.
        specialize (B2 key Hk). now rewrite Bool.negb_involutive in B2.
      - intros b key Dkey Hn. destruct (K5 b key Dkey) as (-> & _). rewrite B3 by assumption.
        destruct K3 as [_ K3]. destruct (K3 b key Dkey) as (-> & _). rewrite A3 by assumption. now apply K1.
      - intros b key Dkey. destruct (K5 b key Dkey) as (_ & -> & _). rewrite B4 by assumption.
        destruct K3 as [_ K3]. destruct (K3 b key Dkey) as (_ & -> & _). rewrite A4 by assumption. now apply K1.
    Qed.
  End Restore.
End Generic.
