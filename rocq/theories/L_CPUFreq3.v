(** The properties of CPU frequency settings via sysfs. *)
From Coq Require Import ZifyBool.
From Verif Require Import Base L_Base L_Monad M_Text S_Text L_Text M_Sysfs S_Sysfs L_Sysfs S_SysView L_SysView
  M_CPUFreq M_PStates S_PStates L_PStates L_PStates2 L_CPUFreq L_CPUFreq2.

#[local] Arguments cpufreq_path : simpl never.

(** Fewer keys. *)
Lemma relied_less {W K} (v : fview W K) io quiet good (dom dom' : K -> Prop) rnd live :
  (forall key, dom' key -> dom key) -> relied v io quiet good dom rnd live -> relied v io quiet good dom' rnd live.
Proof.
  intros H [R1 R2 R3 R4 R5 R6 R7 R8 R9].
  assert (F : forall keys, Forall dom' keys -> Forall dom keys) by (intros keys; apply Forall_impl, H).
  constructor; auto.
  - intros w w' b f keys G D E. destruct (R8 w w' b f keys G (F keys D) E) as (A1 & A2 & A3 & A4 & A5 & A6).
    split; [exact A1|]. split; [exact A2|]. split; [auto|]. split; [auto|]. split; auto.
Qed.

(** Several mechanisms. *)
Lemma acceptable_quiet {W K} (v : fview W K) io quiet good dom rnd live : relied v io quiet good dom rnd live ->
  forall w w' b val keys, quiet w w' -> acceptable v w' b val keys -> acceptable v w b val keys.
Proof.
  intros R w w' b val keys Q A key Hk. destruct (A key Hk) as (f & E & (lo & hi & L1 & L2 & L3) & (cur & C1 & C2)).
  pose proof (r_views _ _ _ _ _ _ _ R w w' Q) as V. exists f.
  assert (V1 : forall b' key', v_limit v w' b' key' = v_limit v w b' key') by (intros b' key'; now destruct (V b' key' SEff)).
  assert (V2 : forall b' key', v_cur v w' b' key' = v_cur v w b' key') by (intros b' key'; now destruct (V b' key' SEff)).
  assert (V3 : forall sp key', v_special v w' sp key' = v_special v w sp key') by (intros sp key'; now destruct (V true key' sp)).
  split; [|split].
  - rewrite <- E. unfold means. destruct val as [| | |[]]; rewrite ?V1, ?V3; try reflexivity.
    destruct keys as [|k0 keys]; rewrite ?V3; reflexivity.
  - exists lo, hi. rewrite <- !V1. auto.
  - exists cur. rewrite <- V2. auto.
Qed.

Lemma mechs_refused_l {W K} (mechs : list (Z * freq_io W K)) (quiet : W -> W -> Prop) (good : W -> Prop) (dom : K -> Prop) b val keys :
  Forall dom keys -> (forall w, quiet w w) -> (forall a b' c : W, quiet a b' -> quiet b' c -> quiet a c) -> forall w, good w ->
  (forall m io, In (m, io) mechs -> exists v rnd live, relied v io quiet good dom rnd live /\ ~ acceptable v w b val keys) ->
  exists e w', set_freq_mechs mechs b val keys w = (Exn e, w') /\ quiet w w' /\ good w'.
Proof.
  intros D Q0 Qt. induction mechs as [|[m io] mechs IH]; intros w G H.
  - exists ENotSupported, w. split; [reflexivity|]. auto.
  - destruct (H m io (or_introl eq_refl)) as (v & rnd & live & R & N).
    destruct (set_freq_run v io quiet good dom rnd live R b val keys w G D) as (r & w1 & E & [(A & _)|(_ & Q & G1 & e & -> & _)]); [tauto|].
    assert (X : exists e' w', set_freq_mechs mechs b val keys w1 = (Exn e', w') /\ quiet w1 w' /\ good w').
    { apply IH; [exact G1|]. intros m' io' Hin. destruct (H m' io' (or_intror Hin)) as (v' & rnd' & live' & R' & N').
      exists v', rnd', live'. split; [exact R'|]. intros A. apply N'. now apply (acceptable_quiet _ _ _ _ _ _ _ R' w w1). }
    destruct X as (e' & w' & E' & Q' & G'). cbn [set_freq_mechs]. rewrite E.
    destruct e; try (now exists e', w'; split; [exact E'|split; [now apply (Qt w w1)|exact G']]);
      match goal with |- context [Exn ?x] => now exists x, w1 end.
Qed.

Section L.
  Variable k : senv.
  Variable hwp : Z -> bool.
  Variable rd : special -> Z -> M sstate Z.
  Variable spec : sstate -> special -> Z -> res Z.
  Hypothesis SP : special_ok k rd spec.
  Notation io := (cpu_sysfs_io k true hwp rd).
  Notation v := (cpu_view k spec).
  Notation nat_cpus := (Forall (fun c => 0 <= c)).

  Lemma cpu_refused tr b val cpus w : files_ok k hwp tr w -> nat_cpus cpus -> ~ acceptable v w b val cpus ->
    exists e w', set_freq io b val cpus w = (Exn e, w') /\ no_change k w w' /\
      (readable v w b val cpus -> e = EFreqRange \/ e = EFreqOrder).
  Proof.
    intros G D N.
    destruct (set_freq_run _ _ _ _ _ _ _ (cpu_sysfs_relied k hwp rd spec SP tr) b val cpus w G D)
      as (r & w' & E & [(A & _)|(_ & Q & G1 & e & -> & X & _)]); [tauto|].
    exists e, w'. auto.
  Qed.

  Lemma cpu_exact tr b val cpus w w' : files_ok k hwp tr w -> nat_cpus cpus ->
    set_freq io b val cpus w = (Ok tt, w') ->
    acceptable v w b val cpus /\ exactly_set v (fun c => 0 <= c) khz b val cpus w w' /\ files_ok k hwp tr w'.
  Proof.
    intros G D E.
    destruct (set_freq_run _ _ _ _ _ _ _ (cpu_sysfs_relied k hwp rd spec SP tr) b val cpus w G D)
      as (r & w1 & E1 & [(A & X & _)|(_ & Q & G1 & e & -> & _)]); rewrite E in E1; [|discriminate].
    apply pair_equal_spec in E1 as [<- <-]. destruct (X eq_refl) as (G1 & Ex & _). auto.
  Qed.

  Lemma cpu_succeeds tr b val cpus w : files_ok k hwp tr w -> nat_cpus cpus -> acceptable v w b val cpus ->
    tr = true \/ (forall c f, In c cpus -> means v w val cpus c = Ok f -> freq_taken k w b f c) ->
    exists w', set_freq io b val cpus w = (Ok tt, w').
  Proof.
    intros G D A T.
    destruct (set_freq_run _ _ _ _ _ _ _ (cpu_sysfs_relied k hwp rd spec SP tr) b val cpus w G D)
      as (r & w' & E & [(_ & _ & X)|(N & _)]); [|tauto].
    exists w'. rewrite E. f_equal. apply X. intros c f Hc Hm. destruct T as [T|T]; [now left|right]. now apply T.
  Qed.

  Lemma cpu_history all ops w : honest k -> files_ok k hwp false w -> nat_cpus all ->
    (forall c, In c all -> limited v w c) ->
    Forall (fun op => incl (snd op) all) ops ->
    forall c, In c all -> limited v (freq_history io ops w) c /\
      forall b, v_limit v (freq_history io ops w) b c = v_limit v w b c.
  Proof.
    intros H G D L O. rewrite Forall_forall in D.
    assert (R : relied v io (no_change k) (files_ok k hwp false) (fun c => In c all) khz (live_at k false)).
    { apply (relied_less _ _ _ _ (fun c => 0 <= c)); [exact D|]. now apply cpu_sysfs_relied. }
    assert (Fc : fails_cleanly v io (files_ok k hwp false) (fun c => In c all) khz).
    { intros w1 w2 b f keys x G1 K1 O1 E1.
      assert (S1 : nat_cpus keys) by (rewrite Forall_forall in *; auto).
      destruct (cpu_sysfs_clean_any k hwp rd spec H w1 w2 b f keys x G1 S1 E1) as (A1 & A2 & A3).
      split; [exact A1|]. split; intros b' c Hc; [apply A2|apply A3]; auto. }
    destruct (khz_rounds k spec (files_ok k hwp false)) as [[R1 R2] R3].
    assert (O' : Forall (fun op => Forall (fun c => In c all) (snd op)) ops).
    { rewrite Forall_forall in *. intros op Hop. apply Forall_forall. exact (O op Hop). }
    destruct (history_sane _ _ _ _ _ _ _ Z.eq_dec R ops w Fc) as (S & Lm & X).
    - split; [intros key x y Hk; apply R1; auto|]. intros w1 b key x G1 Hk. now apply (R2 w1 b); auto.
    - split; [exact G|]. intros c Hc. destruct (L c Hc) as (lo & hi & mn & mx & _ & _ & E1 & E2 & _ & Hle & _).
      exists mn, mx. auto.
    - exact O'.
    - intros c Hc. split; [|intros b; now apply Lm]. apply X; [|exact Hc|now apply L].
      intros w1 b key x G1 Hk. now apply (R3 w1 b); auto.
  Qed.

  (** ** Both *)
  Section Pair.
    Hypothesis Hc : se_cache k = true.
    Variables (m : Z) (cpus : list Z) (u : bool) (setp : pname -> fval -> M sstate Z).
    Hypothesis Hs : set_with [(m, io)] cpus u setp.
    Variables mn mx : Z.
    Hypothesis Hle : mn <= mx.
    Hypothesis Hx : (mn / 1000 * 1000 = mn) /\ (mx / 1000 * 1000 = mx).
    Hypothesis Hd : nat_cpus cpus.
    Variable w : sstate.
    Hypothesis G : files_ok k hwp false w.
    Hypothesis Hb : ss_buf w = [].
    Hypothesis Hlim : forall c, In c cpus -> limited v w c /\ in_limits v w c mn /\ in_limits v w c mx.
    Hypothesis Hk : forall c, In c cpus -> freq_taken k w true mn c /\ freq_taken k w false mx c.

    Let Hx' : exact khz cpus mn /\ exact khz cpus mx.
    Proof. split; intros c _; apply Hx. Qed.

    Let Fr w1 : (forall p, seen k w1 p = seen k w p) ->
      (forall c, (limited v w c -> limited v w1 c)) /\ (forall c f, in_limits v w c f -> in_limits v w1 c f) /\
      (forall b c f, in_order v w b c f -> in_order v w1 b c f).
    Proof.
      intros H. assert (V : forall b c, v_limit v w1 b c = v_limit v w b c /\ v_cur v w1 b c = v_cur v w b c).
      { intros b c. cbn. unfold file_freq. now rewrite !seen_int_eq, !H. }
      split; [|split].
      - intros c. unfold limited. destruct (V true c) as [-> ->], (V false c) as [-> ->]. auto.
      - intros c f. unfold in_limits. destruct (V true c) as [-> _], (V false c) as [-> _]. auto.
      - intros b c f. unfold in_order. destruct (V (negb b) c) as [_ ->]. auto.
    Qed.

    Lemma cpu_min_first :
      (forall c, In c cpus -> in_order v w true c mn) \/ (forall c, In c cpus -> in_order v w false c mx) ->
      exists l w', set_props setp (s_start k) (s_commit k) [(PFreq u true, VNum mn); (PFreq u false, VNum mx)] w = (Ok l, w') /\
        files_ok k hwp false w' /\ ss_buf w' = [] /\ both_set v (fun c => 0 <= c) cpus mn mx w w' /\
        (forall p, (forall b c, In c cpus -> p <> cpufreq_path b c false) -> ss_fs w' p = ss_fs w p).
    Proof.
      intros Ho.
      destruct (set_props_l k hwp Hc rd spec SP m cpus u setp Hs mn mx Hle Hx' Hd w G Hb Hlim Hk [PFreq u true; PFreq u false]
        [(PFreq u true, VNum mn); (PFreq u false, VNum mx)] (fun w1 =>
          ~ (forall c, In c cpus -> in_order v w1 true c mn) /\ ~ (forall c, In c cpus -> in_order v w1 false c mx)))
        as (r & w' & E & X).
      - intros pn [<-|[<-|[]]]; eauto.
      - reflexivity.
      - intros w1 G1 S1. destruct (Fr w1 S1) as (F1 & F2 & F3).
        destruct (min_first_l _ _ _ _ _ _ _ (cpu_sysfs_relied k hwp rd spec SP true) m [] cpus u setp Hs mn mx Hle w1 G1 Hd Hx')
          as (r & w2 & E & X).
        + intros c Hin. destruct (Hlim c Hin) as (A & B & C). auto.
        + intros c Hin. split; now left.
        + exists r, w2. split; [exact E|]. destruct X as [(Er & G2 & B2)|(Er & Q & N1 & N2)]; [left|right; auto].
          split; [destruct Er as [-> | ->]; eauto|auto].
      - destruct X as [((l & ->) & X)|(-> & _ & _ & _ & w1 & (N1 & N2) & S1)].
        + exists l, w'. split; [exact E|exact X].
        + exfalso. destruct (Fr w1 S1) as (_ & _ & F3). destruct Ho as [Ho|Ho]; [apply N1|apply N2]; auto.
    Qed.

    Lemma cpu_max_first :
      exists r w', set_props setp (s_start k) (s_commit k) [(PFreq u false, VNum mx); (PFreq u true, VNum mn)] w = (r, w') /\
        ((exists l, r = Ok l) /\ files_ok k hwp false w' /\ ss_buf w' = [] /\ both_set v (fun c => 0 <= c) cpus mn mx w w' /\
         (forall p, (forall b c, In c cpus -> p <> cpufreq_path b c false) -> ss_fs w' p = ss_fs w p) \/
         r = Exn EFreqOrder /\ (forall p, seen k w' p = seen k w p) /\ ss_fs w' = ss_fs w /\ ss_log w' = ss_log w /\
           ~ (forall c, In c cpus -> in_order v w false c mx)).
    Proof.
      destruct (set_props_l k hwp Hc rd spec SP m cpus u setp Hs mn mx Hle Hx' Hd w G Hb Hlim Hk [PFreq u false; PFreq u true]
        [(PFreq u false, VNum mx); (PFreq u true, VNum mn)] (fun w1 =>
          ~ (forall c, In c cpus -> in_order v w1 false c mx)))
        as (r & w' & E & X).
      - intros pn [<-|[<-|[]]]; eauto.
      - reflexivity.
      - intros w1 G1 S1. destruct (Fr w1 S1) as (F1 & F2 & F3).
        destruct (max_first_l _ _ _ _ _ _ _ (cpu_sysfs_relied k hwp rd spec SP true) m [] cpus u setp Hs mn mx Hle w1 G1 Hd Hx')
          as (r & w2 & E & X).
        + intros c Hin. destruct (Hlim c Hin) as (A & B & C). auto.
        + intros c Hin. split; now left.
        + exists r, w2. split; [exact E|]. destruct X as [(Er & G2 & B2)|(Er & Q & N1)]; [left|right; auto].
          split; [eauto|auto].
      - exists r, w'. split; [exact E|]. destruct X as [((l & ->) & X)|(-> & X1 & X2 & X3 & w1 & N1 & S1)].
        + left. split; [eauto|exact X].
        + right. split; [reflexivity|]. split; [exact X1|]. split; [exact X2|]. split; [exact X3|].
          destruct (Fr w1 S1) as (_ & _ & F3). intros Ho. apply N1. auto.
    Qed.

    Lemma limited_split c : In c cpus -> in_order v w true c mn \/ in_order v w false c mx.
    Proof.
      intros Hin. destruct (Hlim c Hin) as ((lo & hi & a & b & _ & _ & E1 & E2 & _ & H & _) & _).
      destruct (Z_le_dec mn b); [left; exists b; auto|right]. exists a. split; [exact E1|lia].
    Qed.

    Lemma cpu_alike : (forall c c' b, In c cpus -> In c' cpus -> v_cur v w b c = v_cur v w b c') ->
      (forall c, In c cpus -> in_order v w true c mn) \/ (forall c, In c cpus -> in_order v w false c mx).
    Proof.
      intros A. destruct cpus as [|c0 rest] eqn:Ec; [left; intros c []|]. rewrite <- Ec in *.
      assert (H0 : In c0 cpus) by (rewrite Ec; now left).
      destruct (limited_split c0 H0) as [O|O]; [left|right]; intros c Hin; unfold in_order in *; now rewrite (A c c0).
    Qed.
  End Pair.

  (** ** Restoring *)
  Lemma cpu_restore m rest u setn start commit w0 w cpus sav b1 pre g1 mid g2 suf :
    restored_with ((m, io) :: rest) u setn ->
    (forall s : sstate, start s = (Ok tt, s)) -> (forall s : sstate, commit s = (Ok tt, s)) ->
    nat_cpus cpus ->
    (forall c, In c cpus -> limited v w0 c /\ forall b, v_cur v w0 b c = Ok (sav b c)) ->
    files_ok k hwp false w ->
    (forall c, In c cpus -> limited v w c /\ (forall b, v_limit v w b c = v_limit v w0 b c) /\
       (forall b, freq_taken k w b (sav b c) c) /\
       (forall b f, v_limit v w b c = Ok f -> freq_taken k w b f c)) ->
    (forall pv, In pv (pre ++ mid ++ suf) -> (forall b, fst pv <> PFreq u b) /\
       unrelated v (files_ok k hwp false) (fun c => 0 <= c) (fun w b f c => freq_taken k w b f c) setn (fst pv)) ->
    groups_of sav b1 cpus g1 -> groups_of sav (negb b1) cpus g2 ->
    exists w', restore_props start commit setn VMin VMax
        (pre ++ (PFreq u b1, g1) :: mid ++ (PFreq u (negb b1), g2) :: suf) w = (Ok tt, w') /\ files_ok k hwp false w' /\
      (forall b c, In c cpus -> v_cur v w' b c = v_cur v w0 b c) /\
      (forall b c, 0 <= c -> ~ In c cpus -> v_cur v w' b c = v_cur v w b c) /\
      (forall b c, 0 <= c -> v_limit v w' b c = v_limit v w b c).
  Proof.
    intros Hr Hst Hco D S0 G S1 Hn Hg1 Hg2.
    destruct (khz_rounds k spec (files_ok k hwp false)) as [[R1 R2] R3].
    assert (Hnn : forall l, incl l (pre ++ mid ++ suf) ->
      Forall (neutral v (files_ok k hwp false) (fun c => 0 <= c) (live_at k false) u setn) l).
    { intros l Hl. apply Forall_forall. intros pv Hin. destruct (Hn pv (Hl pv Hin)) as [A B]. split; [exact A|].
      intros w1 val nums Gw. destruct (B w1 val nums Gw) as (w2 & E & G2 & X). exists w2. split; [exact E|]. split; [exact G2|].
      intros b key Dk. destruct (X b key Dk) as (X1 & X2 & X3). split; [exact X1|]. split; [exact X2|].
      intros f [T|T]; [discriminate|right; auto]. }
    destruct (restore_l _ _ _ _ _ _ _ Z.eq_dec (cpu_sysfs_relied k hwp rd spec SP false) m rest cpus u setn Hr sav D
      R1 b1 pre g1 mid g2 suf w G) as (w' & E & G' & X1 & X2 & X3).
    - intros c Hin. destruct (S0 c Hin) as ((lo & hi & mn & mx & A1 & A2 & A3 & A4 & A5 & A6 & A7) & A8).
      destruct (S1 c Hin) as (B1 & B2 & B3 & B4).
      rewrite A8 in A3, A4. injection A3 as <-. injection A4 as <-.
      split; [|split; [exact A6|]].
      + intros b. split; [|split; [|right; auto]].
        * exists lo, hi. rewrite !B2. split; [exact A1|]. split; [exact A2|]. destruct b; lia.
        * pose proof (A8 b) as A. cbn in A. unfold file_freq in A. destruct (seen_int k w0 (cpufreq_path b c false)); [|discriminate].
          injection A as <-. unfold khz. rewrite Z.div_mul; lia.
      + intros b f Hf. right. auto.
    - intros c Hin. now apply S1.
    - apply Hnn. intros x Hx. apply in_or_app. now left.
    - apply Hnn. intros x Hx. apply in_or_app. right. apply in_or_app. now left.
    - apply Hnn. intros x Hx. apply in_or_app. right. apply in_or_app. now right.
    - exact Hg1.
    - exact Hg2.
    - exists w'. split; [unfold restore_props, mbind; rewrite Hst, E; apply Hco|]. split; [exact G'|]. split; [|auto].
      intros b c Hin. rewrite X1 by exact Hin. symmetry. now apply S0.
  Qed.
End L.
