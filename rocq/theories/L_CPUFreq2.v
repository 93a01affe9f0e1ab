(** Lemmas about transactions of CPU frequency settings. *)
From Coq Require Import ZifyBool.
From Verif Require Import Base L_Base L_Monad M_Text S_Text L_Text M_Sysfs S_Sysfs L_Sysfs S_SysView L_SysView
  M_CPUFreq M_PStates S_PStates L_PStates L_PStates2 L_CPUFreq.

#[local] Arguments cpufreq_path : simpl never.
#[local] Arguments cpufreq_what : simpl never.

Section L.
  Variable k : senv.
  Variable hwp : Z -> bool.
  Hypothesis Hc : se_cache k = true.

  Lemma start_run w : files_ok k hwp false w -> ss_buf w = [] -> exists w', s_start k w = (Ok tt, w') /\ files_ok k hwp true w' /\
    (forall p, seen k w' p = seen k w p) /\ ss_fs w' = ss_fs w /\ ss_log w' = ss_log w /\ ss_buf w' = [].
  Proof.
    intros (I & _ & C) B. unfold s_start. rewrite Hc. cbn [negb]. unfold mbind, gets. rewrite I. unfold modify.
    eexists. split; [reflexivity|]. assert (S : forall p, seen k (s_intr w true) p = seen k w p) by (intros p; now rewrite !seen_eq).
    split; [|auto]. split; [reflexivity|]. split.
    - intros _. split; [exact Hc|]. cbn. rewrite B. split; [constructor|]. intros p ti [].
    - intros p Hp _. rewrite S, C; auto.
  Qed.

  Lemma commit_run w : files_ok k hwp true w ->
    (forall p ti, In (p, ti) (ss_buf w) -> takes k w p (st_val ti)) ->
    exists w', s_commit k w = (Ok tt, w') /\ files_ok k hwp false w' /\ ss_buf w' = [] /\
      (forall p, seen k w' p = seen k w p) /\
      (forall p, ~ In p (map fst (ss_buf w)) -> ss_fs w' p = ss_fs w p).
  Proof.
    intros (I & T & C) HT. destruct (T eq_refl) as (_ & Nd & Hb).
    assert (Hv : Forall (fun e => st_verify (snd e) = true) (ss_buf w)).
    { apply Forall_forall. intros [p ti] Hin. destruct (Hb p ti Hin) as (b & cpu & _ & _ & Kd & _). destruct Kd as (n & ->). reflexivity. }
    destruct (flush_loop_ok k Hc (ss_buf w) w Hv) as (w1 & E1).
    { intros p ti Hin. destruct (HT p ti Hin) as (H1 & H2 & H3). split; [exact H2|]. split; [|exact H3].
      destruct (ss_fs w p); [eauto|congruence]. }
    pose proof (flush_loop k Hc w Nd Hv) as P. unfold post in P. rewrite E1 in P.
    unfold flushed in P. destruct P as (P1 & P2 & P3 & P4 & P5).
    exists (s_intr (s_buf w1 []) false). split.
    { unfold s_commit, s_flush. rewrite Hc. cbn [negb]. unfold mbind, gets. rewrite I. cbn [negb]. rewrite E1. reflexivity. }
    assert (Sn : forall p, seen k (s_intr (s_buf w1 []) false) p = seen k w p).
    { intros p. rewrite seen_eq, Hc. cbn [ss_cache s_intr s_buf].
      destruct (in_dec str_dec p (map fst (ss_buf w))) as [Hin|Hn].
      - apply in_map_iff in Hin as ([q ti] & Eq & Hin). cbn in Eq. subst q. destruct (P5 p ti Hin) as (_ & ->).
        destruct (Hb p ti Hin) as (b & cpu & _ & _ & _ & Es). now rewrite Es.
      - destruct (P4 p Hn) as (F & ->). rewrite seen_eq, Hc. destruct (dgs (ss_cache w) p); [reflexivity|].
        unfold on_disk. cbn. now rewrite F. }
    split; [|split; [reflexivity|split; [exact Sn|]]].
    - split; [reflexivity|]. split; [discriminate|]. intros p Hp _. rewrite Sn.
      destruct (in_dec str_dec p (map fst (ss_buf w))) as [Hin|Hn].
      + apply in_map_iff in Hin as ([q ti] & Eq & Hin). cbn in Eq. subst q. destruct (P5 p ti Hin) as (Ec & _).
        destruct (Hb p ti Hin) as (b & cpu & _ & _ & _ & Es). rewrite Es. unfold contents in Ec. unfold on_disk. cbn.
        destruct (HT p ti Hin) as (_ & Hu & _). destruct (ss_fs w1 p); [|discriminate]. cbn in Ec. rewrite Hu. congruence.
      + rewrite C by auto. unfold on_disk. cbn. now rewrite (proj1 (P4 p Hn)).
    - intros p Hn. cbn. now apply P4.
  Qed.

  (** ** What can be pending *)
  Variable rd : special -> Z -> M sstate Z.
  Variable spec : sstate -> special -> Z -> res Z.
  Hypothesis SP : special_ok k rd spec.
  Notation io := (cpu_sysfs_io k true hwp rd).

  Definition pending (cpus : list Z) (f0 : str -> option str) (w : sstate) : Prop :=
    ss_intr w = true /\ ss_fs w = f0 /\
    forall p, In p (map fst (ss_buf w)) -> exists b c, In c cpus /\ p = cpufreq_path b c false.

  Lemma unseen_pending cpus f0 w w' : unseen k w w' -> pending cpus f0 w -> pending cpus f0 w'.
  Proof. intros (_ & F & B & I & _) (H1 & H2 & H3). split; [congruence|]. split; [congruence|]. now rewrite B. Qed.

  Lemma set_pending cpus f0 b f l w : incl l cpus -> pending cpus f0 w ->
    post (set_freq_sysfs k true hwp b f l) w (fun _ => pending cpus f0) (fun _ => pending cpus f0).
  Proof.
    intros Hi P. unfold set_freq_sysfs. apply (post_mfor _ (fun _ => pending cpus f0)); [|exact P].
    intros pre c suf E w1 (I & F & B).
    assert (Hin : In c cpus) by (apply Hi; rewrite E; apply in_or_app; right; now left).
    unfold set_cpu_freq_file. cbn [negb]. unfold s_write_verify_int. rewrite L_Uncore3.str_to_int_dec_all.
    apply post_bind. unfold lift. cbn [post ret]. set (p := cpufreq_path b c false).
    eapply post_conseq; [apply write_verify_post| |].
    - intros u w2 ([_ I2] & _ & _ & H). destruct (H I) as (F2 & _ & B2). split; [congruence|]. split; [congruence|].
      intros q Hq. rewrite B2 in Hq. apply dset_keys_In in Hq; [|apply str_eqb_eq]. destruct Hq as [->|Hq]; [|now apply B].
      exists b, c. auto.
    - intros e w2 ([_ I2] & B2 & F2 & _). split; [congruence|]. split; [rewrite F2; auto|]. now rewrite B2.
  Qed.

  Lemma post_all {S A} (m : M S A) s (J : S -> Prop) : post m s (fun _ => J) (fun _ => J) <-> J (snd (m s)).
  Proof. unfold post. destruct (m s) as [[a|e] s']; reflexivity. Qed.

  Lemma later_pending first (m : M sstate Z) J w : post m w (fun _ => J) (fun _ => J) ->
    post (later first m) w (fun _ => J) (fun _ => J).
  Proof. rewrite !post_all. unfold later. destruct (m w) as [[a|[]] w']; exact (fun x => x). Qed.

  Lemma validate_pending cpus f0 b keys : forall val first w, pending cpus f0 w ->
    post (validate_freq io b val first keys) w (fun _ => pending cpus f0) (fun _ => pending cpus f0).
  Proof.
    assert (Lm : forall b' c w, pending cpus f0 w -> post (f_limit io b' c) w (fun _ => pending cpus f0) (fun _ => pending cpus f0)).
    { intros b' c w P. apply post_all. destruct (get_freq_run k b' true c w) as (w' & E & U). cbn [f_limit cpu_sysfs_io]. rewrite E. cbn [snd].
      now apply (unseen_pending cpus f0 w). }
    assert (Cm : forall b' c w, pending cpus f0 w -> post (f_cur io b' c) w (fun _ => pending cpus f0) (fun _ => pending cpus f0)).
    { intros b' c w P. apply post_all. destruct (get_freq_run k b' false c w) as (w' & E & U). cbn [f_cur cpu_sysfs_io]. rewrite E. cbn [snd].
      now apply (unseen_pending cpus f0 w). }
    assert (Sm : forall sp c w, pending cpus f0 w -> post (f_special io sp c) w (fun _ => pending cpus f0) (fun _ => pending cpus f0)).
    { intros sp c w P. apply post_all. destruct SP as [SP1 _]. destruct (SP1 w sp c) as (w' & E & U). cbn [f_special cpu_sysfs_io]. rewrite E. cbn [snd].
      now apply (unseen_pending cpus f0 w). }
    induction keys as [|c keys IH]; intros val first w P; [exact P|]. cbn [validate_freq].
    assert (N : post (next_freq io val first c) w (fun _ => pending cpus f0) (fun _ => pending cpus f0)).
    { assert (Pl : forall (m : M sstate Z) val0 w0, post m w0 (fun _ => pending cpus f0) (fun _ => pending cpus f0) ->
        post (let! f := m in ret (f, val0 : fval)) w0 (fun _ => pending cpus f0) (fun _ => pending cpus f0)).
      { intros m val0 w0 H. apply post_bind. eapply post_conseq; [exact H| |auto]. intros a w1 H1. exact H1. }
      destruct val as [f| | |sp]; [exact P|apply Pl, later_pending, Lm, P|apply Pl, later_pending, Lm, P|].
      destruct sp; try (apply Pl, later_pending, Sm, P).
      cbn [next_freq]. pose proof (later_pending first _ _ _ (Sm SEff c w P)) as H. apply post_all in H.
      apply post_all. destruct (later first (f_special io SEff c) w) as [[a|e] w1]; [exact H|]. cbn [snd] in H.
      assert (Ee : e <> ENotSupported \/ e = ENotSupported) by (destruct e; (now right) || (left; discriminate)).
      destruct Ee as [Ee|Ee].
      - destruct e; try exact H. congruence.
      - subst e. apply post_all. apply Pl, later_pending, Lm, H. }
    apply post_bind. eapply post_conseq; [exact N| |auto]. intros [f val'] w1 P1. cbv beta iota.
    apply post_bind. eapply post_conseq; [apply later_pending, Lm, P1| |auto]. intros lo w2 P2.
    apply post_bind. eapply post_conseq; [apply later_pending, Lm, P2| |auto]. intros hi w3 P3.
    apply post_bind. eapply post_conseq; [apply later_pending, Cm, P3| |auto]. intros cur w4 P4.
    destruct (_ || _); [exact P4|]. destruct (if b then _ else _); [exact P4|].
    apply post_bind. eapply post_conseq; [apply IH, P4| |auto]. intros l w5 P5. exact P5.
  Qed.

  Lemma validate_keys b keys : forall val first w l w', validate_freq io b val first keys w = (Ok l, w') -> map fst l = keys.
  Proof.
    induction keys as [|c keys IH]; intros val first w l w' E; cbn [validate_freq] in E.
    - now injection E as <- _.
    - unfold mbind in E. destruct (next_freq io val first c w) as [[[f val']|e] w1]; [|discriminate].
      destruct (later first (f_limit io true c) w1) as [[lo|e] w2]; [|discriminate].
      destruct (later first (f_limit io false c) w2) as [[hi|e] w3]; [|discriminate].
      destruct (later first (f_cur io (negb b) c) w3) as [[cur|e] w4]; [|discriminate].
      destruct (_ || _); [discriminate|]. destruct (if b then _ else _); [discriminate|].
      destruct (validate_freq io b val' false keys w4) as [[l'|e] w5] eqn:E5; [|discriminate].
      injection E as <- _. cbn. f_equal. eapply IH, E5.
  Qed.

  Lemma set_freq_pending cpus f0 b val w : pending cpus f0 w -> pending cpus f0 (snd (set_freq io b val cpus w)).
  Proof.
    intros P. apply post_all. unfold set_freq. apply post_bind.
    pose proof (validate_pending cpus f0 b cpus val true w P) as V. apply post_all in V. unfold post.
    destruct (validate_freq io b val true cpus w) as [[l|e] w1] eqn:E; cbn [snd] in V; [|exact V].
    pose proof (validate_keys _ _ _ _ _ _ _ E) as Hk.
    change (post (mfor (freq2keys l) (fun fk => f_set io b (fst fk) (snd fk))) w1 (fun _ => pending cpus f0) (fun _ => pending cpus f0)).
    apply (post_mfor _ (fun _ => pending cpus f0)); [|exact V]. intros pre [f ks] suf Ep w2 P2. cbn [fst snd].
    apply set_pending; [|exact P2]. intros c Hc'. rewrite <- Hk. change c with (fst (c, f)). apply in_map.
    apply freq2keys_in. exists ks. split; [rewrite Ep; apply in_or_app; right; now left|exact Hc'].
  Qed.

  Lemma mechs_pending m cpus f0 b val w : pending cpus f0 w -> pending cpus f0 (snd (set_freq_mechs [(m, io)] b val cpus w)).
  Proof.
    intros P. apply (set_freq_pending cpus f0 b val) in P. cbn [set_freq_mechs].
    destruct (set_freq io b val cpus w) as [[a|[]] w1]; exact P.
  Qed.

  Lemma each_pending m cpus f0 u setp : set_with [(m, io)] cpus u setp -> forall pns spinfo info w,
    (forall pn, In pn pns -> exists b, pn = PFreq u b) -> pending cpus f0 w ->
    pending cpus f0 (snd (set_each setp pns spinfo info w)).
  Proof.
    intros Hs. assert (Sp : forall b val w, pending cpus f0 w -> pending cpus f0 (snd (setp (PFreq u b) val w))).
    { intros b val w P. rewrite Hs. now apply mechs_pending. }
    induction pns as [|pn pns IH]; intros spinfo info w Hp P; [exact P|]. cbn [set_each].
    assert (N : pending cpus f0 (snd (pstates_set_prop setp pn spinfo info w))).
    { destruct (Hp pn (or_introl eq_refl)) as (b & ->). unfold pstates_set_prop, base_set_prop.
      destruct (dget pname_eqb spinfo (PFreq u b)) as [val|]; [|exact P].
      pose proof (Sp b val w P) as P1. unfold mbind at 1. destruct (setp (PFreq u b) val w) as [[m1|e] w1]; cbn [snd] in P1; [exact P1|].
      assert (Ee : e <> EFreqOrder \/ e = EFreqOrder) by (destruct e; (now right) || (left; discriminate)).
      destruct Ee as [Ee|Ee]; [destruct e; try exact P1; congruence|]. subst e.
      destruct b; cbn [other_freq]; [|exact P1]. destruct (dget pname_eqb spinfo (PFreq u false)) as [ov|]; [|exact P1].
      unfold mbind. pose proof (Sp false ov w1 P1) as P2. destruct (setp (PFreq u false) ov w1) as [[m2|e] w2]; cbn [snd] in P2; [|exact P2].
      pose proof (Sp true val w2 P2) as P3. destruct (setp (PFreq u true) val w2) as [[m3|e] w3]; exact P3. }
    unfold mbind. destruct (pstates_set_prop setp pn spinfo info w) as [[[spinfo' info']|e] w1]; cbn [snd] in N; [|exact N].
    apply IH; [|exact N]. intros pn' H. apply Hp. now right.
  Qed.

  (** ** Both frequencies, in a transaction *)
  Section Pair.
    Variables (m : Z) (cpus : list Z) (u : bool) (setp : pname -> fval -> M sstate Z).
    Hypothesis Hs : set_with [(m, io)] cpus u setp.
    Variables mn mx : Z.
    Hypothesis Hle : mn <= mx.
    Hypothesis Hx : exact khz cpus mn /\ exact khz cpus mx.
    Hypothesis Hd : Forall (fun c => 0 <= c) cpus.
    Variable w : sstate.
    Hypothesis G : files_ok k hwp false w.
    Hypothesis Hb : ss_buf w = [].
    Notation v := (cpu_view k spec).
    Hypothesis Hlim : forall c, In c cpus -> limited v w c /\ in_limits v w c mn /\ in_limits v w c mx.
    Hypothesis Hk : forall c, In c cpus -> freq_taken k w true mn c /\ freq_taken k w false mx c.

    Lemma view_frame w1 : (forall p, seen k w1 p = seen k w p) -> forall c,
      (forall b, v_limit v w1 b c = v_limit v w b c) /\ (forall b, v_cur v w1 b c = v_cur v w b c).
    Proof. intros H c. cbn. unfold file_freq. split; intros b; now rewrite !seen_int_eq, H. Qed.

    Lemma set_props_l pns spinfo (Pr : sstate -> Prop) :
      (forall pn, In pn pns -> exists b, pn = PFreq u b) -> pns = map fst spinfo ->
      (forall w1, files_ok k hwp true w1 -> (forall p, seen k w1 p = seen k w p) ->
        exists r w2, set_each setp pns spinfo [] w1 = (r, w2) /\
          ((exists l, r = Ok l) /\ files_ok k hwp true w2 /\ both_set v (fun c => 0 <= c) cpus mn mx w1 w2 \/
           r = Exn EFreqOrder /\ no_change k w1 w2 /\ Pr w1)) ->
      exists r w', set_props setp (s_start k) (s_commit k) spinfo w = (r, w') /\
        ((exists l, r = Ok l) /\ files_ok k hwp false w' /\ ss_buf w' = [] /\ both_set v (fun c => 0 <= c) cpus mn mx w w' /\
           (forall p, (forall b c, In c cpus -> p <> cpufreq_path b c false) -> ss_fs w' p = ss_fs w p) \/
         r = Exn EFreqOrder /\ (forall p, seen k w' p = seen k w p) /\ ss_fs w' = ss_fs w /\ ss_log w' = ss_log w /\
           exists w1, Pr w1 /\ forall p, seen k w1 p = seen k w p).
    Proof.
      intros Hp -> H. destruct (start_run w G Hb) as (w1 & E1 & G1 & S1 & F1 & L1 & B1).
      destruct (H w1 G1 S1) as (r & w2 & E2 & X).
      assert (P1 : pending cpus (ss_fs w) w1).
      { destruct G1 as (I1 & _). split; [exact I1|]. split; [exact F1|]. rewrite B1. intros p []. }
      pose proof (each_pending m cpus (ss_fs w) u setp Hs (map fst spinfo) spinfo [] w1 Hp P1) as P2. rewrite E2 in P2. cbn [snd] in P2.
      destruct X as [((l & ->) & G2 & Bs)|(-> & Q & HP)].
      - destruct P2 as (I2 & F2 & Pd).
        destruct (commit_run w2 G2) as (w3 & E3 & G3 & B3 & S3 & F3).
        { intros p ti Hin. assert (Hin' := Hin). apply (in_map fst) in Hin'. cbn in Hin'.
          destruct (Pd p Hin') as (b & c & Hcin & ->). destruct G2 as (_ & T & _). destruct (T eq_refl) as (_ & _ & Hbuf).
          destruct (Hbuf _ _ Hin) as (b' & c' & Hc' & Ep & Kd & Es).
          assert (Hc0 : 0 <= c) by (rewrite Forall_forall in Hd; now apply Hd).
          apply cpufreq_path_inj in Ep as (<- & <- & _); [|assumption..].
          destruct Bs as (Bs & _). destruct (Bs c Hcin) as [Bm BM]. cbn in Bm, BM. destruct (Hk c Hcin) as [K1 K2].
          destruct Kd as (n & ->). cbn [st_val] in *.
          pose proof (file_freq_of k _ _ _ Es) as Ff. destruct b.
          - assert (mn = n * 1000) by congruence. unfold freq_taken in K1. subst mn. rewrite Z.div_mul in K1 by lia.
            apply (takes_frame k w); [now rewrite F2|exact K1].
          - assert (mx = n * 1000) by congruence. unfold freq_taken in K2. subst mx. rewrite Z.div_mul in K2 by lia.
            apply (takes_frame k w); [now rewrite F2|exact K2]. }
        exists (Ok l), w3. split; [unfold set_props, mbind; rewrite E1, E2, E3; reflexivity|]. left. split; [eauto|].
        split; [exact G3|]. split; [exact B3|]. split.
        + destruct Bs as (X1 & X2 & X3).
          assert (V13 : forall c b, v_cur v w3 b c = v_cur v w2 b c) by (intros c b; cbn; unfold file_freq; now rewrite !seen_int_eq, S3).
          assert (V13' : forall c b, v_limit v w3 b c = v_limit v w2 b c) by (intros c b; cbn; unfold file_freq; now rewrite !seen_int_eq, S3).
          split; [|split].
          * intros c Hcin. rewrite !V13. now apply X1.
          * intros b c Hc0 Hn. rewrite V13, X2 by assumption. now apply view_frame.
          * intros b c Hc0. rewrite V13', X3 by assumption. now apply view_frame.
        + intros p Hn. rewrite F3, F2; [reflexivity|]. intros Hin. destruct (Pd p Hin) as (b & c & Hcin & E). now apply (Hn b c).
      - exists (Exn EFreqOrder), w2. split; [unfold set_props, mbind; rewrite E1, E2; reflexivity|]. right. split; [reflexivity|].
        destruct Q as (Q1 & Q2 & Q3 & Q4 & Q5). split; [intros p; now rewrite Q1|]. split; [congruence|]. split; [congruence|].
        exists w1. auto.
    Qed.
  End Pair.
End L.
