(** Lemmas about CPU frequencies in sysfs files. *)
From Coq Require Import ZifyBool.
From Verif Require Import Base L_Base L_Monad M_Text S_Text L_Text M_Sysfs S_Sysfs L_Sysfs S_SysView L_SysView
  M_Uncore L_Uncore L_Uncore3 L_PMQoS M_CPUFreq M_PStates S_PStates L_PStates.

Lemma dec_noslash n : 0 <= n -> ~ In "/"%char (dec n).
Proof. intros H. destruct (dec_numeral n H) as (_ & F & _). now apply digits_noslash. Qed.

Lemma cpufreq_path_inj b c l b' c' l' : 0 <= c -> 0 <= c' ->
  cpufreq_path b c l = cpufreq_path b' c' l' -> b = b' /\ c = c' /\ l = l'.
Proof.
  intros H H' E. unfold cpufreq_path in E. apply app_inv_head in E.
  apply split_slash in E as [E1 E2]; [|now apply dec_noslash..].
  apply dec_inj in E1; [|assumption..]. subst c'. destruct b, b', l, l'; try discriminate E2; auto.
Qed.

#[local] Arguments cpufreq_path : simpl never.
#[local] Arguments cpufreq_what : simpl never.

Section L.
  Variable k : senv.
  Variable hwp : Z -> bool.

  Notation path b c := (cpufreq_path b c false).

  Lemma set_file_post tr b f cpu w : files_ok k hwp tr w -> 0 <= cpu ->
    post (set_cpu_freq_file k true hwp b f cpu) w
      (fun _ w' => files_ok k hwp tr w' /\ only_at (path b cpu) w w' /\ seen k w' (path b cpu) = Ok (dec (f / 1000)) /\
         (tr = false -> on_disk k w' (path b cpu) = Ok (dec (f / 1000))) /\ (tr = true -> ss_fs w' = ss_fs w) /\
         (tr = true -> ss_log w' = ss_log w))
      (fun e w' => only_at (path b cpu) w w').
  Proof.
    intros (I & T & C) Hc. unfold set_cpu_freq_file. cbn [negb]. unfold s_write_verify_int.
    rewrite str_to_int_dec_all. apply post_bind. cbn. eapply post_conseq; [apply write_verify_post| |].
    2:{ intros e w' (H & _). exact H. }
    intros u w' (O & S & H1 & H2). destruct O as [A I'].
    assert (Fr : forall q, q <> path b cpu -> seen k w' q = seen k w q /\ on_disk k w' q = on_disk k w q).
    { intros q Hq. destruct (at_same_untouched k _ _ _ (A q Hq)) as [G1 G2]. split; [exact G2|].
      unfold on_disk. now rewrite G1. }
    assert (Main : files_ok k hwp tr w').
    { split; [congruence|]. split.
      - intros ->. destruct (T eq_refl) as (T1 & T2 & T3). destruct (H2 I) as (F & L & B).
        split; [exact T1|]. rewrite B. split; [apply dset_NoDup; [apply str_eqb_eq|exact T2]|].
        intros q ti Hin. destruct (str_dec q (path b cpu)) as [->|Hne].
        + assert (E : ti = STI (dec (f / 1000)) (Some (cpufreq_what b)) true (if hwp cpu then 2 else 0) (if hwp cpu then 1 else 0)).
          { apply (In_dget str_eqb str_eqb_eq) in Hin; [|apply dset_NoDup; [apply str_eqb_eq|exact T2]].
            rewrite (dget_dset_same _ str_eqb_eq) in Hin. congruence. }
          exists b, cpu. subst ti. cbn [st_val]. split; [exact Hc|]. split; [reflexivity|]. split; [eexists; reflexivity|exact S].
        + apply (In_dget str_eqb str_eqb_eq) in Hin; [|apply dset_NoDup; [apply str_eqb_eq|exact T2]].
          rewrite (dget_dset_other _ str_eqb_eq) in Hin by exact Hne. apply dget_In in Hin; [|apply str_eqb_eq].
          destruct (T3 q ti Hin) as (b1 & c1 & P1 & P2 & P3 & P4). exists b1, c1.
          repeat split; auto. now rewrite (proj1 (Fr q Hne)).
      - intros q Hq Hd. destruct (str_dec q (path b cpu)) as [->|Hne].
        + destruct tr.
          * exfalso. destruct (H2 I) as (F & L & B). destruct Hd as [Hd|Hd]; [discriminate|].
            apply Hd. rewrite B. apply dset_keys_In; [apply str_eqb_eq|now left].
          * rewrite S. symmetry. now apply H1.
        + destruct (Fr q Hne) as [-> ->]. apply C; [exact Hq|]. destruct Hd as [Hd|Hd]; [now left|].
          destruct tr; [right|now left]. destruct (H2 I) as (F & L & B). rewrite B in Hd.
          intros Hin. apply Hd. apply dset_keys_In; [apply str_eqb_eq|now right]. }
    split; [exact Main|]. split; [split; assumption|]. split; [exact S|]. split; [|split].
    - intros ->. now apply H1.
    - intros ->. now apply H2.
    - intros ->. now apply H2.
  Qed.

  Definition live_at (tr : bool) (w : sstate) (b : bool) (f cpu : Z) : Prop :=
    tr = true \/ freq_taken k w b f cpu.

  Lemma set_file_live tr b f cpu w : files_ok k hwp tr w -> 0 <= cpu -> live_at tr w b f cpu ->
    exists w', set_cpu_freq_file k true hwp b f cpu w = (Ok tt, w').
  Proof.
    intros (I & T & C) Hc HL. unfold set_cpu_freq_file. cbn [negb]. unfold s_write_verify_int.
    rewrite str_to_int_dec_all. unfold mbind, lift. destruct tr.
    - destruct (T eq_refl) as (T1 & T2 & T3). apply write_verify_tr; [exact I|exact T1|].
      intros ti Hd. apply dget_In in Hd; [|apply str_eqb_eq]. destruct (T3 _ _ Hd) as (b1 & c1 & P1 & P2 & P3 & _).
      apply cpufreq_path_inj in P2 as (<- & <- & _); [|assumption..]. destruct P3 as (n & ->). cbn. auto.
    - apply write_verify_live; [exact I|]. destruct HL as [HL|HL]; [discriminate|exact HL].
  Qed.

  (** ** Several CPUs *)
  Definition is_path (b : bool) (cpus : list Z) (p : str) : Prop := exists c, In c cpus /\ p = path b c.

  Lemma set_files_post tr b f cpus w : files_ok k hwp tr w -> Forall (fun c => 0 <= c) cpus ->
    post (set_freq_sysfs k true hwp b f cpus) w
      (fun _ w' => files_ok k hwp tr w' /\
         (forall c, In c cpus -> seen k w' (path b c) = Ok (dec (f / 1000))) /\
         (forall p, ~ is_path b cpus p -> at_same w w' p) /\
         (forall p, ss_fs w p <> None -> ss_fs w' p <> None) /\
         (tr = true -> ss_fs w' = ss_fs w) /\ (tr = true -> ss_log w' = ss_log w))
      (fun e w' => forall p, ~ is_path b cpus p -> at_same w w' p).
  Proof.
    intros G D. unfold set_freq_sysfs.
    apply (post_mfor _ (fun pre w' => files_ok k hwp tr w' /\
         (forall c, In c pre -> seen k w' (path b c) = Ok (dec (f / 1000))) /\
         (forall p, ~ is_path b pre p -> at_same w w' p) /\
         (forall p, ss_fs w p <> None -> ss_fs w' p <> None) /\
         (tr = true -> ss_fs w' = ss_fs w) /\ (tr = true -> ss_log w' = ss_log w))
      (fun e w' => forall p, ~ is_path b cpus p -> at_same w w' p)).
    2:{ split; [exact G|]. split; [intros c []|]. split; [intros p _; now split|]. auto. }
    intros pre c r E w1 (G1 & S1 & F1 & N1 & T1 & L1).
    rewrite Forall_forall in D.
    assert (Dc : forall x, In x (pre ++ [c]) -> 0 <= x).
    { intros x Hx. apply D. rewrite E. apply in_app_or in Hx as [Hx|[<-|[]]]; apply in_or_app; [now left|right; now left]. }
    assert (Hc : 0 <= c) by (apply Dc, in_or_app; right; now left).
    eapply post_conseq; [apply (set_file_post tr b f c w1 G1 Hc)| |].
    - intros u w2 (G2 & [A2 I2] & S2 & D2 & T2 & L2). split; [exact G2|]. split; [|split; [|split; [|split]]].
      + intros x Hx. destruct (Z.eq_dec x c) as [->|Hne]; [exact S2|].
        apply in_app_or in Hx as Hx'. destruct Hx' as [Hx'|[<-|[]]]; [|contradiction].
        assert (Hp : path b x <> path b c).
        { intros Ex. apply cpufreq_path_inj in Ex as (_ & Ex & _); [contradiction|now apply Dc|exact Hc]. }
        rewrite (proj2 (at_same_untouched k _ _ _ (A2 _ Hp))). now apply S1.
      + intros p Hp. destruct (F1 p) as [X1 X2].
        { intros (x & Hx & ->). apply Hp. exists x. split; [apply in_or_app; now left|reflexivity]. }
        destruct (A2 p) as [Y1 Y2].
        { intros ->. apply Hp. exists c. split; [apply in_or_app; right; now left|reflexivity]. }
        split; congruence.
      + intros p Hp. destruct (str_dec p (path b c)) as [->|Hne].
        * destruct tr; [rewrite (T2 eq_refl); now apply N1|]. specialize (D2 eq_refl). unfold on_disk in D2.
          destruct (ss_fs w2 (path b c)); discriminate.
        * destruct (A2 p Hne) as [-> _]. now apply N1.
      + intros Ht. rewrite T2, T1 by exact Ht. reflexivity.
      + intros Ht. rewrite L2, L1 by exact Ht. reflexivity.
    - intros e w2 [A2 I2] p Hp. destruct (F1 p) as [X1 X2].
      { intros (x & Hx & ->). apply Hp. exists x. split; [rewrite E; apply in_or_app; now left|reflexivity]. }
      destruct (A2 p) as [Y1 Y2].
      { intros ->. apply Hp. exists c. split; [rewrite E; apply in_or_app; right; now left|reflexivity]. }
      split; congruence.
  Qed.

  Lemma takes_keep w w' p v : (forall q, ss_fs w q <> None -> ss_fs w' q <> None) -> takes k w p v -> takes k w' p v.
  Proof. intros H (H1 & H2 & H3). split; [now apply H|]. auto. Qed.

  Lemma set_files_live tr b f cpus : forall w, files_ok k hwp tr w -> Forall (fun c => 0 <= c) cpus ->
    (forall c, In c cpus -> live_at tr w b f c) ->
    exists w', set_freq_sysfs k true hwp b f cpus w = (Ok tt, w').
  Proof.
    induction cpus as [|c cpus IH]; intros w G D HL; [eexists; reflexivity|].
    inversion D as [|? ? D1 D2]; subst.
    destruct (set_file_live tr b f c w G D1 (HL c (or_introl eq_refl))) as (w1 & E1).
    pose proof (set_files_post tr b f [c] w G (Forall_cons _ D1 (Forall_nil _))) as P.
    unfold post, set_freq_sysfs in P. cbn [mfor] in P. unfold mbind in P. rewrite E1 in P. unfold ret in P.
    destruct P as (G1 & _ & _ & N1 & _).
    destruct (IH w1 G1 D2) as (w2 & E2).
    - intros x Hx. destruct (HL x (or_intror Hx)) as [Ht|Ht]; [now left|right]. unfold freq_taken in *. now apply (takes_keep w w1).
    - exists w2. unfold set_freq_sysfs. cbn [mfor]. unfold mbind. rewrite E1. exact E2.
  Qed.

  Lemma file_freq_of w p n : seen k w p = Ok (dec n) -> file_freq k w p = Ok (n * 1000).
  Proof. intros H. unfold file_freq. rewrite seen_int_eq, H, str_to_int_dec_all. reflexivity. Qed.

  Lemma unseen_ok tr w w' : unseen k w w' -> files_ok k hwp tr w -> files_ok k hwp tr w'.
  Proof.
    intros (S & F & B & I & L) (I0 & T & C). split; [congruence|]. split.
    - intros Ht. destruct (T Ht) as (T1 & T2 & T3). rewrite B. split; [exact T1|]. split; [exact T2|].
      intros p ti Hin. rewrite S. now apply T3.
    - intros p Hp Hd. rewrite S, C; [|exact Hp|now rewrite <- B]. unfold on_disk. now rewrite F.
  Qed.

  Lemma get_freq_run b lim cpu w : exists w',
    get_cpu_freq k b lim cpu w = (file_freq k w (cpufreq_path b cpu lim), w') /\ unseen k w w'.
  Proof.
    destruct (s_read_int_run k (cpufreq_path b cpu lim) w) as (w' & E & U). exists w'. split; [|exact U].
    unfold get_cpu_freq, mbind. rewrite E. unfold file_freq. destruct (seen_int k w _); reflexivity.
  Qed.

  Lemma not_scaling b cpu : 0 <= cpu -> ~ scaling_file (cpufreq_path b cpu true).
  Proof. intros H (b' & c' & H' & E). apply cpufreq_path_inj in E as (_ & _ & E); [discriminate|assumption..]. Qed.

  Variable rd : special -> Z -> M sstate Z.
  Variable spec : sstate -> special -> Z -> res Z.
  Hypothesis SP : special_ok k rd spec.

  Lemma cpu_sysfs_relied tr :
    relied (cpu_view k spec) (cpu_sysfs_io k true hwp rd) (no_change k) (files_ok k hwp tr) (fun c => 0 <= c) khz (live_at tr).
  Proof.
    constructor.
    - apply unseen_refl.
    - apply unseen_trans.
    - intros w w' U b key sp. destruct U as (S & F & B & I & L). cbn. unfold file_freq. rewrite !seen_int_eq, !S.
      split; [reflexivity|]. split; [reflexivity|]. apply SP. intros p _. apply S.
    - intros w w' U b f key [Ht|Ht]; [now left|right]. eapply takes_frame; [|exact Ht]. destruct U as (_ & -> & _). reflexivity.
    - intros w b key G D. destruct (get_freq_run b true key w) as (w' & E & U). exists w'. split; [exact E|].
      split; [exact U|]. now apply (unseen_ok tr w).
    - intros w b key G D. destruct (get_freq_run b false key w) as (w' & E & U). exists w'. split; [exact E|].
      split; [exact U|]. now apply (unseen_ok tr w).
    - intros w sp key G D. destruct SP as [SP1 _]. destruct (SP1 w sp key) as (w' & E & U). exists w'. split; [exact E|].
      split; [exact U|]. now apply (unseen_ok tr w).
    - intros w w' b f keys G D E. pose proof (post_run _ _ _ _ _ _ (set_files_post tr b f keys w G D) E) as (G1 & S1 & F1 & N1 & _ & _).
      split; [exact G1|].
      assert (Fr : forall b' c l, 0 <= c -> ~ (b' = b /\ l = false /\ In c keys) ->
        file_freq k w' (cpufreq_path b' c l) = file_freq k w (cpufreq_path b' c l)).
      { intros b' c l Hc Hn. unfold file_freq. rewrite (untouched_int k w w'); [reflexivity|].
        apply at_same_untouched. apply F1. intros (x & Hx & Ex). rewrite Forall_forall in D.
        apply cpufreq_path_inj in Ex as (-> & -> & ->); [|assumption|now apply D]. apply Hn. auto. }
      split; [|split; [|split; [|split]]].
      + intros c Hc. cbn. rewrite (file_freq_of _ _ (f / 1000)); [reflexivity|]. now apply S1.
      + intros b' c Hc Hn. cbn. apply Fr; tauto.
      + intros b' c Hc. cbn. apply Fr; [exact Hc|]. intros (_ & X & _). discriminate.
      + intros sp c Hc. cbn. apply SP. intros p Hp. apply (at_same_untouched k). apply F1. intros (x & Hx & Ex).
        apply Hp. exists b, x. rewrite Forall_forall in D. auto.
      + intros b' f' c Hc [Ht|Ht]; [now left|right]. now apply (takes_keep w w').
    - intros w b f keys G D _ HL. now apply (set_files_live tr).
  Qed.

  (** ** Failures *)
  Lemma set_file_honest b f cpu w : honest k -> files_ok k hwp false w -> 0 <= cpu ->
    post (set_cpu_freq_file k true hwp b f cpu) w (fun _ _ => True)
      (fun e w' => files_ok k hwp false w' /\ forall p, scaling_file p \/ p <> path b cpu -> seen k w' p = seen k w p).
  Proof.
    intros H (I & T & C) Hc. destruct (H (path b cpu)) as (Hr & Hw & Hs); [now exists b, cpu|].
    unfold set_cpu_freq_file. cbn [negb]. unfold s_write_verify_int. rewrite str_to_int_dec_all.
    apply post_bind. cbn. set (v := dec (f / 1000)). clearbody v. set (p := path b cpu) in *.
    assert (Sc : scaling_file p) by now exists b, cpu. clearbody p.
    generalize (if hwp cpu then 2 else 0) as r. generalize (if hwp cpu then 1 else 0) as sl. intros sl r.
    unfold post. destruct (s_write_verify k p v (Some (cpufreq_what b)) r sl w) as [[u|e] w'] eqn:E; [exact Logic.I|].
    assert (X : (forall q, q <> p -> at_same w w' q) /\ ss_fs w' = ss_fs w /\ ss_buf w' = ss_buf w /\ ss_intr w' = ss_intr w /\
                (se_cache k = true -> dgs (ss_cache w') p = None)).
    { assert (Live : takes k w p v -> False).
      { intros Tk. destruct (write_verify_live k p v (Some (cpufreq_what b)) r sl w I Tk) as (w2 & E2). congruence. }
      unfold s_write_verify, mbind in E.
      destruct (cache_remove_run k p w) as (s1 & E1 & A1 & F1 & B1 & I1 & L1 & C1). rewrite E1 in E.
      unfold gets in E. rewrite I1, I in E. unfold raw_write, mbind, gets in E. rewrite F1 in E.
      destruct (ss_fs w p) as [old|] eqn:Ef.
      2:{ cbn in E. injection E as _ <-. auto 10. }
      destruct (k_write k p old v) as [c|] eqn:Ew.
      2:{ cbn in E. injection E as _ <-. auto 10. }
      exfalso. unfold modify in E.
      match type of E with context [s_verify k p v r ?x] => set (s2 := x) in E end.
      assert (D2 : ss_fs s2 p = Some c) by (subst s2; cbn; apply fs_upd_same).
      assert (V : exists s3, s_verify k p v r s2 = (Ok tt, s3)).
      { clearbody s2. unfold s_verify.
        destruct (cache_remove_run k p s2) as (s3 & E3 & A3 & F3 & B3 & I3 & L3 & C3).
        assert (R : exists s4, s_read k p s3 = (Ok v, s4)).
        { destruct (s_read_run k p s3) as (s4 & E4 & _). exists s4. rewrite E4. f_equal.
          rewrite seen_eq. assert (C4 : (if se_cache k then dgs (ss_cache s3) p else None) = None).
          { destruct (se_cache k); [now apply C3|reflexivity]. }
          rewrite C4. unfold on_disk. rewrite F3, D2, Hr. f_equal. now apply (Hw old). }
        destruct R as (s4 & E4). exists s4.
        destruct (Z.to_nat r); cbn [verify_loop]; unfold mbind; rewrite E3, E4, str_eqb_refl; reflexivity. }
      destruct V as (s3 & V). rewrite V in E.
      destruct (cache_add_run k p v s3) as (s4 & E4 & _). rewrite E4 in E. discriminate E. }
    destruct X as (A & F & B & I' & Cc).
    assert (Sp : seen k w' p = seen k w p).
    { rewrite (C p Sc (or_introl eq_refl)). rewrite seen_eq.
      assert (N : (if se_cache k then dgs (ss_cache w') p else None) = None) by (destruct (se_cache k); auto).
      rewrite N. unfold on_disk. now rewrite F. }
    assert (Sa : forall q, seen k w' q = seen k w q).
    { intros q. destruct (str_dec q p) as [->|Hne]; [exact Sp|]. apply (at_same_untouched k). now apply A. }
    split; [|auto]. split; [congruence|]. split; [discriminate|].
    intros q Hq _. rewrite Sa, (C q Hq (or_introl eq_refl)). unfold on_disk. now rewrite F.
  Qed.

  Lemma cpu_sysfs_clean_any : honest k -> forall w w' b f cpus x, files_ok k hwp false w -> Forall (fun c => 0 <= c) cpus ->
    f_set (cpu_sysfs_io k true hwp rd) b f cpus w = (Exn x, w') ->
    files_ok k hwp false w' /\
      (forall b' c, 0 <= c -> v_cur (cpu_view k spec) w' b' c = v_cur (cpu_view k spec) w b' c \/
         (b' = b /\ In c cpus /\ v_cur (cpu_view k spec) w' b' c = Ok (khz c f))) /\
      (forall b' c, 0 <= c -> v_limit (cpu_view k spec) w' b' c = v_limit (cpu_view k spec) w b' c).
  Proof.
    intros H w w' b f cpus x G D E. cbn in E.
    assert (P : post (set_freq_sysfs k true hwp b f cpus) w (fun _ _ => True)
      (fun _ w' => files_ok k hwp false w' /\
        (forall b' c, 0 <= c -> seen k w' (path b' c) = seen k w (path b' c) \/
           (b' = b /\ In c cpus /\ seen k w' (path b' c) = Ok (dec (f / 1000)))) /\
        (forall b' c, 0 <= c -> seen k w' (cpufreq_path b' c true) = seen k w (cpufreq_path b' c true)))).
    { unfold set_freq_sysfs. eapply post_conseq.
      - apply (post_mfor _ (fun pre w' => files_ok k hwp false w' /\
          (forall b' c, 0 <= c -> seen k w' (path b' c) = seen k w (path b' c) \/
             (b' = b /\ In c cpus /\ seen k w' (path b' c) = Ok (dec (f / 1000)))) /\
          (forall b' c, 0 <= c -> seen k w' (cpufreq_path b' c true) = seen k w (cpufreq_path b' c true)))
         (fun _ w' => files_ok k hwp false w' /\
          (forall b' c, 0 <= c -> seen k w' (path b' c) = seen k w (path b' c) \/
             (b' = b /\ In c cpus /\ seen k w' (path b' c) = Ok (dec (f / 1000)))) /\
          (forall b' c, 0 <= c -> seen k w' (cpufreq_path b' c true) = seen k w (cpufreq_path b' c true)))).
        2:{ split; [exact G|]. split; [auto|reflexivity]. }
        intros pre c r Er w1 (G1 & S1 & N1).
        assert (Hin : In c cpus) by (rewrite Er; apply in_or_app; right; now left).
        assert (Hc : 0 <= c) by (rewrite Forall_forall in D; now apply D).
        pose proof (set_file_post false b f c w1 G1 Hc) as P1.
        pose proof (set_file_honest b f c w1 H G1 Hc) as P2. unfold post in *.
        destruct (set_cpu_freq_file k true hwp b f c w1) as [[u|e] w2].
        + destruct P1 as (G2 & [A2 I2] & S2 & _). split; [exact G2|]. split.
          * intros b' c' Hc'. destruct (str_dec (path b' c') (path b c)) as [Ee|Hne].
            -- apply cpufreq_path_inj in Ee as (-> & -> & _); [|assumption..]. right. auto.
            -- rewrite (proj2 (at_same_untouched k _ _ _ (A2 _ Hne))). now apply S1.
          * intros b' c' Hc'. rewrite (proj2 (at_same_untouched k _ _ _ (A2 (cpufreq_path b' c' true)
              ltac:(intros Ee; apply cpufreq_path_inj in Ee as (_ & _ & Ee); [discriminate|assumption..])))).
            now apply N1.
        + destruct P2 as (G2 & S2). split; [exact G2|]. split.
          * intros b' c' Hc'. rewrite S2; [now apply S1|]. left. now exists b', c'.
          * intros b' c' Hc'. rewrite S2; [now apply N1|]. right.
            intros Ee. apply cpufreq_path_inj in Ee as (_ & _ & Ee); [discriminate|assumption..].
      - auto.
      - auto. }
    unfold post in P. rewrite E in P. destruct P as (G' & S' & N'). split; [exact G'|].
    cbn. split.
    - intros b' c Hc. destruct (S' b' c Hc) as [Es|(-> & Hin & Es)].
      + left. unfold file_freq. now rewrite !seen_int_eq, Es.
      + right. split; [reflexivity|]. split; [exact Hin|]. now apply file_freq_of.
    - intros b' c Hc. unfold file_freq. now rewrite !seen_int_eq, N'.
  Qed.

  Lemma khz_rounds good : rounds (cpu_view k spec) good (fun c => 0 <= c) khz /\
    rounds_limits (cpu_view k spec) good (fun c => 0 <= c) khz.
  Proof.
    assert (M : forall w p x, file_freq k w p = Ok x -> khz 0 x = x).
    { intros w p x H. unfold file_freq in H. destruct (seen_int k w p); [|discriminate]. injection H as <-.
      unfold khz. rewrite Z.div_mul; lia. }
    split; [split|].
    - intros key x y _ H. unfold khz. apply Z.mul_le_mono_nonneg_r; [lia|]. apply Z.div_le_mono; lia.
    - intros w b key x _ _ H. now apply (M w) in H.
    - intros w b key x _ _ H. now apply (M w) in H.
  Qed.
End L.
