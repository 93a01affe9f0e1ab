(** Settings of Linux CPU frequency drivers: governors and the mode of 'intel_pstate'. *)
From Coq Require Import Ascii String.
From Verif Require Import Base L_Base L_Monad M_Text S_Text L_Text M_Sysfs S_Sysfs L_Sysfs S_SysView L_SysView
  M_CPUFreq L_Uncore L_CPUFreq M_Tpmi L_Tpmi M_CFreq S_CFreq L_CFreq L_CFreq2.
From Coq Require Import ZifyBool.
Open Scope list_scope.

(** ** Words separated by single spaces *)
Lemma strip_word w : w <> [] -> (forall c, In c w -> is_space c = false) -> strip w = w.
Proof.
  intros Hn H. unfold strip, strip_by. destruct w as [|c w]; [congruence|].
  rewrite lstrip_stop by (apply H; now left).
  pose proof (rstrip_last (c :: w) ltac:(discriminate)) as R. unfold rstrip in R. apply R.
  apply H. clear. revert c. induction w as [|d w IH]; intros c; [now left|]. right. apply IH.
Qed.

Lemma split_names ws : Forall (fun w => w <> [] /\ forall c, In c w -> is_space c = false) ws ->
  split_csv_line " " false false (join " " ws) = ws.
Proof.
  intros H. rewrite split_csv_toks, toks_join.
  induction H as [|w ws [Hw Hx] H IH]; [reflexivity|]. cbn [flat_map].
  assert (E : toks " " w = [w]).
  { unfold toks. rewrite split_on_none; [destruct w; [congruence|reflexivity]|].
    apply has_char_false. intros Hi. apply Hx in Hi. discriminate. }
  rewrite E. cbn [app map]. rewrite strip_word by assumption. f_equal. exact IH.
Qed.

Lemma str_in_iff x l : str_in x l = true <-> In x l.
Proof.
  unfold str_in. rewrite existsb_exists. split.
  - intros (y & Hy & E). apply str_eqb_eq in E. now subst.
  - intros H. exists x. split; [exact H|]. now apply str_eqb_eq.
Qed.

Lemma last_app (a : str) b : b <> [] -> last (a ++ b) " "%char = last b " "%char.
Proof.
  intros Hb. induction a as [|x a IH]; [reflexivity|]. cbn. destruct (a ++ b) eqn:E; [|exact IH].
  apply app_eq_nil in E as [_ ->]. congruence.
Qed.

Lemma governor_not_list c c' : governors_path c <> governor_path c'.
Proof.
  intros E. apply (f_equal (fun l => last l " "%char)) in E. unfold governors_path, governor_path, policy_path in E.
  rewrite !app_assoc in E. rewrite !last_app in E by discriminate. vm_compute in E. discriminate E.
Qed.

Section Governor.
  Variable k : senv.

  Lemma listed_of s c gs : governors_listed k s c gs -> govs_of k s c = Ok gs.
  Proof.
    intros (t & Ht & -> & F). unfold govs_of.
    change (governors_path c) with (policy_path c (s2l "scaling_available_governors")). rewrite policy_path_file, Ht.
    now rewrite split_names.
  Qed.

  Lemma listed_get s cpus gs : (forall c, In c cpus -> governors_listed k s c (gs c)) ->
    exists s', get_available_governors k cpus s = (Ok (map (fun c => (c, gs c)) cpus), s') /\ nothing_changed k s s'.
  Proof.
    intros H. destruct (reads_get k _ _ (governors_reads k) cpus s) as [X Y].
    destruct (proj2 (X (map (fun c => (c, gs c)) cpus))) as (s' & E).
    { split; [rewrite map_map; apply map_id|]. intros c v Hin. apply in_map_iff in Hin as (c0 & [= -> <-] & Hc).
      now apply listed_of, H. }
    exists s'. split; [exact E|]. exact (Y _ _ E).
  Qed.

  Lemma set_governor_cpu_post g c s :
    post (set_governor_cpu k g c) s
      (fun _ s' => exists l, govs_of k s c = Ok l /\ In g l /\ wrote k (governor_path c) g s s')
      (fun _ s' => not_wrote k (governor_path c) s s').
  Proof.
    unfold set_governor_cpu. destruct (governors_reads k) as [D1 _]. destruct (D1 s c) as (s1 & E1 & U1).
    unfold post, mbind. rewrite E1.
    assert (N0 : not_wrote k (governor_path c) s s1).
    { destruct U1 as (U1 & U2 & U3 & U4 & U5). split; [|auto]. intros q _. split; [now rewrite U2|apply U1]. }
    destruct (govs_of k s c) as [l|e]; [|exact N0]. destruct (str_in g l) eqn:Ei; [|exact N0]. cbn [negb].
    pose proof (write_wrote k (governor_path c) g governor_what s1) as P. unfold post in P.
    destruct (s_write k (governor_path c) g governor_what s1) as [[[]|e] s2].
    - exists l. split; [reflexivity|]. split; [now apply str_in_iff|]. now apply (wrote_after k s1).
    - apply (not_wrote_after k s1); [exact U1|]. apply P.
  Qed.

  Definition gov_written (g : str) (cpus : list Z) (f v : str) : Prop := exists c, In c cpus /\ f = governor_path c /\ v = g.

  Lemma govs_kept g done s s1 c : loop_inv k (gov_written g done) s s1 -> govs_of k s1 c = govs_of k s c.
  Proof.
    intros (L & _). unfold govs_of. destruct (L (governors_path c)) as [_ ->]; [|reflexivity].
    intros v (c' & _ & E & _). now apply governor_not_list in E.
  Qed.

  Lemma set_governor_post g cpus s :
    post (set_governor k g cpus) s
      (fun _ s' => loop_inv k (gov_written g cpus) s s' /\
         (forall c, In c cpus -> exists l, govs_of k s c = Ok l /\ In g l))
      (fun _ s' => exists pre c rest, cpus = pre ++ c :: rest /\ exists s1,
         loop_inv k (gov_written g pre) s s1 /\ not_wrote k (governor_path c) s1 s' /\
         (forall c, In c pre -> exists l, govs_of k s c = Ok l /\ In g l)).
  Proof.
    unfold set_governor. apply (post_mfor _ (fun done s' => loop_inv k (gov_written g done) s s' /\
         (forall c, In c done -> exists l, govs_of k s c = Ok l /\ In g l))).
    - intros pre c rest Ec s1 (L & H). eapply post_conseq; [apply set_governor_cpu_post| |].
      + intros _ s2 (l & Hl & Hg & Wr). rewrite (govs_kept g pre s s1 c L) in Hl. split.
        * eapply loop_inv_step; [exact L|exact Wr|]. intros q w. unfold gov_written. split.
          -- intros (c' & Hc & -> & ->). apply in_app_or in Hc as [Hc|[<-|[]]]; [left; now exists c'|now right].
          -- intros [(c' & Hc & -> & ->)|[-> ->]]; [exists c'|exists c]; (split; [apply in_or_app|auto]); [now left|right; now left].
        * intros c' Hc. apply in_app_or in Hc as [Hc|[<-|[]]]; [now apply H|]. now exists l.
      + intros e s2 Hn. exists pre, c, rest. split; [exact Ec|]. exists s1. auto.
    - split; [|intros c []]. destruct (loop_inv_start k s) as (A & B & C & D). split; [|split; [exact B|split; [|exact D]]].
      + intros q _. apply untouched_refl.
      + intros p v (c & [] & _).
  Qed.

  Lemma set_governor_ok g cpus s s' : set_governor k g cpus s = (Ok tt, s') ->
    (forall c, In c cpus -> (forall gs, governors_listed k s c gs -> In g gs) /\
       (shows_written k s (policy_file c "scaling_governor") g -> seen k s' (policy_file c "scaling_governor") = Ok g) /\
       (ss_intr s = false -> stores k (policy_file c "scaling_governor") g ->
          contents s' (policy_file c "scaling_governor") = Some g)) /\
    (forall p, (forall c, In c cpus -> p <> policy_file c "scaling_governor") -> untouched k s s' p) /\
    (ss_intr s = true -> ss_fs s' = ss_fs s /\ ss_log s' = ss_log s).
  Proof.
    intros E. pose proof (post_run _ _ _ _ _ _ (set_governor_post g cpus s) E) as ((L1 & L2 & L3 & L4) & H).
    split; [|split].
    - intros c Hc. destruct (H c Hc) as (l & Hl & Hg). split.
      + intros gs Hs. apply listed_of in Hs. congruence.
      + apply L3; [now exists c|]. intros v' (_ & _ & _ & ->). reflexivity.
    - intros p Hp. apply L1. intros v (c & Hc & -> & _). now apply (Hp c Hc).
    - exact L4.
  Qed.

  Lemma set_governor_fails g cpus s s' e : set_governor k g cpus s = (Exn e, s') ->
    exists pre c rest, cpus = pre ++ c :: rest /\
      (forall c', In c' pre -> policy_file c' "scaling_governor" <> policy_file c "scaling_governor" ->
         (shows_written k s (policy_file c' "scaling_governor") g -> seen k s' (policy_file c' "scaling_governor") = Ok g) /\
         (ss_intr s = false -> stores k (policy_file c' "scaling_governor") g ->
            contents s' (policy_file c' "scaling_governor") = Some g)) /\
      (forall p, (forall c', In c' (pre ++ [c]) -> p <> policy_file c' "scaling_governor") -> untouched k s s' p) /\
      (~ In (policy_file c "scaling_governor") (map (fun c' => policy_file c' "scaling_governor") pre) ->
         ss_fs s' (policy_file c "scaling_governor") = ss_fs s (policy_file c "scaling_governor")).
  Proof.
    intros E. pose proof (post_run _ _ _ _ _ _ (set_governor_post g cpus s) E) as
      (pre & c & rest & Ec & s1 & (L1 & L2 & L3 & L4) & (N1 & N2 & N3 & N4) & _).
    exists pre, c, rest. split; [exact Ec|]. split; [|split].
    - intros c' Hc' Hn. destruct (N1 (governor_path c') Hn) as [F S].
      destruct (L3 (governor_path c') g) as [A B]; [now exists c'|intros v' (_ & _ & _ & ->); reflexivity|].
      split; [intros X; change (seen k s' (governor_path c') = Ok g); rewrite S; auto|].
      change (ss_intr s = false -> stores k (governor_path c') g -> contents s' (governor_path c') = Some g).
      unfold contents in *. rewrite F. exact B.
    - intros p Hp. eapply untouched_trans; [apply L1|apply N1].
      + intros v (c' & Hc' & -> & _). apply (Hp c'); [apply in_or_app; now left|reflexivity].
      + apply (Hp c). apply in_or_app. right. now left.
    - intros Hn. rewrite N3. apply L1. intros v (c' & Hc' & Ep & _). apply Hn. apply in_map_iff. exists c'. now split.
  Qed.

  Lemma set_governor_refused g c gs cpus s : governors_listed k s c gs -> ~ In g gs ->
    exists s', set_governor k g (c :: cpus) s = (Exn EError, s') /\ nothing_changed k s s'.
  Proof.
    intros Hl Hn. apply listed_of in Hl. unfold set_governor. cbn [mfor]. unfold mbind at 1, set_governor_cpu. unfold mbind at 1.
    destruct (governors_reads k) as [D1 _]. destruct (D1 s c) as (s1 & E1 & U1). rewrite E1, Hl. exists s1.
    assert (X : str_in g gs = false). { destruct (str_in g gs) eqn:X; [|reflexivity]. apply str_in_iff in X. now destruct Hn. }
    rewrite X. split; [reflexivity|exact U1].
  Qed.

  Lemma set_governor_get g cpus s s' : set_governor k g cpus s = (Ok tt, s') ->
    (forall c, In c cpus -> shows_written k s (policy_file c "scaling_governor") g) ->
    exists s'', get_governor k cpus s' = (Ok (map (fun c => (c, g)) cpus), s'').
  Proof.
    intros E Hs. destruct (set_governor_ok _ _ _ _ E) as (H & _).
    apply (proj1 (reads_get k _ _ (governor_reads k) cpus s')). split.
    - rewrite map_map. cbn [fst]. apply map_id.
    - intros c v Hin. apply in_map_iff in Hin as (c0 & [= -> <-] & Hin). destruct (H c Hin) as (_ & X & _).
      apply X. now apply Hs.
  Qed.

  Lemma set_governor_works g cpus s :
    (forall c, In c cpus -> exists gs, governors_listed k s c gs /\ In g gs /\
       can_write k s (policy_file c "scaling_governor") g "CPU frequency governor") ->
    exists s', set_governor k g cpus s = (Ok tt, s').
  Proof.
    intros H0. assert (H : forall c, In c cpus -> exists gs, govs_of k s c = Ok gs /\ In g gs /\
       can_write k s (governor_path c) g "CPU frequency governor").
    { intros c Hc. destruct (H0 c Hc) as (gs & A & B & C). exists gs. split; [now apply listed_of|]. now split. }
    clear H0. unfold set_governor. revert s H. induction cpus as [|c cpus IH]; intros s H; [now exists s|].
    destruct (H c (or_introl eq_refl)) as (gs & Hd & Hg & Cw).
    cbn [mfor]. unfold mbind at 1, set_governor_cpu. unfold mbind at 1.
    destruct (governors_reads k) as [D1 _]. destruct (D1 s c) as (s1 & E1 & U1). rewrite E1, Hd.
    rewrite (proj2 (str_in_iff g gs) Hg). cbn [negb].
    apply (can_unseen k _ _ _ _ _ U1) in Cw. destruct (write_can k _ _ _ _ Cw) as (s2 & E2).
    change (s_write k (governor_path c) g governor_what s1 = (Ok tt, s2)) in E2. rewrite E2. apply IH.
    intros c' Hc'. destruct (H c' (or_intror Hc')) as (gs' & Hd' & Hg' & Cw'). exists gs'. split; [|split; [exact Hg'|]].
    - rewrite <- Hd'. unfold govs_of.
      pose proof (post_run _ _ _ _ _ _ (write_wrote k (governor_path c) g governor_what s1) E2) as (W & _).
      destruct (W (governors_path c') (governor_not_list c' c)) as [_ ->]. now rewrite (proj1 U1).
    - apply (can_unseen k _ _ _ _ _ U1) in Cw'. destruct (str_dec (governor_path c') (governor_path c)) as [-> |Hn].
      + eapply write_can_again; [exact Cw|exact E2].
      + eapply can_other; [exact Hn|exact E2|exact Cw'].
  Qed.
End Governor.

Lemma modes_iff m : str_in m pstate_modes = true <-> m = s2l "active" \/ m = s2l "passive" \/ m = s2l "off".
Proof. rewrite str_in_iff. cbn. intuition. Qed.

Section Mode.
  Variable k : senv.
  Variable has_dir : bool.
  Variable hwp : Z -> res bool.

  Notation status := status_file.

  Lemma write_fail_seen p v w s e s' : ss_intr s = false -> s_write k p v w s = (Exn e, s') ->
    seen k s' p = on_disk k s p.
  Proof.
    intros Hi. unfold s_write, mbind. destruct (cache_remove_run k p s) as (s1 & E1 & A1 & F1 & B1 & I1 & L1 & C1).
    rewrite E1. unfold gets. rewrite I1, Hi. unfold raw_write, mbind, gets.
    assert (X : seen k s1 p = on_disk k s p).
    { rewrite seen_eq. destruct (se_cache k); [rewrite C1 by reflexivity|]; unfold on_disk; now rewrite F1. }
    destruct (ss_fs s1 p) as [old|] eqn:Ef; [|intros [= _ <-]; exact X].
    destruct (k_write k p old v) as [c|] eqn:Ew; [|intros [= _ <-]; exact X].
    unfold modify. match goal with |- context [cache_add k p v ?z] => destruct (cache_add_run k p v z) as (s4 & E4 & _) end.
    rewrite E4. discriminate.
  Qed.

  (** What one step of set_mode() does, outside a transaction *)
  Lemma set_mode_cpu_post mode c s : ss_intr s = false ->
    post (set_mode_cpu k has_dir hwp mode c) s
      (fun _ s' => has_driver k has_dir s c (s2l "intel_pstate") /\ exists cur, seen k s status = Ok cur /\
        (wrote k status mode s s' \/
         (mode = s2l "off" /\ cur = s2l "off" /\ not_wrote k status s s' /\ seen k s' status = on_disk k s status)))
      (fun e s' => not_wrote k status s s').
  Proof.
    intros Hi. unfold set_mode_cpu, post. unfold mbind at 1. destruct (drv_reads k has_dir) as [D1 D2].
    destruct (mode_reads k has_dir) as [M1 M2]. destruct (D1 s c) as (s1 & E1 & U1). rewrite E1.
    assert (N0 : forall s1, unseen k s s1 -> not_wrote k status s s1).
    { intros s0 (V1 & V2 & V3 & V4 & V5). split; [|auto]. intros q _. split; [now rewrite V2|apply V1]. }
    destruct (drv k has_dir s c) as [d|e] eqn:Ed; [|now apply N0]. unfold mbind.
    destruct (M1 s1 c) as (s2 & E2 & U2). rewrite E2. assert (U : unseen k s s2) by (eapply unseen_trans; eassumption).
    destruct (mode_of k has_dir s1 c) as [cur|e] eqn:Em; [|now apply N0].
    destruct (str_eqb d intel_pstate) eqn:Ep; [|now apply N0]. cbn [negb].
    rewrite (M2 s s1 c U1) in Em. apply mode_iff in Em as [Hd Hc].
    pose proof (write_wrote k status_path mode mode_what s2) as P. unfold post in P.
    destruct (s_write k status_path mode mode_what s2) as [[[]|e] s3] eqn:Ew.
    - split; [exact Hd|]. exists cur. split; [exact Hc|]. left. now apply (wrote_after k s2).
    - destruct P as (P & _ & He). apply (not_wrote_after k s2 s) in P; [|exact U].
      unfold mode_failed. destruct (catches_error e); [|exact P]. cbn [negb].
      destruct (str_eqb mode m_off) eqn:Eo; [|exact P]. cbn [negb]. apply str_eqb_eq in Eo.
      destruct (str_eqb cur m_off) eqn:Eq.
      + apply str_eqb_eq in Eq. split; [exact Hd|]. exists cur. split; [exact Hc|]. right. split; [exact Eo|]. split; [exact Eq|].
        split; [exact P|]. apply write_fail_seen in Ew; [|destruct U as (_ & _ & _ & U & _); congruence].
        etransitivity; [exact Ew|]. unfold on_disk. destruct U as (_ & -> & _). reflexivity.
      + destruct (hwp c) as [b|x]; [destruct (bool_eq_str b m_on); exact P|destruct (catches_error x); exact P].
  Qed.

  Lemma drv_at s s' c : (forall q, q <> status -> untouched k s s' q) -> drv k has_dir s' c = drv k has_dir s c.
  Proof. intros H. apply drv_untouched, H. exact (policy_not_status c _). Qed.

  (** Outside a transaction *)
  Definition mode_inv (mode : str) (s0 : sstate) (done : list Z) (s : sstate) : Prop :=
    ss_intr s = false /\ (forall q, q <> status -> untouched k s0 s q) /\
    (forall c, In c done -> has_driver k has_dir s0 c (s2l "intel_pstate")) /\
    seen k s status = on_disk k s status /\
    (done = [] -> s = s0) /\ (done <> [] -> seen k s status = Ok mode).

  Lemma set_mode_loop mode cpus s : ss_intr s = false -> stores k status mode -> k_unreadable k status = false ->
    seen k s status = on_disk k s status ->
    post (mfor cpus (set_mode_cpu k has_dir hwp mode)) s (fun _ s' => mode_inv mode s cpus s')
      (fun _ s' => forall q, q <> status -> untouched k s s' q).
  Proof.
    intros Hi Hs Hu Hc. apply (post_mfor _ (mode_inv mode s)).
    - intros pre c rest _ s1 (I1 & I2 & I3 & I4 & I5 & I6). eapply post_conseq; [now apply set_mode_cpu_post| |].
      + intros _ s2 (Hd & cur & Hcur & [W|(Em & Ecur & W & Ws)]).
        * destruct W as (W1 & W2 & W3 & W4 & W5 & _).
          assert (F : forall q, q <> status -> untouched k s s2 q).
          { intros q Hq. eapply untouched_trans; [now apply I2|now apply W1]. }
          split; [congruence|]. split; [exact F|]. split.
          { intros c' Hc'. apply in_app_or in Hc' as [Hc'|[<-|[]]]; [now apply I3|]. apply drv_iff.
            rewrite <- (drv_at s s1 c I2). now apply drv_iff. }
          assert (Sn : seen k s2 status = Ok mode). { apply W3. right. auto. }
          assert (Od : on_disk k s2 status = Ok mode).
          { specialize (W4 I1 Hs). unfold contents in W4. unfold on_disk. destruct (ss_fs s2 status) as [raw|]; [|discriminate].
            rewrite Hu. cbn in W4. congruence. }
          split; [congruence|]. split; [intros X; now apply app_eq_nil in X|]. auto.
        * destruct W as (W1 & W2 & W3 & W4).
          assert (F : forall q, q <> status -> untouched k s s2 q).
          { intros q Hq. eapply untouched_trans; [now apply I2|now apply W1]. }
          split; [congruence|]. split; [exact F|]. split.
          { intros c' Hc'. apply in_app_or in Hc' as [Hc'|[<-|[]]]; [now apply I3|]. apply drv_iff.
            rewrite <- (drv_at s s1 c I2). now apply drv_iff. }
          assert (Od : on_disk k s2 status = on_disk k s1 status) by (unfold on_disk; now rewrite W3).
          split; [congruence|]. split; [intros X; now apply app_eq_nil in X|]. intros _. congruence.
      + intros e s2 (W1 & _) q Hq. eapply untouched_trans; [now apply I2|now apply W1].
    - split; [exact Hi|]. split; [intros; apply untouched_refl|]. split; [intros c []|]. split; [exact Hc|].
      split; [reflexivity|]. intros X; now destruct X.
  Qed.

  Lemma set_mode_ok mode cpus s s' : ss_intr s = false -> stores k status mode -> k_unreadable k status = false ->
    seen k s status = on_disk k s status -> cpus <> [] ->
    set_mode k has_dir hwp mode cpus s = (Ok tt, s') ->
    (mode = s2l "active" \/ mode = s2l "passive" \/ mode = s2l "off") /\
    (forall c, In c cpus -> has_driver k has_dir s c (s2l "intel_pstate")) /\
    seen k s' status = Ok mode /\ on_disk k s' status = Ok mode /\
    (forall p, p <> status -> untouched k s s' p).
  Proof.
    intros Hi Hs Hu Hc Hn. unfold set_mode. destruct (str_in mode pstate_modes) eqn:Em; [|discriminate]. cbn [negb]. intros E.
    split; [now apply modes_iff|].
    destruct (post_run _ _ _ _ _ _ (set_mode_loop mode cpus s Hi Hs Hu Hc) E) as (I1 & I2 & I3 & I4 & I5 & I6).
    split; [exact I3|]. split; [now apply I6|]. split; [rewrite <- I4; now apply I6|exact I2].
  Qed.

  Lemma set_mode_fails mode cpus s s' e : ss_intr s = false -> stores k status mode -> k_unreadable k status = false ->
    seen k s status = on_disk k s status ->
    set_mode k has_dir hwp mode cpus s = (Exn e, s') -> forall p, p <> status -> untouched k s s' p.
  Proof.
    intros Hi Hs Hu Hc. unfold set_mode. destruct (str_in mode pstate_modes) eqn:Em; cbn [negb].
    - intros E. exact (post_run _ _ _ _ _ _ (set_mode_loop mode cpus s Hi Hs Hu Hc) E).
    - intros [= _ <-] p _. apply untouched_refl.
  Qed.

  Lemma set_mode_get mode cpus s s' : ss_intr s = false -> stores k status mode -> k_unreadable k status = false ->
    seen k s status = on_disk k s status -> cpus <> [] ->
    set_mode k has_dir hwp mode cpus s = (Ok tt, s') ->
    forall others, (forall c, In c others -> has_driver k has_dir s c (s2l "intel_pstate")) ->
    exists s'', get_mode k has_dir others s' = (Ok (map (fun c => (c, mode)) others), s'').
  Proof.
    intros Hi Hs Hu Hc Hn E others Ho. destruct (set_mode_ok _ _ _ _ Hi Hs Hu Hc Hn E) as (_ & _ & A & _ & F).
    apply (proj1 (reads_get k _ _ (mode_reads k has_dir) others s')). split.
    - rewrite map_map. cbn [fst]. apply map_id.
    - intros c v Hin. apply in_map_iff in Hin as (c0 & [= -> <-] & Hin). apply mode_iff. split; [|exact A].
      apply drv_iff. rewrite (drv_at s s' c F). apply drv_iff. now apply Ho.
  Qed.

  Lemma set_mode_bad mode cpus s : mode <> s2l "active" -> mode <> s2l "passive" -> mode <> s2l "off" ->
    set_mode k has_dir hwp mode cpus s = (Exn EError, s).
  Proof.
    intros A B C. unfold set_mode. destruct (str_in mode pstate_modes) eqn:Em; [|reflexivity].
    apply modes_iff in Em as [E|[E|E]]; congruence.
  Qed.

  Lemma set_mode_unsupported mode c cpus s d : mode = s2l "active" \/ mode = s2l "passive" \/ mode = s2l "off" ->
    has_driver k has_dir s c d -> d <> s2l "intel_pstate" ->
    exists s', set_mode k has_dir hwp mode (c :: cpus) s = (Exn ENotSupported, s') /\ nothing_changed k s s'.
  Proof.
    intros Hm Hd Hn. apply drv_iff in Hd. unfold set_mode. rewrite (proj2 (modes_iff mode) Hm). cbn [negb mfor].
    unfold mbind at 1, set_mode_cpu. unfold mbind at 1. destruct (drv_reads k has_dir) as [D1 D2].
    destruct (mode_reads k has_dir) as [M1 M2]. destruct (D1 s c) as (s1 & E1 & U1). rewrite E1, Hd. unfold mbind at 1.
    destruct (M1 s1 c) as (s2 & E2 & U2). rewrite E2, (M2 s s1 c U1). unfold mode_of. rewrite Hd.
    assert (str_eqb d intel_pstate = false) as ->.
    { destruct (str_eqb d intel_pstate) eqn:X; [|reflexivity]. apply str_eqb_eq in X. exfalso. apply Hn. exact X. }
    cbn [negb]. exists s2. split; [reflexivity|]. eapply unseen_trans; eassumption.
  Qed.

  Lemma set_mode_works mode cpus s : mode = s2l "active" \/ mode = s2l "passive" \/ mode = s2l "off" ->
    (forall c, In c cpus -> has_driver k has_dir s c (s2l "intel_pstate")) ->
    (exists cur, seen k s status = Ok cur) -> k_unreadable k status = false ->
    can_write k s status mode "'intel_pstate' driver mode" ->
    exists s', set_mode k has_dir hwp mode cpus s = (Ok tt, s').
  Proof.
    intros Hm Hd Hs Hu Cw. unfold set_mode. rewrite (proj2 (modes_iff mode) Hm). cbn [negb].
    revert s Hd Hs Cw. induction cpus as [|c cpus IH]; intros s Hd (cur & Hs) Cw; [now exists s|].
    cbn [mfor]. unfold mbind at 1, set_mode_cpu. unfold mbind at 1. destruct (drv_reads k has_dir) as [D1 D2].
    destruct (mode_reads k has_dir) as [M1 M2]. destruct (D1 s c) as (s1 & E1 & U1).
    pose proof (Hd c (or_introl eq_refl)) as Hc. pose proof (proj2 (drv_iff k has_dir s c _) Hc) as Hc'. rewrite E1, Hc'. unfold mbind at 1.
    destruct (M1 s1 c) as (s2 & E2 & U2). rewrite E2, (M2 s s1 c U1).
    rewrite (proj2 (mode_iff k has_dir s c cur) (conj Hc Hs)).
    change (str_eqb (s2l "intel_pstate") intel_pstate) with true. cbn [negb].
    assert (U : unseen k s s2) by (eapply unseen_trans; eassumption).
    apply (can_unseen k _ _ _ _ _ U) in Cw. destruct (write_can k _ _ _ _ Cw) as (s3 & E3).
    change (s_write k status_path mode mode_what s2 = (Ok tt, s3)) in E3. rewrite E3.
    pose proof (post_run _ _ _ _ _ _ (write_wrote k status_path mode mode_what s2) E3) as (W1 & W2 & W3 & W4 & W5 & W6).
    assert (F : forall q, q <> status -> untouched k s s3 q).
    { intros q Hq. eapply untouched_trans; [apply (unseen_at k s s2); exact U|now apply W1]. }
    apply IH.
    - intros c' Hc1. apply drv_iff. rewrite (drv_at s s3 c' F). apply drv_iff. apply Hd. now right.
    - destruct (se_cache k) eqn:Hk.
      + exists mode. apply W3. now left.
      + destruct Cw as [(Hi & Hf & _)|(_ & X & _)]; [|congruence].
        pose proof (post_run _ _ _ _ _ _ (write_post k status_path mode mode_what s2) E3) as (_ & _ & A & _).
        destruct (A Hi) as (_ & _ & old & raw & _ & _ & Fr). exists (strip raw). rewrite seen_eq, Hk. unfold on_disk.
        change (match ss_fs s3 status_path with Some c0 => if k_unreadable k status then Exn EError else Ok (strip c0)
                | None => Exn ENotSupported end = Ok (strip raw)). now rewrite Fr, Hu.
    - eapply write_can_again; [exact Cw|exact E3].
  Qed.

  Lemma set_mode_off_again cpus s : ss_intr s = false ->
    (forall c, In c cpus -> has_driver k has_dir s c (s2l "intel_pstate")) ->
    seen k s status = Ok (s2l "off") -> on_disk k s status = Ok (s2l "off") ->
    (forall old, k_write k status old (s2l "off") = None) ->
    exists s', set_mode k has_dir hwp (s2l "off") cpus s = (Ok tt, s') /\
      ss_fs s' = ss_fs s /\ ss_log s' = ss_log s /\ (forall p, seen k s' p = seen k s p).
  Proof.
    unfold set_mode. change (str_in (s2l "off") pstate_modes) with true. cbn [negb].
    intros Hi Hd Hs Ho Hk. revert s Hi Hd Hs Ho. induction cpus as [|c cpus IH]; intros s Hi Hd Hs Ho; [now exists s|].
    assert (St : exists s1, set_mode_cpu k has_dir hwp (s2l "off") c s = (Ok tt, s1) /\ not_wrote k status s s1 /\
      seen k s1 status = on_disk k s status).
    { unfold set_mode_cpu. unfold mbind at 1. destruct (drv_reads k has_dir) as [D1 D2].
      destruct (mode_reads k has_dir) as [M1 M2]. destruct (D1 s c) as (s1 & E1 & U1).
      pose proof (Hd c (or_introl eq_refl)) as Hc. pose proof (proj2 (drv_iff k has_dir s c _) Hc) as Hc'.
      rewrite E1, Hc'. unfold mbind at 1.
      destruct (M1 s1 c) as (s2 & E2 & U2). rewrite E2, (M2 s s1 c U1).
      rewrite (proj2 (mode_iff k has_dir s c (s2l "off")) (conj Hc Hs)).
      change (str_eqb (s2l "intel_pstate") intel_pstate) with true. cbn [negb].
      assert (U : unseen k s s2) by (eapply unseen_trans; eassumption). pose proof U as (_ & UF & _ & UI & _).
      pose proof (write_post k status_path (s2l "off") mode_what s2) as Q. unfold post in Q.
      pose proof (write_wrote k status_path (s2l "off") mode_what s2) as Q2. unfold post in Q2.
      destruct (s_write k status_path (s2l "off") mode_what s2) as [[[]|e] s3] eqn:Ew.
      - destruct Q as (_ & _ & A & _). rewrite UI in A. destruct (A Hi) as (_ & _ & old & raw & _ & X & _).
        change (k_write k status old (s2l "off") = Some raw) in X. congruence.
      - destruct Q2 as (W & _ & He). exists s3.
        assert (Fm : mode_failed hwp (s2l "off") (s2l "off") c e = Ok tt) by (destruct He as [-> | ->]; reflexivity).
        rewrite Fm. split; [reflexivity|]. split; [now apply (not_wrote_after k s2)|].
        apply write_fail_seen in Ew; [|congruence]. etransitivity; [exact Ew|]. unfold on_disk. now rewrite UF. }
    destruct St as (s1 & E1 & (W1 & W2 & W3 & W4) & Ws). cbn [mfor]. unfold mbind at 1. rewrite E1.
    assert (Sn : forall p, seen k s1 p = seen k s p).
    { intros p. destruct (str_dec p status) as [-> |Hn]; [congruence|]. now apply W1. }
    destruct (IH s1) as (s2 & E2 & F2 & L2 & S2).
    - congruence.
    - intros c' Hc'. apply drv_iff. rewrite (drv_at s s1 c' W1). apply drv_iff, Hd. now right.
    - congruence.
    - unfold on_disk in *. now rewrite W3.
    - exists s2. split; [exact E2|]. split; [congruence|]. split; [congruence|]. intros p. now rewrite S2.
  Qed.
End Mode.
