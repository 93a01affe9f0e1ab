(** Lemmas about formatting numbers. *)
From Coq Require Import QArith Qabs Qpower ZifyBool Lqa Sorted.
From Verif Require Import Base L_Base M_Text S_Text L_Text M_Human S_Human L_Human L_Human2 L_Human3 L_Human4.

Lemma pad_spec n : forall v, 0 <= v < 10 ^ Z.of_nat n ->
  length (pad n v) = n /\ Forall is_digit (pad n v) /\ spelled (pad n v) = v.
Proof.
  induction n as [|n IH]; intros v Hv.
  - cbn in Hv |- *. repeat split; [constructor|]. lia.
  - cbn [pad]. rewrite Nat2Z.inj_succ, Z.pow_succ_r in Hv by lia.
    destruct (IH (v / 10)) as (H1 & H2 & H3); [split; [apply Z.div_pos; lia|apply Z.div_lt_upper_bound; lia]|].
    pose proof (Z.mod_pos_bound v 10 ltac:(lia)) as Hm.
    split; [rewrite app_length, H1; cbn; lia|]. split.
    + apply Forall_app. split; [exact H2|]. constructor; [now apply digit_char_is|constructor].
    + rewrite spelled_app, H3, digit_char_code by exact Hm. pose proof (Z.div_mod v 10). lia.
Qed.
Lemma spelled_cat s t : Forall is_digit t -> spelled (s ++ t) = spelled s * 10 ^ Z.of_nat (length t) + spelled t.
Proof.
  intros _. induction t as [|c t IH] using rev_ind.
  - rewrite app_nil_r. cbn. lia.
  - rewrite app_assoc, !spelled_app, IH, app_length. cbn [length].
    rewrite Nat2Z.inj_add. change (Z.of_nat 1) with 1. rewrite Z.pow_add_r by lia. lia.
Qed.
Lemma zeros_spelled z : forallb (Ascii.eqb "0") z = true -> Forall is_digit z /\ spelled z = 0.
Proof.
  induction z as [|c z IH] using rev_ind; [split; [constructor|reflexivity]|].
  rewrite forallb_app. cbn [forallb]. rewrite andb_true_r. intros H. apply andb_true_iff in H as (H & Hc).
  apply Ascii.eqb_eq in Hc as <-. destruct (IH H) as (H1 & H2). split.
  - apply Forall_app. split; [exact H1|]. constructor; [|constructor]. unfold is_digit. cbn. lia.
  - rewrite spelled_app, H2. reflexivity.
Qed.

Lemma rstrip_same c x y : y <> c -> rstrip_char c (x ++ [y]) = x ++ [y].
Proof.
  intros H. unfold rstrip_char. rewrite rev_app_distr. cbn [rev app lstrip_by].
  assert (E : Ascii.eqb c y = false) by (apply Ascii.eqb_neq; congruence). rewrite E. cbn [rev].
  now rewrite rev_involutive.
Qed.
Lemma rstrip_one c x : rstrip_char c (x ++ [c]) = rstrip_char c x.
Proof.
  unfold rstrip_char. rewrite rev_app_distr. cbn [rev app lstrip_by]. now rewrite Ascii.eqb_refl.
Qed.
Lemma digit_not_dot c : is_digit c -> c <> "."%char.
Proof. intros H ->. unfold is_digit in H. cbn in H. lia. Qed.
Lemma rstrip_digits a l : l <> [] -> Forall is_digit l -> rstrip_char "." (a ++ l) = a ++ l.
Proof.
  intros Hn Hd. destruct (exists_last Hn) as (l' & c & ->). rewrite app_assoc. apply rstrip_same.
  apply Forall_app in Hd as (_ & Hd). inversion Hd; subst. now apply digit_not_dot.
Qed.

(** "12.500" -> "12.5", "12.000" -> "12" *)
Lemma strip_zeros_text a fp : fp <> [] -> Forall is_digit fp ->
  exists fp' z, fp = fp' ++ z /\ forallb (Ascii.eqb "0") z = true /\
    rstrip_char "0" (a ++ "."%char :: fp) = a ++ "."%char :: fp'.
Proof.
  intros Hn Hd. unfold rstrip_char. destruct (rstrip_decomp (Ascii.eqb "0") (a ++ "."%char :: fp)) as (z & E & Hz).
  set (r := rev (lstrip_by (Ascii.eqb "0") (rev (a ++ "."%char :: fp)))) in *.
  rewrite forallb_forall in Hz.
  destruct (app_eq_app _ _ _ _ E) as (l & [(H1 & H2)|(H1 & H2)]).
  - exfalso. assert (X : In "."%char z) by (rewrite H2; apply in_or_app; right; now left).
    specialize (Hz _ X). discriminate.
  - destruct l as [|c l].
    + exfalso. cbn in H2. assert (X : In "."%char z) by (rewrite <- H2; now left). specialize (Hz _ X). discriminate.
    + cbn in H2. injection H2 as <- H2. exists l, z. split; [exact H2|]. split; [now apply forallb_forall|exact H1].
Qed.

Lemma dec_nat_numeral n : 0 <= n -> numeral (dec_nat n) n.
Proof. intros H. pose proof (dec_numeral n H) as X. unfold dec in X. destruct (n <? 0) eqn:E; [lia|exact X]. Qed.

Definition half_unit (decp : nat) : Q := (1 # 2) * (10 # 1) ^ (- Z.of_nat decp).
Lemma pow10_pos k : (0 < (10 # 1) ^ k)%Q.
Proof. apply Qpower_0_lt. reflexivity. Qed.
Lemma pow10_pos' k : 0 <= k -> ((10 # 1) ^ k == inject_Z (10 ^ k))%Q.
Proof. intros H. rewrite Zpower_Qpower by lia. reflexivity. Qed.

(** The digits of fmt_fixed() *)
Lemma fmt_fixed_text v d : exists st sg ip fp,
  fmt_fixed v d = st ++ ip ++ (match d with O => [] | _ => "."%char :: fp end) /\
  sign_text st sg /\ ip <> [] /\ Forall is_digit ip /\ Forall is_digit fp /\ length fp = d /\
  (Qabs (inject_Z (sg * spelled (ip ++ fp)) * (10 # 1) ^ (- Z.of_nat d) - v) <= half_unit d)%Q.
Proof.
  unfold fmt_fixed. set (p := 10 ^ Z.of_nat d). set (n := qround (Qabs v * inject_Z p)).
  assert (Hp : 0 < p) by (apply Z.pow_pos_nonneg; lia).
  pose proof (qround_near (Qabs v * inject_Z p)) as Hr. fold n in Hr.
  assert (Hv : (0 <= Qabs v * inject_Z p)%Q).
  { apply Qmult_le_0_compat; [apply Qabs_nonneg|]. unfold Qle, inject_Z; cbn [Qnum Qden]. lia. }
  assert (Hn : 0 <= n).
  { apply Qabs_Qle_condition in Hr as (Hr & _). assert (X : (- (1 # 2) <= inject_Z n)%Q) by lra.
    unfold Qle, inject_Z in X; cbn in X. lia. }
  assert (Hip : numeral (dec_nat (n / p)) (n / p)) by (apply dec_nat_numeral, Z.div_pos; lia).
  destruct Hip as (I1 & I2 & I3 & _).
  destruct (pad_spec d (n mod p)) as (F1 & F2 & F3); [apply Z.mod_pos_bound; lia|].
  exists (if Qle_bool 0 v then [] else ["-"%char]), (if Qle_bool 0 v then 1 else -1), (dec_nat (n / p)), (pad d (n mod p)).
  split; [destruct d; reflexivity|]. split; [destruct (Qle_bool 0 v); constructor|].
  split; [exact I1|]. split; [exact I2|]. split; [exact F2|]. split; [exact F1|].
  rewrite spelled_cat by exact F2. rewrite I3, F1, F3. fold p. pose proof (Z.div_mod n p ltac:(lia)) as Hdm.
  replace (n / p * p + n mod p) with n by lia.
  set (t := ((10 # 1) ^ (- Z.of_nat d))%Q).
  assert (Ht : (inject_Z p * t == 1)%Q).
  { unfold t, p. rewrite Qpower_opp, <- pow10_pos' by lia. apply Qmult_inv_r. pose proof (pow10_pos (Z.of_nat d)). lra. }
  assert (Htp : (0 < t)%Q) by apply pow10_pos.
  assert (Hk : (Qabs (inject_Z n * t - Qabs v) <= half_unit d)%Q).
  { setoid_replace (inject_Z n * t - Qabs v)%Q with ((inject_Z n - Qabs v * inject_Z p) * t)%Q.
    - rewrite Qabs_Qmult, (Qabs_pos t) by lra. unfold half_unit. fold t. apply Qmult_le_compat_r; [exact Hr|lra].
    - setoid_replace ((inject_Z n - Qabs v * inject_Z p) * t)%Q with (inject_Z n * t - Qabs v * (inject_Z p * t))%Q by ring.
      rewrite Ht. ring. }
  destruct (Qle_bool 0 v) eqn:E.
  - apply Qle_bool_iff in E. rewrite (Qabs_pos v E) in Hk. replace (1 * n) with n by lia. exact Hk.
  - assert (Ev : (v < 0)%Q). { apply Qnot_le_lt. intros X. apply Qle_bool_iff in X. congruence. }
    rewrite (Qabs_neg v) in Hk by lra. replace (-1 * n) with (- n) by lia. rewrite inject_Z_opp.
    rewrite <- Qabs_opp. setoid_replace (- (- inject_Z n * t - v))%Q with (inject_Z n * t - - v)%Q by ring. exact Hk.
Qed.

Lemma number_plain st sg ip pt fp : sign_text st sg -> Forall is_digit ip -> Forall is_digit fp -> ip <> [] ->
  pt = ["."%char] \/ (pt = [] /\ fp = []) ->
  exists q, number (st ++ ip ++ pt ++ fp) q /\ (q == inject_Z (sg * spelled (ip ++ fp)) * (10 # 1) ^ (- Z.of_nat (length fp)))%Q.
Proof.
  intros Hs Hi Hf Hn Hp.
  exists (inject_Z (sg * spelled (ip ++ fp)) * (10 # 1) ^ (0 - Z.of_nat (length fp)))%Q. split; [|reflexivity].
  assert (E : st ++ ip ++ pt ++ fp = [] ++ st ++ ip ++ pt ++ fp ++ [] ++ []) by now rewrite !app_nil_r.
  rewrite E. apply Number; auto; try constructor. destruct ip; [congruence|discriminate].
Qed.

Lemma fmt_num_number v d sz : exists q, number (fmt_num v d sz) q /\ (Qabs (q - v) <= half_unit d)%Q.
Proof.
  unfold fmt_num. destruct (fmt_fixed_text v d) as (st & sg & ip & fp & E & Hs & Hn & Hi & Hf & Hl & Hb). rewrite E.
  assert (Hdot : d = O -> sz && has_char "." (st ++ ip ++ match d with O => [] | _ => "."%char :: fp end) = false).
  { intros ->. rewrite app_nil_r. apply andb_false_iff. right. rewrite has_char_app.
    apply orb_false_iff. split; apply has_char_false; intros H.
    - destruct Hs; cbn in H; intuition discriminate.
    - rewrite Forall_forall in Hi. apply Hi in H. now apply digit_not_dot in H. }
  destruct d as [|d].
  - rewrite Hdot by reflexivity. destruct fp; [|discriminate]. cbn [app].
    destruct (number_plain st sg ip [] [] Hs Hi Hf Hn) as (q & Hq & Eq); [auto|].
    cbn [app] in Hq. exists q. split; [exact Hq|]. rewrite Eq. exact Hb.
  - clear Hdot. assert (Hfn : fp <> []) by (destruct fp; discriminate).
    destruct (sz && has_char "." (st ++ ip ++ "."%char :: fp)).
    + destruct (strip_zeros_text (st ++ ip) fp Hfn Hf) as (fp' & z & Ez & Hz & Er).
      rewrite <- app_assoc in Er. rewrite Er. destruct (zeros_spelled z Hz) as (Z1 & Z2).
      assert (Hf' : Forall is_digit fp') by (rewrite Ez in Hf; now apply Forall_app in Hf).
      assert (Ev : (inject_Z (sg * spelled (ip ++ fp)) * (10 # 1) ^ (- Z.of_nat (S d)) ==
                    inject_Z (sg * spelled (ip ++ fp')) * (10 # 1) ^ (- Z.of_nat (length fp')))%Q).
      { rewrite <- Hl, Ez, app_assoc, (spelled_cat (ip ++ fp') z Z1), Z2, Z.add_0_r, Z.mul_assoc, inject_Z_mult.
        rewrite <- pow10_pos' by lia. rewrite <- Qmult_assoc, <- Qpower_plus by (intros X; discriminate X).
        rewrite app_length. replace (Z.of_nat (length z) + - Z.of_nat (length fp' + length z)) with (- Z.of_nat (length fp')) by lia.
        reflexivity. }
      assert (X : exists pt, rstrip_char "." ((st ++ ip) ++ "."%char :: fp') = st ++ ip ++ pt ++ fp' /\
        (pt = ["."%char] \/ (pt = [] /\ fp' = []))).
      { destruct fp' as [|c fp'].
        - exists []. rewrite rstrip_one, rstrip_digits by auto. rewrite !app_nil_r. auto.
        - exists ["."%char]. split; [|auto].
          change ("."%char :: c :: fp') with (["."%char] ++ (c :: fp')). rewrite (app_assoc (st ++ ip)).
          rewrite rstrip_digits by (auto; discriminate). now rewrite <- !app_assoc. }
      destruct X as (pt & Ep & Hp). rewrite Ep.
      destruct (number_plain st sg ip pt fp' Hs Hi Hf' Hn Hp) as (q & Hq & Eq). exists q. split; [exact Hq|].
      rewrite Eq, <- Ev. exact Hb.
    + destruct (number_plain st sg ip ["."%char] fp Hs Hi Hf Hn) as (q & Hq & Eq); [auto|].
      exists q. split; [exact Hq|]. rewrite Eq, Hl. exact Hb.
Qed.

Lemma number_white v q w : number v q -> white w -> exists q', number (v ++ w) q' /\ (q' == q)%Q.
Proof.
  intros H Hw. destruct H as [b1 st sg ip pt fp et e b2 W1 W2 Hs Hi Hf Hne Hp He].
  eexists. split; [|reflexivity]. rewrite <- !app_assoc. apply Number; auto. apply Forall_app. auto.
Qed.

(** *** Scaling *)
Definition scale_step (s : Q) (p : ascii) (k : Z) : Prop := si_prefix [p] k /\ (s == (10 # 1) ^ k)%Q.
Lemma q_lt_spec x y : q_lt x y = true <-> (x < y)%Q.
Proof.
  unfold q_lt. rewrite negb_true_iff. split.
  - intros H. apply Qnot_le_lt. intros X. apply Qle_bool_iff in X. congruence.
  - intros H. destruct (Qle_bool y x) eqn:E; [|reflexivity]. apply Qle_bool_iff in E. lra.
Qed.
Lemma q_lt_false x y : q_lt x y = false <-> (y <= x)%Q.
Proof.
  unfold q_lt. rewrite negb_false_iff. apply Qle_bool_iff.
Qed.
Lemma qle_false x y : Qle_bool x y = false <-> (y < x)%Q.
Proof.
  split.
  - intros H. apply Qnot_le_lt. intros X. apply Qle_bool_iff in X. congruence.
  - intros H. destruct (Qle_bool x y) eqn:E; [|reflexivity]. apply Qle_bool_iff in E. lra.
Qed.
Lemma qabs_div v : (Qabs (v / inject_Z 1000) == Qabs v / inject_Z 1000)%Q.
Proof. unfold Qdiv. rewrite Qabs_Qmult. rewrite (Qabs_pos (/ inject_Z 1000)) by (vm_compute; discriminate). reflexivity. Qed.
Lemma qabs_mul v : (Qabs (v * inject_Z 1000) == Qabs v * inject_Z 1000)%Q.
Proof. rewrite Qabs_Qmult. rewrite (Qabs_pos (inject_Z 1000)) by (vm_compute; discriminate). reflexivity. Qed.
Definition thousand : (inject_Z 1000 == 1000 # 1)%Q := Qeq_refl _.

Lemma scale_down_spec v c : (500 # 1 < Qabs v)%Q ->
  exists p k s w, scale_down sipfx_large v c = (Some p, w) /\ si_prefix [p] k /\ s = ((10 # 1) ^ k)%Q /\
    (v == w * s)%Q /\ (s <= 2 * Qabs v)%Q /\ (1000 # 1 <= Qabs v -> s <= Qabs v)%Q.
Proof.
  intros Hv. unfold sipfx_large. cbn [scale_down].
  assert (P : forall p k, In (p, k) [("k", 3); ("M", 6); ("G", 9); ("T", 12); ("P", 15); ("E", 18)]%char -> si_prefix [p] k).
  { intros p k H. cbn in H. repeat (destruct H as [H|H]; [injection H as <- <-; vm_compute; tauto|]). destruct H. }
  set (v1 := (v / inject_Z 1000)%Q). set (v2 := (v1 / inject_Z 1000)%Q). set (v3 := (v2 / inject_Z 1000)%Q).
  set (v4 := (v3 / inject_Z 1000)%Q). set (v5 := (v4 / inject_Z 1000)%Q). set (v6 := (v5 / inject_Z 1000)%Q).
  assert (D : forall x y, y = (x / inject_Z 1000)%Q -> (x == y * (1000 # 1))%Q /\ (Qabs x == Qabs y * (1000 # 1))%Q).
  { intros x y ->. rewrite qabs_div. rewrite thousand. split; field. }
  destruct (D v v1 eq_refl) as (E1 & A1). destruct (D v1 v2 eq_refl) as (E2 & A2). destruct (D v2 v3 eq_refl) as (E3 & A3).
  destruct (D v3 v4 eq_refl) as (E4 & A4). destruct (D v4 v5 eq_refl) as (E5 & A5). destruct (D v5 v6 eq_refl) as (E6 & A6).
  clearbody v1 v2 v3 v4 v5 v6.
  change ((10 # 1) ^ 3)%Q with (1000 # 1)%Q.
  destruct (q_lt (Qabs v1) (inject_Z 1000)) eqn:L1.
  { exists "k"%char, 3, ((10 # 1) ^ 3)%Q, v1. split; [reflexivity|]. split; [apply P; cbn; tauto|]. split; [reflexivity|].
    change ((10 # 1) ^ 3)%Q with (1000 # 1)%Q. repeat split; lra. }
  apply q_lt_false in L1. rewrite thousand in L1.
  destruct (q_lt (Qabs v2) (inject_Z 1000)) eqn:L2.
  { exists "M"%char, 6, ((10 # 1) ^ 6)%Q, v2. split; [reflexivity|]. split; [apply P; cbn; tauto|]. split; [reflexivity|].
    change ((10 # 1) ^ 6)%Q with (1000000 # 1)%Q. repeat split; lra. }
  apply q_lt_false in L2. rewrite thousand in L2.
  destruct (q_lt (Qabs v3) (inject_Z 1000)) eqn:L3.
  { exists "G"%char, 9, ((10 # 1) ^ 9)%Q, v3. split; [reflexivity|]. split; [apply P; cbn; tauto|]. split; [reflexivity|].
    change ((10 # 1) ^ 9)%Q with (1000000000 # 1)%Q. repeat split; lra. }
  apply q_lt_false in L3. rewrite thousand in L3.
  destruct (q_lt (Qabs v4) (inject_Z 1000)) eqn:L4.
  { exists "T"%char, 12, ((10 # 1) ^ 12)%Q, v4. split; [reflexivity|]. split; [apply P; cbn; tauto|]. split; [reflexivity|].
    change ((10 # 1) ^ 12)%Q with (1000000000000 # 1)%Q. repeat split; lra. }
  apply q_lt_false in L4. rewrite thousand in L4.
  destruct (q_lt (Qabs v5) (inject_Z 1000)) eqn:L5.
  { exists "P"%char, 15, ((10 # 1) ^ 15)%Q, v5. split; [reflexivity|]. split; [apply P; cbn; tauto|]. split; [reflexivity|].
    change ((10 # 1) ^ 15)%Q with (1000000000000000 # 1)%Q. repeat split; lra. }
  apply q_lt_false in L5. rewrite thousand in L5.
  exists "E"%char, 18, ((10 # 1) ^ 18)%Q, v6. split; [destruct (q_lt (Qabs v6) (inject_Z 1000)); reflexivity|].
  split; [apply P; cbn; tauto|]. split; [reflexivity|].
  change ((10 # 1) ^ 18)%Q with (1000000000000000000 # 1)%Q. repeat split; lra.
Qed.

Lemma scale_up_spec v c : (Qabs v < 1)%Q ->
  exists p k s w, scale_up sipfx_small v c = (Some p, w) /\ si_prefix [p] k /\ s = ((10 # 1) ^ k)%Q /\
    (v == w * s)%Q /\ ((s <= Qabs v)%Q \/ k = -9).
Proof.
  intros Hv. unfold sipfx_small. cbn [scale_up].
  assert (P : forall p k, In (p, k) [("m", -3); ("u", -6); ("n", -9)]%char -> si_prefix [p] k).
  { intros p k H. cbn in H. repeat (destruct H as [H|H]; [injection H as <- <-; vm_compute; tauto|]). destruct H. }
  set (v1 := (v * inject_Z 1000)%Q). set (v2 := (v1 * inject_Z 1000)%Q). set (v3 := (v2 * inject_Z 1000)%Q).
  assert (D : forall x y, y = (x * inject_Z 1000)%Q -> (y == x * (1000 # 1))%Q /\ (Qabs y == Qabs x * (1000 # 1))%Q).
  { intros x y ->. rewrite qabs_mul. rewrite thousand. split; reflexivity. }
  destruct (D v v1 eq_refl) as (E1 & A1). destruct (D v1 v2 eq_refl) as (E2 & A2). destruct (D v2 v3 eq_refl) as (E3 & A3).
  clearbody v1 v2 v3.
  destruct (Qle_bool 1 (Qabs v1)) eqn:L1.
  { apply Qle_bool_iff in L1.
    exists "m"%char, (-3), ((10 # 1) ^ (-3))%Q, v1. split; [reflexivity|]. split; [apply P; cbn; tauto|]. split; [reflexivity|].
    change ((10 # 1) ^ (-3))%Q with (1 # 1000)%Q. split; [lra|left; lra]. }
  destruct (Qle_bool 1 (Qabs v2)) eqn:L2.
  { apply Qle_bool_iff in L2.
    exists "u"%char, (-6), ((10 # 1) ^ (-6))%Q, v2. split; [reflexivity|]. split; [apply P; cbn; tauto|]. split; [reflexivity|].
    change ((10 # 1) ^ (-6))%Q with (1 # 1000000)%Q. split; [lra|left; lra]. }
  exists "n"%char, (-9), ((10 # 1) ^ (-9))%Q, v3. split; [destruct (Qle_bool 1 (Qabs v3)); reflexivity|].
  split; [apply P; cbn; tauto|]. split; [reflexivity|].
  change ((10 # 1) ^ (-9))%Q with (1 # 1000000000)%Q. split; [lra|now right].
Qed.
