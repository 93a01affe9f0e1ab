(** Bit-field algebra (C03). *)
From Verif Require Import Base M_CPUInfo S_CPUInfo M_MSR S_MSR.
From Coq Require Import ZifyBool.

Lemma normalize_bits_ok b : field_ok b -> normalize_bits b = Ok b.
Proof.
  destruct b as [hi lo]. unfold field_ok, normalize_bits, regbits. cbn [fst snd]. intros H.
  destruct (Z.ltb_spec hi lo); [lia|]. destruct (Z.ltb_spec 64 (hi - lo + 1)); [lia|]. reflexivity.
Qed.

Lemma ones_eq n : 0 <= n -> Z.shiftl 1 n - 1 = Z.ones n.
Proof. intros H. rewrite Z.ones_equiv, Z.shiftl_1_l. lia. Qed.

Lemma get_bits_eq r b :
  field_ok b -> get_bits r b = Ok (Z.land (Z.shiftr r (snd b)) (Z.ones (field_width b))).
Proof.
  intros H. unfold get_bits. rewrite normalize_bits_ok by exact H. destruct b as [hi lo].
  unfold field_ok, field_width, py_shr in *. cbn [fst snd rbind] in *.
  destruct (Z.ltb_spec lo 0); [lia|]. cbn [rbind]. now rewrite ones_eq by lia.
Qed.

Lemma set_bits_eq r b v :
  field_ok b -> value_of b v < 2 ^ field_width b ->
  set_bits r b v = Ok (Z.lor (Z.land r (Z.lnot (Z.shiftl (Z.ones (field_width b)) (snd b))))
                             (Z.shiftl (value_of b v) (snd b))).
Proof.
  intros H Hv. unfold set_bits. rewrite normalize_bits_ok by exact H. destruct b as [hi lo].
  unfold field_ok, field_width, py_shl, value_of in *. cbn [fst snd rbind] in *.
  rewrite ones_eq by lia. unfold field_width in *. cbn [fst snd] in *.
  assert (Ho : Z.ones (hi - lo + 1) = 2 ^ (hi - lo + 1) - 1) by (rewrite Z.ones_equiv; lia).
  destruct v as [v|].
  - destruct (Z.ltb_spec (Z.ones (hi - lo + 1)) v); [lia|].
    destruct (Z.ltb_spec lo 0); [lia|]. reflexivity.
  - destruct (Z.ltb_spec (Z.ones (hi - lo + 1)) (Z.ones (hi - lo + 1))); [lia|].
    destruct (Z.ltb_spec lo 0); [lia|]. cbn [rbind]. now rewrite <- Ho.
Qed.

Lemma set_bits_too_large r b v :
  field_ok b -> 2 ^ field_width b <= v -> set_bits r b (Some v) = Exn EError.
Proof.
  intros H Hv. unfold set_bits. rewrite normalize_bits_ok by exact H. destruct b as [hi lo].
  unfold field_ok, field_width in *. cbn [fst snd rbind] in *.
  rewrite ones_eq by lia. rewrite Z.ones_equiv.
  destruct (Z.ltb_spec (Z.pred (2 ^ (hi - lo + 1))) v); [reflexivity|lia].
Qed.

Lemma ones_testbit n i : 0 <= n -> 0 <= i -> Z.testbit (Z.ones n) i = (i <? n).
Proof.
  intros Hn Hi. destruct (Z.ltb_spec i n).
  - apply Z.ones_spec_low. lia.
  - apply Z.ones_spec_high. lia.
Qed.

Lemma fits_high b v i : field_ok b -> fits b v -> field_width b <= i -> Z.testbit v i = false.
Proof.
  intros (H1 & H2 & H3) (Hv0 & Hv1) Hi. unfold field_width in *.
  destruct (Z.eq_dec v 0) as [->|Hn]; [apply Z.testbit_0_l|].
  apply Z.bits_above_log2; [lia|].
  apply Z.log2_lt_pow2; [lia|]. eapply Z.lt_le_trans; [exact Hv1|].
  apply Z.pow_le_mono_r; lia.
Qed.

Lemma value_of_fits b val :
  field_ok b -> match val with Some v => 0 <= v | None => True end ->
  value_of b val < 2 ^ field_width b -> fits b (value_of b val).
Proof.
  intros (H1 & H2 & H3) Hv Hlt. split; [|exact Hlt]. destruct val as [v|]; cbn; [exact Hv|].
  assert (0 < 2 ^ field_width b); [|lia]. apply Z.pow_pos_nonneg; unfold field_width; lia.
Qed.

Lemma set_bits_is_set r b val r' :
  field_ok b -> match val with Some v => 0 <= v | None => True end ->
  set_bits r b val = Ok r' -> fits b (value_of b val) /\ is_set b (value_of b val) r r'.
Proof.
  intros Hf Hv E.
  assert (Hlt : value_of b val < 2 ^ field_width b).
  { destruct val as [v|]; cbn [value_of]; [|lia].
    destruct (Z.lt_ge_cases v (2 ^ field_width b)) as [H|H]; [exact H|].
    rewrite (set_bits_too_large r b v Hf H) in E. discriminate. }
  pose proof (value_of_fits b val Hf Hv Hlt) as Hfit. split; [exact Hfit|].
  rewrite (set_bits_eq r b val Hf Hlt) in E. injection E as <-.
  set (v := value_of b val) in *. unfold is_set, in_field.
  destruct Hf as (H1 & H2 & H3). intros i Hi.
  rewrite Z.lor_spec, Z.land_spec, Z.lnot_spec, !Z.shiftl_spec by lia.
  destruct (Z.lt_ge_cases i (snd b)) as [Hlo|Hlo].
  - rewrite !(Z.testbit_neg_r _ (i - snd b)) by lia. cbn. rewrite andb_true_r, orb_false_r.
    split; [lia|reflexivity].
  - rewrite ones_testbit by (unfold field_width; lia). unfold field_width.
    destruct (Z.ltb_spec (i - snd b) (fst b - snd b + 1)) as [Hhi|Hhi]; cbn [negb].
    + rewrite andb_false_r. cbn. split; [reflexivity|lia].
    + rewrite (fits_high b v (i - snd b)); [|now repeat split|exact Hfit|unfold field_width; lia].
      rewrite andb_true_r, orb_false_r. split; [lia|reflexivity].
Qed.

Lemma set_bits_is_set_some r b v r' :
  field_ok b -> 0 <= v -> set_bits r b (Some v) = Ok r' -> fits b v /\ is_set b v r r'.
Proof. intros Hf Hv E. exact (set_bits_is_set r b (Some v) r' Hf Hv E). Qed.

Lemma get_bits_is_field r b v : field_ok b -> get_bits r b = Ok v <-> is_field b r v.
Proof.
  intros Hf. rewrite get_bits_eq by exact Hf. destruct Hf as (H1 & H2 & H3).
  assert (Hw : 0 <= field_width b) by (unfold field_width; lia).
  assert (Hspec : forall i, 0 <= i -> Z.testbit (Z.land (Z.shiftr r (snd b)) (Z.ones (field_width b))) i
                                      = Z.testbit r (i + snd b) && (i <? field_width b)).
  { intros i Hi. rewrite Z.land_spec, Z.shiftr_spec, ones_testbit by lia. reflexivity. }
  split.
  - intros [= <-]. split.
    + unfold fits. rewrite Z.land_ones by lia. apply Z.mod_pos_bound. apply Z.pow_pos_nonneg; lia.
    + intros i Hi. unfold in_field in Hi. rewrite Hspec by lia.
      replace (i - snd b + snd b) with i by lia.
      destruct (Z.ltb_spec (i - snd b) (field_width b)); [now rewrite andb_true_r|].
      unfold field_width in *; lia.
  - intros (Hfit & Hb). f_equal. apply Z.bits_inj'. intros i Hi. rewrite Hspec by lia.
    destruct (Z.ltb_spec i (field_width b)) as [Hlt|Hge].
    + rewrite andb_true_r, Hb by (unfold in_field, field_width in *; lia).
      f_equal. lia.
    + rewrite andb_false_r. symmetry. eapply fits_high; eauto. repeat split; lia.
Qed.

Lemma set_then_get_l r b v r' :
  field_ok b -> 0 <= v -> set_bits r b (Some v) = Ok r' -> get_bits r' b = Ok v.
Proof.
  intros Hf Hv E. destruct (set_bits_is_set r b (Some v) r' Hf Hv E) as (Hfit & Hset).
  apply get_bits_is_field; [exact Hf|]. split; [exact Hfit|].
  intros i Hi. apply Hset; [|exact Hi]. unfold in_field in Hi. destruct Hf. lia.
Qed.

Lemma fits_iff_high b v : field_ok b -> 0 <= v ->
  (fits b v <-> forall i, field_width b <= i -> Z.testbit v i = false).
Proof.
  intros Hf Hv. split; [intros H i Hi; eapply fits_high; eauto|].
  intros H. split; [exact Hv|]. destruct Hf as (H1 & H2 & H3).
  destruct (Z.eq_dec v 0) as [->|Hn].
  - apply Z.pow_pos_nonneg; unfold field_width; lia.
  - apply Z.log2_lt_pow2; [lia|]. destruct (Z.lt_ge_cases (Z.log2 v) (field_width b)); [auto|].
    specialize (H (Z.log2 v)). rewrite Z.bit_log2 in H by lia. discriminate (H ltac:(lia)).
Qed.

Lemma nonneg_bits r : 0 <= r -> forall i, Z.log2 r < i -> Z.testbit r i = false.
Proof. intros. apply Z.bits_above_log2; lia. Qed.

Lemma lt_pow2_bits r n : 0 <= n -> 0 <= r ->
  (r < 2 ^ n <-> forall i, n <= i -> Z.testbit r i = false).
Proof.
  intros Hn Hr. split.
  - intros H i Hi. destruct (Z.eq_dec r 0) as [->|]; [apply Z.testbit_0_l|].
    apply Z.bits_above_log2; [lia|]. apply Z.log2_lt_pow2; [lia|].
    eapply Z.lt_le_trans; [exact H|]. apply Z.pow_le_mono_r; lia.
  - intros H. destruct (Z.eq_dec r 0) as [->|]; [apply Z.pow_pos_nonneg; lia|].
    apply Z.log2_lt_pow2; [lia|]. destruct (Z.lt_ge_cases (Z.log2 r) n); [auto|].
    specialize (H (Z.log2 r)). rewrite Z.bit_log2 in H by lia. discriminate (H ltac:(lia)).
Qed.

Lemma set_bits_range r b val r' :
  field_ok b -> match val with Some v => 0 <= v | None => True end ->
  0 <= r < 2 ^ 64 -> set_bits r b val = Ok r' -> 0 <= r' < 2 ^ 64.
Proof.
  intros Hf Hv Hr E. destruct (set_bits_is_set r b val r' Hf Hv E) as ((Hfit0 & Hfit) & Hset).
  assert (Hr' : 0 <= r').
  { assert (Hlt : value_of b val < 2 ^ field_width b) by exact Hfit.
    rewrite (set_bits_eq r b val Hf Hlt) in E. injection E as <-.
    apply Z.lor_nonneg. split.
    - apply Z.land_nonneg. now left.
    - apply Z.shiftl_nonneg. exact Hfit0. }
  split; [exact Hr'|]. apply lt_pow2_bits; [lia|exact Hr'|]. intros i Hi.
  destruct (Hset i) as (_ & Hout); [lia|]. rewrite Hout.
  - apply (proj1 (lt_pow2_bits r 64 ltac:(lia) (proj1 Hr))); [apply Hr|exact Hi].
  - unfold in_field. destruct Hf as (H1 & H2 & H3). lia.
Qed.

(** [is_set] determines the result (for non-negative numbers, and indeed for all). *)
Lemma is_set_functional b v old x y : is_set b v old x -> is_set b v old y -> x = y.
Proof.
  intros Hx Hy. apply Z.bits_inj'. intros i Hi. destruct (Hx i Hi) as (A & B).
  destruct (Hy i Hi) as (C & D).
  destruct (Z.le_gt_cases (snd b) i) as [H1|H1];
    [destruct (Z.le_gt_cases i (fst b)) as [H2|H2]|].
  - rewrite A, C; auto; unfold in_field; lia.
  - rewrite B, D; auto; unfold in_field; lia.
  - rewrite B, D; auto; unfold in_field; lia.
Qed.

Lemma set_bits_ex r b v : field_ok b -> fits b v -> exists r', set_bits r b (Some v) = Ok r'.
Proof. intros Hf Hv. rewrite (set_bits_eq r b (Some v) Hf (proj2 Hv)). eauto. Qed.

Lemma set_bits_twice_l r b v w r1 r2 :
  field_ok b -> 0 <= v -> 0 <= w ->
  set_bits r b (Some v) = Ok r1 -> set_bits r1 b (Some w) = Ok r2 -> set_bits r b (Some w) = Ok r2.
Proof.
  intros Hf Hv Hw E1 E2.
  destruct (set_bits_is_set_some _ _ _ _ Hf Hv E1) as (_ & S1).
  destruct (set_bits_is_set_some _ _ _ _ Hf Hw E2) as (Fw & S2).
  destruct (set_bits_ex r b w Hf Fw) as (r3 & E3). rewrite E3. f_equal.
  destruct (set_bits_is_set_some _ _ _ _ Hf Hw E3) as (_ & S3).
  apply (is_set_functional b w r); [exact S3|].
  intros i Hi. destruct (S2 i Hi) as (A & B). split; [exact A|]. intros Hn.
  rewrite B by exact Hn. now apply S1.
Qed.

Lemma set_bits_same_l r b v : field_ok b -> get_bits r b = Ok v -> set_bits r b (Some v) = Ok r.
Proof.
  intros Hf E. apply get_bits_is_field in E; [|exact Hf]. destruct E as (Fv & Hb).
  destruct (set_bits_ex r b v Hf Fv) as (r3 & E3). rewrite E3. f_equal.
  destruct (set_bits_is_set_some _ _ _ _ Hf (proj1 Fv) E3) as (_ & S3).
  apply (is_set_functional b v r); [exact S3|].
  intros i Hi. split; [|reflexivity]. intros Hin. now apply Hb.
Qed.

Lemma set_bits_commute_l r b1 b2 v w r1 r12 r2 r21 :
  field_ok b1 -> field_ok b2 -> (forall i, ~ (in_field b1 i /\ in_field b2 i)) -> 0 <= v -> 0 <= w ->
  set_bits r b1 (Some v) = Ok r1 -> set_bits r1 b2 (Some w) = Ok r12 ->
  set_bits r b2 (Some w) = Ok r2 -> set_bits r2 b1 (Some v) = Ok r21 -> r12 = r21.
Proof.
  intros Hf1 Hf2 Hd Hv Hw E1 E12 E2 E21.
  destruct (set_bits_is_set_some _ _ _ _ Hf1 Hv E1) as (_ & S1).
  destruct (set_bits_is_set_some _ _ _ _ Hf2 Hw E12) as (_ & S12).
  destruct (set_bits_is_set_some _ _ _ _ Hf2 Hw E2) as (_ & S2).
  destruct (set_bits_is_set_some _ _ _ _ Hf1 Hv E21) as (_ & S21).
  apply (is_set_functional b1 (v) r2); [|exact S21].
  intros i Hi. destruct (S1 i Hi) as (A & B). destruct (S12 i Hi) as (C & D).
  destruct (S2 i Hi) as (F & G). split.
  - intros Hin. rewrite D; [auto|]. intros H. apply (Hd i). auto.
  - intros Hni. assert (Hdec : in_field b2 i \/ ~ in_field b2 i) by (unfold in_field; lia).
    destruct Hdec as [H|H].
    + rewrite C, F; auto.
    + rewrite D, B, G; auto.
Qed.

(** Other fields are not disturbed. *)
Lemma set_bits_other_field_l r b1 b2 v r' :
  field_ok b1 -> field_ok b2 -> (forall i, ~ (in_field b1 i /\ in_field b2 i)) -> 0 <= v ->
  set_bits r b1 (Some v) = Ok r' -> get_bits r' b2 = get_bits r b2.
Proof.
  intros Hf1 Hf2 Hd Hv E. destruct (set_bits_is_set_some _ _ _ _ Hf1 Hv E) as (_ & S).
  rewrite (get_bits_eq r b2 Hf2). apply get_bits_is_field; [exact Hf2|].
  pose proof (get_bits_eq r b2 Hf2) as Hg. apply get_bits_is_field in Hg; [|exact Hf2].
  destruct Hg as (Hfit & Hb). split; [exact Hfit|]. intros i Hi. rewrite <- Hb by exact Hi.
  apply S; [destruct Hf2; unfold in_field in Hi; lia|]. intros H. apply (Hd i). auto.
Qed.
