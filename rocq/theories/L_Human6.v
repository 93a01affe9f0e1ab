(** Lemmas about reading back what was formatted. *)
From Coq Require Import QArith Qabs Qpower ZifyBool Lqa Sorted.
From Verif Require Import Base L_Base M_Text S_Text L_Text M_Human S_Human L_Human L_Human2 L_Human3 L_Human4 L_Human5.

Lemma emit base text q sep p k : base_unit base -> number text q -> white sep -> si_prefix p k ->
  exists w, parse_human (text ++ sep ++ p ++ base) base None false = Ok (HFloat w) /\ (w == q * (10 # 1) ^ k)%Q.
Proof.
  intros Hb Hn Hs Hp. destruct (number_white _ _ _ Hn Hs) as (q' & Hn' & Eq).
  assert (Hu : si_unit base base ((10 # 1) ^ 0)).
  { split; [exact Hb|]. exists [], 0. split; [now left|auto]. }
  destruct (parse_single_l base base _ None 1%Q false (text ++ sep) q' (p ++ base) ((10 # 1) ^ k)%Q [] Hu eq_refl Hn'
             (F_si base p k Hp)) as (r & E & Ha); [constructor|].
  rewrite app_nil_r, <- app_assoc in E. destruct r as [z|w]; cbn [answer] in Ha; [destruct Ha; discriminate|].
  destruct Ha as (_ & Ha). exists w. split; [exact E|]. rewrite Ha, Eq. field.
Qed.

Lemma half_scale q v decp k : (Qabs (q - v) <= half_unit decp)%Q ->
  (Qabs (q * (10 # 1) ^ k - v * (10 # 1) ^ k) <= (1 # 2) * (10 # 1) ^ (k - Z.of_nat decp))%Q.
Proof.
  intros H. setoid_replace (q * (10 # 1) ^ k - v * (10 # 1) ^ k)%Q with ((q - v) * (10 # 1) ^ k)%Q by ring.
  pose proof (pow10_pos k) as Hk. rewrite Qabs_Qmult, (Qabs_pos ((10 # 1) ^ k)) by lra.
  unfold Z.sub. rewrite Qpower_plus by (intros X; discriminate X).
  setoid_replace ((1 # 2) * ((10 # 1) ^ k * (10 # 1) ^ (- Z.of_nat decp)))%Q with (half_unit decp * (10 # 1) ^ k)%Q
    by (unfold half_unit; ring).
  apply Qmult_le_compat_r; [exact H|lra].
Qed.

(** What is printed with the prefix [p], or without it if it is zero *)
Lemma emit_pfx base v decp sz sep p k x : base_unit base -> white sep -> si_prefix [p] k -> (x == v * (10 # 1) ^ k)%Q ->
  exists txt w, match py_float (fmt_num v decp sz) with
      | None => Exn EValue
      | Some r => Ok (fmt_num v decp sz ++ (if Qeq_bool r 0 then sep ++ base else sep ++ p :: base))
      end = Ok txt /\
    parse_human txt base None false = Ok (HFloat w) /\
    (Qabs (w - x) <= (1 # 2) * (10 # 1) ^ (k - Z.of_nat decp))%Q.
Proof.
  intros Hb Hs Hp Hx. destruct (fmt_num_number v decp sz) as (q & Hq & Hd).
  destruct (py_float_number _ _ Hq) as (r & Er & Eq). rewrite Er.
  pose proof (half_scale q v decp k Hd) as Hh. destruct (Qeq_bool r 0) eqn:E0.
  - apply Qeq_bool_iff in E0. destruct (emit base _ q sep [] 0 Hb Hq Hs) as (w & Ew & Hw); [now left|].
    eexists. exists w. split; [reflexivity|]. split; [exact Ew|].
    assert (Z1 : (q == 0)%Q) by now rewrite <- Eq.
    setoid_replace (w - x)%Q with (q * (10 # 1) ^ k - v * (10 # 1) ^ k)%Q; [exact Hh|].
    rewrite Hw, Hx, Z1. ring.
  - destruct (emit base _ q sep [p] k Hb Hq Hs Hp) as (w & Ew & Hw).
    eexists. exists w. split; [reflexivity|]. split; [exact Ew|].
    setoid_replace (w - x)%Q with (q * (10 # 1) ^ k - v * (10 # 1) ^ k)%Q; [exact Hh|].
    rewrite Hw, Hx. reflexivity.
Qed.

(** The prefix 10^k suits the size [a]. *)
Definition fits (k : Z) (a : Q) : Prop :=
  ((10 # 1) ^ k <= 2 * a /\ (1000 # 1 <= a \/ a < 1 -> (10 # 1) ^ k <= a))%Q \/ k = -9.

Lemma scaled_l v unit base f decp sep sz : si_unit unit base f -> (decp <= 8)%nat -> white sep ->
  (Qabs v < 1 \/ 1000 # 1 <= Qabs v)%Q -> (Qabs (v * f) < 1 \/ 500 # 1 < Qabs (v * f))%Q ->
  exists txt w p k, num2si v unit decp sep sz = Ok txt /\ parse_human txt base None false = Ok (HFloat w) /\
    si_prefix p k /\ fits k (Qabs (v * f)) /\
    (Qabs (w - v * f) <= (1 # 2) * (10 # 1) ^ (k - Z.of_nat decp))%Q.
Proof.
  intros Hu Hd Hs Hv Hvf. pose proof (si_unit_base _ _ _ Hu) as Hb.
  destruct (separate_unit _ _ _ Hu) as (sp & Esp & Hsp). unfold num2si.
  assert (E1 : Nat.ltb 8 decp = false) by (apply Nat.ltb_ge; lia). rewrite E1.
  assert (E2 : match sep, unit with _ :: _, [] => true | _, _ => false end = false).
  { destruct sep; [reflexivity|]. destruct unit; [|reflexivity]. destruct sp as [(c & g)|]; [destruct Hsp; discriminate|].
    destruct Hsp as (<- & _). cbn in Hb. intuition discriminate. }
  rewrite E2, Esp. cbv beta iota zeta.
  assert (E3 : Qle_bool 1 (Qabs v) && q_lt (Qabs v) (inject_Z 1000) = false).
  { destruct Hv as [Hv|Hv]; apply andb_false_iff; [left; now apply qle_false|right; now apply q_lt_false]. }
  rewrite E3.
  assert (E4 : exists y, match sp with
                   | Some (_, f) => if Qle_bool (inject_Z 500) (Qabs v) || q_lt (Qabs v) 1 then (v * f)%Q else v
                   | None => v
                   end = y /\ (y == v * f)%Q).
  { eexists. split; [reflexivity|]. destruct sp as [(c & g)|]; destruct Hsp as (_ & Ef).
    - assert (X : (Qle_bool (inject_Z 500) (Qabs v) || q_lt (Qabs v) 1)%bool = true).
      { apply orb_true_iff. destruct Hv as [Hv|Hv]; [right; now apply q_lt_spec|left]. apply Qle_bool_iff.
        change (inject_Z 500) with (500 # 1)%Q. lra. }
      rewrite X, Ef. reflexivity.
    - rewrite Ef. ring. }
  destruct E4 as (y & Ey & Hy). rewrite Ey. clear Ey. rewrite <- Hy in Hvf.
  assert (Hbn : base <> []) by (intros ->; cbn in Hb; intuition discriminate).
  assert (G : forall p k w, si_prefix [p] k -> (y == w * (10 # 1) ^ k)%Q ->
    fits k (Qabs y) ->
    exists txt x p' k', match py_float (fmt_num w decp sz) with
      | None => Exn EValue
      | Some r => Ok (fmt_num w decp sz ++ (if Qeq_bool r 0 then sep ++ base else sep ++ p :: base))
      end = Ok txt /\ parse_human txt base None false = Ok (HFloat x) /\
    si_prefix p' k' /\ fits k' (Qabs (v * f)) /\
    (Qabs (x - v * f) <= (1 # 2) * (10 # 1) ^ (k' - Z.of_nat decp))%Q).
  { intros p k w Hp Hw Hk. destruct (emit_pfx base w decp sz sep p k y Hb Hs Hp Hw) as (txt & x & T1 & T2 & T3).
    exists txt, x, [p], k. split; [exact T1|]. split; [exact T2|]. split; [exact Hp|]. split.
    - unfold fits in *. rewrite <- Hy. exact Hk.
    - rewrite <- Hy. exact T3. }
  destruct (q_lt (inject_Z 500) (Qabs y)) eqn:L.
  - apply q_lt_spec in L. change (inject_Z 500) with (500 # 1)%Q in L.
    destruct (scale_down_spec y None L) as (p & k & s & w & E & Hp & -> & Hw & Hk1 & Hk2). rewrite E.
    apply (G p k w Hp Hw). left. split; [exact Hk1|]. intros [C|C]; [auto|lra].
  - apply q_lt_false in L. change (inject_Z 500) with (500 # 1)%Q in L.
    destruct Hvf as [Hvf|Hvf]; [|lra].
    assert (L2 : q_lt (Qabs y) 1 = true) by now apply q_lt_spec. rewrite L2.
    destruct (scale_up_spec y None Hvf) as (p & k & s & w & E & Hp & -> & Hw & Hk). rewrite E.
    apply (G p k w Hp Hw). destruct Hk as [Hk|Hk]; [left|now right]. split; [pose proof (Qabs_nonneg y); lra|auto].
Qed.

Lemma format_l v base decp sep sz : base_unit base -> (decp <= 8)%nat -> white sep ->
  exists txt w p k, num2si v base decp sep sz = Ok txt /\ parse_human txt base None false = Ok (HFloat w) /\
    si_prefix p k /\ (((10 # 1) ^ k <= Qabs v)%Q \/ k = -9) /\
    (Qabs (w - v) <= (1 # 2) * (10 # 1) ^ (k - Z.of_nat decp))%Q.
Proof.
  intros Hb Hd Hs.
  assert (Hu : si_unit base base ((10 # 1) ^ 0)).
  { split; [exact Hb|]. exists [], 0. split; [now left|auto]. }
  assert (E0 : (v * (10 # 1) ^ 0 == v)%Q) by (change ((10 # 1) ^ 0)%Q with 1%Q; ring).
  assert (C : (Qabs v < 1 \/ 1000 # 1 <= Qabs v)%Q \/ (1 <= Qabs v < 1000 # 1)%Q) by lra.
  destruct C as [C|C].
  - destruct (scaled_l v base base _ decp sep sz Hu Hd Hs C) as (txt & w & p & k & T1 & T2 & T3 & T4 & T5).
    + rewrite E0. destruct C; [now left|right; lra].
    + exists txt, w, p, k. split; [exact T1|]. split; [exact T2|]. split; [exact T3|]. split.
      * unfold fits in T4. rewrite E0 in T4. destruct T4 as [(_ & T4)|T4]; [left; apply T4; tauto|now right].
      * rewrite E0 in T5. exact T5.
  - destruct (separate_unit _ _ _ Hu) as (sp & Esp & Hsp). unfold num2si.
    assert (E1 : Nat.ltb 8 decp = false) by (apply Nat.ltb_ge; lia). rewrite E1.
    assert (E2 : match sep, base with _ :: _, [] => true | _, _ => false end = false).
    { destruct sep; [reflexivity|]. destruct base; [|reflexivity]. cbn in Hb. intuition discriminate. }
    rewrite E2, Esp. cbv beta iota zeta.
    assert (E3 : Qle_bool 1 (Qabs v) && q_lt (Qabs v) (inject_Z 1000) = true).
    { apply andb_true_iff. split; [apply Qle_bool_iff|apply q_lt_spec]; apply C. }
    rewrite E3. destruct (fmt_num_number v decp sz) as (q & Hq & Hd').
    destruct (emit base _ q sep [] 0 Hb Hq Hs) as (w & Ew & Hw); [now left|].
    eexists. exists w, [], 0. split; [reflexivity|]. split; [exact Ew|]. split; [now left|]. split.
    + left. change ((10 # 1) ^ 0)%Q with 1%Q. apply C.
    + pose proof (half_scale q v decp 0 Hd') as Hh.
      setoid_replace (w - v)%Q with (q * (10 # 1) ^ 0 - v * (10 # 1) ^ 0)%Q; [exact Hh|]. rewrite Hw, E0. reflexivity.
Qed.
Lemma format_prefixed_l v unit base f decp sep sz : si_unit unit base f -> (decp <= 8)%nat -> white sep ->
  (Qabs v < 1 \/ 1000 # 1 <= Qabs v)%Q -> (Qabs (v * f) < 1 \/ 500 # 1 < Qabs (v * f))%Q ->
  exists txt w p k, num2si v unit decp sep sz = Ok txt /\ parse_human txt base None false = Ok (HFloat w) /\
    si_prefix p k /\ (((10 # 1) ^ k <= 2 * Qabs (v * f))%Q \/ k = -9) /\
    (Qabs (w - v * f) <= (1 # 2) * (10 # 1) ^ (k - Z.of_nat decp))%Q.
Proof.
  intros Hu Hd Hs H1 H2. destruct (scaled_l v unit base f decp sep sz Hu Hd Hs H1 H2) as (txt & w & p & k & T1 & T2 & T3 & T4 & T5).
  exists txt, w, p, k. split; [exact T1|]. split; [exact T2|]. split; [exact T3|]. split; [|exact T5].
  destruct T4 as [(T4 & _)|T4]; [now left|now right].
Qed.

(** *** Times of several parts *)
Definition tval (sp : str) : Q := match scaler_of (s2l "s") sp with Some g => g | None => 0%Q end.
Lemma sorted_subseq T : StronglySorted (fun a b => tval b <= tval a)%Q T -> forall l,
  StronglySorted (fun a b => tval b < tval a)%Q l -> incl l T -> subseq l T.
Proof.
  induction 1 as [|x T HT IH Hx]; intros l Hl Hi.
  - destruct l as [|u l]; [constructor|]. destruct (Hi u (or_introl eq_refl)).
  - destruct l as [|u l]; [constructor|]. inversion Hl as [|u' l' Hl' Hu]; subst.
    rewrite Forall_forall in Hu, Hx. destruct (Hi u (or_introl eq_refl)) as [->|Hiu].
    + constructor. apply IH; [exact Hl'|]. intros k Hk. destruct (Hi k (or_intror Hk)) as [->|Hk']; [|exact Hk'].
      specialize (Hu _ Hk). lra.
    + constructor. apply IH; [exact Hl|]. intros k [<-|Hk]; [exact Hiu|].
      destruct (Hi k (or_intror Hk)) as [->|Hk']; [|exact Hk']. specialize (Hu _ Hk). specialize (Hx _ Hiu). lra.
Qed.
Definition tspecs : list str := map s2l ["d"; "D"; "h"; "H"; "m"; "M"; "s"]%string.
Lemma tspecs_sorted : StronglySorted (fun a b => tval b <= tval a)%Q tspecs.
Proof. repeat (constructor; [|repeat (constructor; [vm_compute; discriminate|]); constructor]). constructor. Qed.
Lemma subseq_skip l T0 T : subseq l T -> subseq l (T0 ++ T).
Proof. intros H. induction T0; [exact H|]. now constructor. Qed.

Lemma time_good ps : time_parts ps -> good_parts (s2l "s") ps.
Proof.
  intros (Hne & Hp & Hu & Ho). split; [exact Hp|]. split; [|now right].
  assert (Hb : base_unit (s2l "s")) by (cbn; tauto).
  change (map fst (scalers (s2l "s"))) with (map (fun e : ascii * Q => fst e :: s2l "s") sipfx_scalers ++ tspecs).
  apply subseq_skip, sorted_subseq; [apply tspecs_sorted| |].
  - assert (Hf : Forall (fun p => tval (p_unit p) == p_factor p)%Q ps).
    { destruct Hp as (Hp & _). revert Hp. apply Forall_impl. intros p (_ & H).
      destruct (factor_scaler _ _ _ Hb H) as (_ & g & E & Eg). unfold tval. rewrite E. exact Eg. }
    clear Hne Hp Hu. apply Sorted_StronglySorted.
    { intros a b c H1 H2. lra. }
    induction ps as [|p ps IH]; [constructor|]. inversion Hf as [|p' l' Hp Hf']; subst. cbn [map]. constructor.
    + apply IH; [|exact Hf']. intros l a b r E. apply (Ho (p :: l) a b r). now rewrite E.
    + destruct ps as [|q ps]; constructor. inversion Hf' as [|p' l' Hq _]; subst. rewrite Hp, Hq.
      exact (Ho [] p q ps eq_refl).
  - intros u Hi. apply in_map_iff in Hi as (p & <- & Hi). rewrite Forall_forall in Hu.
    destruct (Hu p Hi) as [->|(n & Hn)]; [cbn; tauto|]. cbn in Hn.
    repeat (destruct Hn as [Hn|Hn]; [injection Hn as <- _; cbn; tauto|]). destruct Hn.
Qed.
Lemma parse_time_l unit f target tf integer ps t : si_unit unit (s2l "s") f -> target_unit target (s2l "s") tf ->
  time_parts ps -> spaces t ->
  exists r, parse_human (parts_text ps ++ t) unit target integer = Ok r /\ answer integer r (parts_total ps / tf).
Proof.
  intros Hu Ht Hp Hs. eapply parse_good; eauto; [now apply time_good|apply Hp].
Qed.
