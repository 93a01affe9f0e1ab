(** Lemmas about how values are written: single numbers. *)
From Coq Require Import QArith Qabs Qpower Lqa ZifyBool.
From Verif Require Import Base L_Base M_Text S_Text L_Text M_Human S_Human L_Human L_Human2 L_Human3 L_Human4 L_Human5 L_Human6 M_Fmt S_Fmt L_Fmt.

(** ** The characters *)

Lemma word_app a b : unbroken a -> unbroken b -> unbroken (a ++ b).
Proof. intros (A1 & A2) (B1 & B2). split; rewrite in_app_iff; tauto. Qed.
Lemma digits_word l : Forall is_digit l -> unbroken l.
Proof. intros H. rewrite Forall_forall in H. split; intros X; apply H in X; unfold is_digit in X; cbn in X; lia. Qed.
Lemma unit_word u : base_unit u -> unbroken u.
Proof. intros H. cbn in H. repeat (destruct H as [<- |H]; [split; intros X; cbn in X; intuition discriminate|]). destruct H. Qed.
Lemma char_word c : c <> " "%char -> c <> ","%char -> unbroken [c].
Proof. intros A B. split; intros [X|[]]; congruence. Qed.
Lemma sign_word st sg : sign_text st sg -> unbroken st.
Proof. intros []; split; intros X; cbn in X; intuition discriminate. Qed.

Lemma fmt_num_word v d : unbroken (fmt_num v d false).
Proof.
  unfold fmt_num. cbn [andb]. destruct (fmt_fixed_text v d) as (st & sg & ip & fp & E & Hs & _ & Hi & Hf & _). rewrite E.
  apply word_app; [eapply sign_word; exact Hs|]. apply word_app; [now apply digits_word|].
  destruct d; [split; intros []|]. change ("."%char :: fp) with (["."%char] ++ fp). apply word_app; [apply char_word; discriminate|].
  now apply digits_word.
Qed.

Lemma pfx_chars p l : In p sipfx_large \/ In p sipfx_small -> unbroken l -> unbroken (p :: l).
Proof.
  intros H Hl. change (p :: l) with ([p] ++ l). apply word_app; [|exact Hl].
  cbn in H. apply char_word; intros ->; intuition discriminate.
Qed.
Lemma scale_down_in l : forall v c p w, scale_down l v c = (Some p, w) -> In p l \/ c = Some p.
Proof.
  induction l as [|x l IH]; intros v c p w E; cbn [scale_down] in E; [injection E as -> _; now right|].
  destruct (q_lt _ _); [injection E as -> _; left; now left|]. destruct (IH _ _ _ _ E) as [H|H]; [left; now right|].
  injection H as ->. left; now left.
Qed.
Lemma scale_up_in l : forall v c p w, scale_up l v c = (Some p, w) -> In p l \/ c = Some p.
Proof.
  induction l as [|x l IH]; intros v c p w E; cbn [scale_up] in E; [injection E as -> _; now right|].
  destruct (Qle_bool _ _); [injection E as -> _; left; now left|]. destruct (IH _ _ _ _ E) as [H|H]; [left; now right|].
  injection H as ->. left; now left.
Qed.

Lemma base_separate base : base_unit base -> separate_si_prefix base = (None, base).
Proof. intros H. cbn in H. repeat (destruct H as [<- |H]; [reflexivity|]). destruct H. Qed.

Lemma num2si_unbroken v base txt : base_unit base -> num2si v base 2 [] false = Ok txt -> unbroken txt.
Proof.
  intros Hb. pose proof (unit_word base Hb) as Hw. unfold num2si. cbn [Nat.ltb Nat.leb]. rewrite (base_separate base Hb). cbn iota.
  destruct (Qle_bool 1 (Qabs v) && q_lt (Qabs v) (inject_Z 1000)).
  { intros [= <-]. apply word_app; [apply fmt_num_word|exact Hw]. }
  destruct (if q_lt (inject_Z 500) (Qabs v) then scale_down sipfx_large v None
            else if q_lt (Qabs v) 1 then scale_up sipfx_small v None else (option_map fst None, v)) as (pfx, x) eqn:E.
  cbn zeta. destruct (py_float _) as [r|]; [|discriminate]. intros [= <-]. apply word_app; [apply fmt_num_word|].
  destruct pfx as [p|]; [|destruct base; [split; intros []|exact Hw]].
  assert (Hp : In p sipfx_large \/ In p sipfx_small).
  { destruct (q_lt (inject_Z 500) (Qabs v)); [apply scale_down_in in E as [E|E]; [now left|discriminate]|].
    destruct (q_lt (Qabs v) 1); [apply scale_up_in in E as [E|E]; [now right|discriminate]|discriminate]. }
  destruct (Qeq_bool r 0); [exact Hw|]. now apply pfx_chars.
Qed.

Lemma fmt_num_nonempty v d : fmt_num v d false <> [].
Proof.
  unfold fmt_num. cbn [andb]. destruct (fmt_fixed_text v d) as (st & sg & ip & fp & E & Hs & Hn & _). rewrite E.
  intros X. apply app_eq_nil in X as (_ & X). apply app_eq_nil in X as (X & _). contradiction.
Qed.

Lemma num2si_word v base txt : base_unit base -> num2si v base 2 [] false = Ok txt -> word txt.
Proof.
  intros Hb E. split; [|now apply (num2si_unbroken v base)]. revert E. unfold num2si. cbn [Nat.ltb Nat.leb]. rewrite (base_separate base Hb). cbn iota.
  destruct (Qle_bool 1 (Qabs v) && q_lt (Qabs v) (inject_Z 1000)).
  { intros [= <-] X. apply app_eq_nil in X as (X & _). now apply fmt_num_nonempty in X. }
  destruct (if q_lt (inject_Z 500) (Qabs v) then scale_down sipfx_large v None
            else if q_lt (Qabs v) 1 then scale_up sipfx_small v None else (option_map fst None, v)) as (pfx, x).
  cbn zeta. destruct (py_float _) as [r|]; [|discriminate]. intros [= <-] X. apply app_eq_nil in X as (X & _). now apply fmt_num_nonempty in X.
Qed.

(** ** To half a percent *)

Lemma num2si_about v base : base_unit base -> exists txt, num2si v base 2 [] false = Ok txt /\ about base txt v.
Proof.
  intros Hb. destruct (format_l v base 2 [] false Hb ltac:(lia) (Forall_nil _)) as (txt & w & p & k & E & Ep & Hp & Hk & Hd).
  exists txt. split; [exact E|]. split; [now apply (num2si_word v base)|]. exists w. split; [exact Ep|].
  assert (X : ((1 # 2) * (10 # 1) ^ (k - Z.of_nat 2) == (1 # 200) * (10 # 1) ^ k)%Q).
  { unfold Z.sub. rewrite Qpower_plus by (intros X; discriminate X). change ((10 # 1) ^ (- Z.of_nat 2))%Q with (1 # 100)%Q. ring. }
  rewrite X in Hd. destruct Hk as [Hk| ->]; [left; lra|]. right.
  change ((10 # 1) ^ (-9))%Q with (1 # 1000000000)%Q in Hd. exact Hd.
Qed.

(** ** Exactly *)

Lemma fmt_exact x m : (x == inject_Z m * (1 # 100))%Q -> exists q, number (fmt_num x 2 false) q /\ (q == x)%Q.
Proof.
  intros Hx. unfold fmt_num. cbn [andb]. destruct (fmt_fixed_text x 2) as (st & sg & ip & fp & E & Hs & Hn & Hi & Hf & Hl & Hb).
  rewrite E. destruct (number_plain st sg ip ["."%char] fp Hs Hi Hf Hn) as (q & Hq & Eq); [now left|].
  exists q. split; [exact Hq|]. rewrite Hl in Eq. rewrite Eq, Hx. rewrite Hx in Hb. unfold half_unit in Hb.
  change ((10 # 1) ^ (- Z.of_nat 2))%Q with (1 # 100)%Q in *. set (a := sg * spelled (ip ++ fp)) in *.
  assert (A : a = m); [|now rewrite A]. apply Qabs_Qle_condition in Hb.
  assert (B : (inject_Z a <= inject_Z m + (1 # 2) /\ inject_Z m <= inject_Z a + (1 # 2))%Q) by lra.
  destruct B as (B1 & B2). unfold Qle, Qplus, inject_Z in B1, B2. cbn in B1, B2. lia.
Qed.

Lemma scale_down_exact (v : Z) k : In k [3; 6; 9; 12; 15; 18] -> 10 ^ k <= v < 10 ^ (k + 3) ->
  exists p w, scale_down sipfx_large (inject_Z v) None = (Some p, w) /\ si_prefix [p] k /\ (inject_Z v == w * (10 # 1) ^ k)%Q.
Proof.
  intros Hk Hv.
  assert (P : forall p k, In (p, k) [("k", 3); ("M", 6); ("G", 9); ("T", 12); ("P", 15); ("E", 18)]%char -> si_prefix [p] k).
  { intros p k' H. cbn in H. repeat (destruct H as [H|H]; [injection H as <- <-; vm_compute; tauto|]). destruct H. }
  assert (Hv' : (inject_Z (10 ^ k) <= inject_Z v /\ inject_Z v < inject_Z (10 ^ (k + 3)))%Q).
  { split; [rewrite <- Zle_Qle|rewrite <- Zlt_Qlt]; lia. }
  unfold sipfx_large. cbn [scale_down]. set (v0 := inject_Z v) in *. 
  set (v1 := (v0 / inject_Z 1000)%Q). set (v2 := (v1 / inject_Z 1000)%Q). set (v3 := (v2 / inject_Z 1000)%Q).
  set (v4 := (v3 / inject_Z 1000)%Q). set (v5 := (v4 / inject_Z 1000)%Q). set (v6 := (v5 / inject_Z 1000)%Q).
  assert (A0 : Qabs v0 = v0). { unfold v0, inject_Z, Qabs. f_equal. assert (0 < 10 ^ k) by (apply Z.pow_pos_nonneg; [lia|cbn in Hk; intuition lia]). lia. }
  assert (D : forall x y, y = (x / inject_Z 1000)%Q -> (x == y * (1000 # 1))%Q /\ (Qabs x == Qabs y * (1000 # 1))%Q).
  { intros x y ->. rewrite qabs_div. rewrite thousand. split; field. }
  destruct (D v0 v1 eq_refl) as (E1 & A1). destruct (D v1 v2 eq_refl) as (E2 & A2). destruct (D v2 v3 eq_refl) as (E3 & A3).
  destruct (D v3 v4 eq_refl) as (E4 & A4). destruct (D v4 v5 eq_refl) as (E5 & A5). destruct (D v5 v6 eq_refl) as (E6 & A6).
  clearbody v0 v1 v2 v3 v4 v5 v6.
  assert (Y : forall x, (x < 1000 # 1)%Q -> q_lt x (inject_Z 1000) = true) by (intros x H; apply q_lt_spec; rewrite thousand; exact H).
  assert (N : forall x, (1000 # 1 <= x)%Q -> q_lt x (inject_Z 1000) = false) by (intros x H; apply q_lt_false; rewrite thousand; exact H).
  cbn [In] in Hk. rewrite A0 in A1. unfold inject_Z in Hv'.
  destruct Hk as [<- |[<- |[<- |[<- |[<- |[<- |[]]]]]]].
  - assert (H : (1000 # 1 <= v0 /\ v0 < 1000000 # 1)%Q) by exact Hv'. clear Hv'.
    rewrite (Y (Qabs v1)) by lra.
    exists "k"%char, v1. split; [reflexivity|]. split; [apply P; cbn; tauto|]. change ((10 # 1) ^ 3)%Q with (1000 # 1)%Q. lra.
  - assert (H : (1000000 # 1 <= v0 /\ v0 < 1000000000 # 1)%Q) by exact Hv'. clear Hv'.
    rewrite (N (Qabs v1)) by lra.
    rewrite (Y (Qabs v2)) by lra.
    exists "M"%char, v2. split; [reflexivity|]. split; [apply P; cbn; tauto|]. change ((10 # 1) ^ 6)%Q with (1000000 # 1)%Q. lra.
  - assert (H : (1000000000 # 1 <= v0 /\ v0 < 1000000000000 # 1)%Q) by exact Hv'. clear Hv'.
    rewrite (N (Qabs v1)) by lra.
    rewrite (N (Qabs v2)) by lra.
    rewrite (Y (Qabs v3)) by lra.
    exists "G"%char, v3. split; [reflexivity|]. split; [apply P; cbn; tauto|]. change ((10 # 1) ^ 9)%Q with (1000000000 # 1)%Q. lra.
  - assert (H : (1000000000000 # 1 <= v0 /\ v0 < 1000000000000000 # 1)%Q) by exact Hv'. clear Hv'.
    rewrite (N (Qabs v1)) by lra.
    rewrite (N (Qabs v2)) by lra.
    rewrite (N (Qabs v3)) by lra.
    rewrite (Y (Qabs v4)) by lra.
    exists "T"%char, v4. split; [reflexivity|]. split; [apply P; cbn; tauto|]. change ((10 # 1) ^ 12)%Q with (1000000000000 # 1)%Q. lra.
  - assert (H : (1000000000000000 # 1 <= v0 /\ v0 < 1000000000000000000 # 1)%Q) by exact Hv'. clear Hv'.
    rewrite (N (Qabs v1)) by lra.
    rewrite (N (Qabs v2)) by lra.
    rewrite (N (Qabs v3)) by lra.
    rewrite (N (Qabs v4)) by lra.
    rewrite (Y (Qabs v5)) by lra.
    exists "P"%char, v5. split; [reflexivity|]. split; [apply P; cbn; tauto|]. change ((10 # 1) ^ 15)%Q with (1000000000000000 # 1)%Q. lra.
  - assert (H : (1000000000000000000 # 1 <= v0 /\ v0 < 1000000000000000000000 # 1)%Q) by exact Hv'. clear Hv'.
    rewrite (N (Qabs v1)) by lra.
    rewrite (N (Qabs v2)) by lra.
    rewrite (N (Qabs v3)) by lra.
    rewrite (N (Qabs v4)) by lra.
    rewrite (N (Qabs v5)) by lra.
    rewrite (Y (Qabs v6)) by lra.
    exists "E"%char, v6. split; [reflexivity|]. split; [apply P; cbn; tauto|]. change ((10 # 1) ^ 18)%Q with (1000000000000000000 # 1)%Q. lra.
Qed.

Lemma num2si_exact v base : base_unit base -> short v -> exists txt, num2si (inject_Z v) base 2 [] false = Ok txt /\ exactly base txt (inject_Z v).
Proof.
  intros Hb (Hpos & Hv).
  assert (G : exists txt w, num2si (inject_Z v) base 2 [] false = Ok txt /\ parse_human txt base None false = Ok (HFloat w) /\ (w == inject_Z v)%Q).
  2:{ destruct G as (txt & w & E & Ep & Ew). exists txt. split; [exact E|]. split; [now apply (num2si_word (inject_Z v) base)|]. eauto. }
  assert (A0 : Qabs (inject_Z v) = inject_Z v) by (unfold inject_Z, Qabs; f_equal; lia).
  unfold num2si. cbn [Nat.ltb Nat.leb]. rewrite (base_separate base Hb). cbn iota. rewrite A0.
  destruct (Z.ltb_spec v 1000) as [Hlt|Hge].
  - assert (E3 : Qle_bool 1 (inject_Z v) && q_lt (inject_Z v) (inject_Z 1000) = true).
    { apply andb_true_iff. split; [apply Qle_bool_iff; change 1%Q with (inject_Z 1); rewrite <- Zle_Qle; lia|apply q_lt_spec; rewrite <- Zlt_Qlt; lia]. }
    rewrite E3. destruct (fmt_exact (inject_Z v) (v * 100)) as (q & Hq & Eq); [rewrite inject_Z_mult; change (inject_Z 100) with (100 # 1)%Q; field|].
    destruct (emit base _ q [] [] 0 Hb Hq (Forall_nil _)) as (w & Ew & Hw); [now left|].
    eexists. exists w. split; [reflexivity|]. split; [exact Ew|]. rewrite Hw, Eq. change ((10 # 1) ^ 0)%Q with 1%Q. ring.
  - destruct Hv as [Hv|(k & Hk & Hv & (m & Hm))]; [lia|].
    assert (E3 : Qle_bool 1 (inject_Z v) && q_lt (inject_Z v) (inject_Z 1000) = false).
    { apply andb_false_iff. right. apply q_lt_false. rewrite <- Zle_Qle. lia. }
    rewrite E3.
    assert (E4 : q_lt (inject_Z 500) (inject_Z v) = true) by (apply q_lt_spec; rewrite <- Zlt_Qlt; lia). rewrite E4.
    destruct (scale_down_exact v k Hk Hv) as (p & x & Es & Hp & Hx). rewrite Es. cbn zeta.
    destruct (fmt_exact x m) as (q & Hq & Eq).
    { pose proof (pow10_pos k) as Hpk. 
      assert (X : (x * (10 # 1) ^ k == inject_Z m * (1 # 100) * (10 # 1) ^ k)%Q).
      { rewrite <- Hx, Hm, inject_Z_mult.
        assert (Hk2 : 0 <= k - 2) by (cbn in Hk; intuition lia). rewrite <- pow10_pos' by exact Hk2. unfold Z.sub.
        rewrite Qpower_plus by (intros X; discriminate X). change ((10 # 1) ^ (- (2)))%Q with (1 # 100)%Q. ring. }
      apply Qmult_inj_r in X; [exact X|]. intros X0. rewrite X0 in Hpk. now apply Qlt_irrefl in Hpk. }
    destruct (py_float_number _ _ Hq) as (r & Er & Err). rewrite Er.
    assert (E0 : Qeq_bool r 0 = false).
    { destruct (Qeq_bool r 0) eqn:X; [|reflexivity]. apply Qeq_bool_iff in X. exfalso.
      assert (Z0 : (inject_Z v == 0)%Q) by (rewrite Hx, <- Eq, <- Err, X; ring). unfold Qeq in Z0. cbn in Z0. lia. }
    rewrite E0. destruct (emit base _ q [] [p] k Hb Hq (Forall_nil _) Hp) as (w & Ew & Hw).
    eexists. exists w. split; [reflexivity|]. split; [exact Ew|]. rewrite Hw, Eq, <- Hx. reflexivity.
Qed.
