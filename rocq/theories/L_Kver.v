(** Lemmas about kernel versions. *)
From Verif Require Import Base L_Base M_Text S_Text L_Text M_Kver S_Kver.
From Coq Require Import ZifyBool.

Lemma digitb_spec c : digitb c = true <-> is_digit c.
Proof. unfold digitb, is_digit. lia. Qed.

Lemma digits_val_spelled s : digits_val s = spelled s.
Proof.
  unfold digits_val, spelled. generalize 0 as v. induction s as [|c s IH]; intros v; [reflexivity|].
  cbn [fold_left]. rewrite IH. f_equal. lia.
Qed.

Lemma span_digits_app d r : Forall is_digit d -> (forall c t, r = c :: t -> ~ is_digit c) ->
  span_digits (d ++ r) = (d, r).
Proof.
  intros Hd Hr. induction Hd as [|c d Hc Hd IH]; cbn [app span_digits].
  - destruct r as [|c t]; [reflexivity|]. cbn. destruct (digitb c) eqn:E; [|reflexivity].
    apply digitb_spec in E. now apply (Hr c t) in E.
  - apply digitb_spec in Hc. now rewrite Hc, IH.
Qed.

Lemma digits1_app d n r : number d n -> (forall c t, r = c :: t -> ~ is_digit c) ->
  digits1 (d ++ r) = Some (d, r).
Proof.
  intros (Hne & Hd & _) Hr. unfold digits1. rewrite span_digits_app by assumption.
  destruct d; [congruence|reflexivity].
Qed.

Lemma digits1_none r : (forall c t, r = c :: t -> ~ is_digit c) -> digits1 r = None.
Proof.
  intros Hr. unfold digits1. pose proof (span_digits_app [] r ltac:(constructor) Hr) as H.
  cbn [app] in H. now rewrite H.
Qed.

Lemma dot_star_id l : ~ In "010"%char l -> dot_star l = l.
Proof.
  induction l as [|c l IH]; [reflexivity|]. cbn. intros H. destruct (Ascii.eqb c "010") eqn:E.
  - apply Ascii.eqb_eq in E. subst. exfalso. apply H. now left.
  - rewrite IH; [reflexivity|tauto].
Qed.

Lemma lit_app p l : lit p (p ++ l) = Some l.
Proof. induction p as [|c p IH]; [reflexivity|]. cbn. now rewrite Ascii.eqb_refl. Qed.

Lemma lit_some p : forall l r, lit p l = Some r -> l = p ++ r.
Proof.
  induction p as [|c p IH]; intros l r H; cbn in H.
  - now injection H as ->.
  - destruct l as [|d l]; [discriminate|]. destruct (Ascii.eqb c d) eqn:E; [|discriminate].
    apply Ascii.eqb_eq in E. subst. cbn. f_equal. auto.
Qed.

Lemma number_val d n : number d n -> digits_val d = n.
Proof. intros (_ & _ & <-). apply digits_val_spelled. Qed.

Lemma digits_nonl d : Forall is_digit d -> ~ In "010"%char d.
Proof.
  intros H Hi. rewrite Forall_forall in H. apply H in Hi. unfold is_digit in Hi. cbn in Hi. lia.
Qed.

Lemma fetch_rc_spec s4 rc loc :
  (s4 = [] /\ rc = None \/ exists d n, s4 = s2l "-rc" ++ d /\ number d n /\ rc = Some n) ->
  ~ In "010"%char loc -> (forall c t, loc = c :: t -> ~ is_digit c) ->
  (s4 = [] -> forall c t, loc = s2l "-rc" ++ c :: t -> ~ is_digit c) ->
  fetch_rc (dot_star (s4 ++ loc)) = (rc, loc).
Proof.
  intros [[-> ->]|(d & n & -> & Hn & ->)] Hnl Hd Hr.
  - cbn [app]. rewrite dot_star_id by exact Hnl. unfold fetch_rc.
    destruct (lit (s2l "-rc") loc) as [l|] eqn:E; [|reflexivity].
    apply lit_some in E. rewrite digits1_none; [reflexivity|].
    intros c t Hl. apply (Hr eq_refl c t). now rewrite E, Hl.
  - rewrite dot_star_id.
    2:{ rewrite !in_app_iff. intros [[H|H]|H]; [|eapply digits_nonl; [apply Hn|exact H]|tauto].
        cbn in H. decompose [or] H; try discriminate; tauto. }
    unfold fetch_rc. rewrite <- app_assoc, lit_app, (digits1_app d n loc Hn Hd).
    rewrite dot_star_id by exact Hnl. now rewrite (number_val d n Hn).
Qed.

Lemma nd_dot : ~ is_digit "."%char.
Proof. unfold is_digit. cbn. lia. Qed.
Lemma nd_dash : ~ is_digit "-"%char.
Proof. unfold is_digit. cbn. lia. Qed.

Lemma rest_nodigit s4 rc loc :
  (s4 = [] /\ rc = None \/ exists d n, s4 = s2l "-rc" ++ d /\ number d n /\ rc = Some n) ->
  (forall c t, loc = c :: t -> ~ is_digit c) -> forall c t, s4 ++ loc = c :: t -> ~ is_digit c.
Proof.
  intros [[-> _]|(d & n & -> & _ & _)] H c t E; [eapply H; exact E|].
  cbn in E. injection E as <- _. exact nd_dash.
Qed.

Lemma split_kver_reads s a b c r l : reads_as s a b c r l -> split_kver s = Ok (KV a b c r l).
Proof.
  intros [m1 n1 m2 n2 s3 n3 s4 rc loc H1 H2 H3 H4 Hnl Hd Hs Hr].
  unfold split_kver.
  pose proof (fetch_rc_spec s4 rc loc H4 Hnl Hd Hr) as Hrc.
  pose proof (rest_nodigit s4 rc loc H4 Hd) as Hrd.
  rewrite (digits1_app m1 n1).
  2: exact H1.
  2:{ intros x t [= <- _]. exact nd_dot. }
  change ("."%char :: m2 ++ s3 ++ s4 ++ loc) with (s2l "." ++ m2 ++ s3 ++ s4 ++ loc). rewrite lit_app.
  rewrite (digits1_app m2 n2).
  2: exact H2.
  2:{ destruct H3 as [[-> _]|(d & -> & _)]; [exact Hrd|]. intros x t E. cbn in E. injection E as <- _.
      exact nd_dot. }
  rewrite (number_val _ _ H1), (number_val _ _ H2).
  destruct H3 as [[-> ->]|(d & -> & H3)].
  - cbn [app].
    assert (E : fetch_stable (s4 ++ loc) = (0, s4 ++ loc)).
    { unfold fetch_stable. destruct (lit (s2l ".") (s4 ++ loc)) as [t|] eqn:E4; [|reflexivity].
      apply lit_some in E4. rewrite digits1_none; [reflexivity|].
      destruct H4 as [[-> _]|(d & n & -> & _ & _)]; [|cbn in E4; discriminate].
      cbn [app] in E4. intros y u ->. apply (Hs eq_refl eq_refl y u). exact E4. }
    rewrite E, Hrc. reflexivity.
  - unfold fetch_stable. change (("."%char :: d) ++ s4 ++ loc) with (s2l "." ++ d ++ s4 ++ loc).
    rewrite lit_app, (digits1_app d n3 (s4 ++ loc) H3 Hrd). rewrite Hrc, (number_val _ _ H3). reflexivity.
Qed.

(** ** Order *)
Lemma str_ltb_spec a : forall b, str_ltb a b = true <-> alpha_before a b.
Proof.
  induction a as [|c a IH]; intros [|d b]; cbn [str_ltb].
  - split; [discriminate|]. intros H; inversion H.
  - split; [|reflexivity]. constructor.
  - split; [discriminate|]. intros H; inversion H.
  - destruct (Z.of_nat (nat_of_ascii c) <? Z.of_nat (nat_of_ascii d)) eqn:E1.
    + split; [|reflexivity]. intros _. apply AB_head. lia.
    + destruct (Z.of_nat (nat_of_ascii c) =? Z.of_nat (nat_of_ascii d)) eqn:E2.
      * assert (c = d) by (apply ascii_code_inj; lia). subst d. rewrite IH. split; [apply AB_tail|].
        intros H. inversion H; subst; [lia|assumption].
      * split; [discriminate|]. intros H. inversion H; subst; lia.
Qed.

Lemma rc_lt_spec a b : rc_lt a b = true <-> rc_before a b.
Proof.
  destruct a as [x|], b as [y|]; cbn; split; intros H; try discriminate; try (constructor; lia);
    inversion H; subst; try reflexivity; lia.
Qed.

Lemma rc_eqb_spec a b : rc_eqb a b = true <-> a = b.
Proof.
  destruct a as [x|], b as [y|]; cbn; split; intros H; try discriminate; try reflexivity.
  - f_equal. lia.
  - injection H as ->. apply Z.eqb_refl.
Qed.

Lemma alpha_irrefl a : ~ alpha_before a a.
Proof. induction a as [|c a IH]; intros H; inversion H; subst; [lia|auto]. Qed.

Lemma alpha_trans a b c : alpha_before a b -> alpha_before b c -> alpha_before a c.
Proof.
  intros H. revert c. induction H as [x t|x y s t Hxy|x s t H IH]; intros c Hc; inversion Hc; subst.
  - constructor.
  - constructor.
  - constructor 2. lia.
  - now constructor 2.
  - now constructor 2.
  - constructor 3. auto.
Qed.

Lemma alpha_total a : forall b, alpha_before a b \/ a = b \/ alpha_before b a.
Proof.
  induction a as [|c a IH]; intros [|d b].
  - tauto.
  - left. constructor.
  - right. right. constructor.
  - destruct (Nat.lt_trichotomy (nat_of_ascii c) (nat_of_ascii d)) as [H|[H|H]].
    + left. now constructor 2.
    + apply ascii_code_inj in H. subst d. destruct (IH b) as [H|[H|H]].
      * left. now constructor 3.
      * subst. tauto.
      * right. right. now constructor 3.
    + right. right. now constructor 2.
Qed.

Lemma kv_ltb_spec a b : kv_ltb a b = true <-> before a b.
Proof.
  destruct a as [a1 a2 a3 a4 a5], b as [b1 b2 b3 b4 b5]. unfold kv_ltb. cbn [kv_major kv_minor kv_stable kv_rc kv_local].
  destruct (a1 =? b1) eqn:E1; cbn [negb].
  2:{ split; [intros H; apply B_major; lia|]. intros H. inversion H; subst; lia. }
  assert (a1 = b1) by lia. subst b1.
  destruct (a2 =? b2) eqn:E2; cbn [negb].
  2:{ split; [intros H; apply B_minor; lia|]. intros H. inversion H; subst; lia. }
  assert (a2 = b2) by lia. subst b2.
  destruct (a3 =? b3) eqn:E3; cbn [negb].
  2:{ split; [intros H; apply B_stable; lia|]. intros H. inversion H; subst; lia. }
  assert (a3 = b3) by lia. subst b3.
  destruct (rc_eqb a4 b4) eqn:E4; cbn [negb].
  2:{ rewrite rc_lt_spec. split; [apply B_rc|]. intros H. inversion H; subst; try lia; try assumption.
      assert (rc_eqb b4 b4 = true) by now apply rc_eqb_spec. congruence. }
  apply rc_eqb_spec in E4. subst b4. rewrite str_ltb_spec. split; [apply B_local|].
  intros H. inversion H; subst; try lia; try assumption.
  match goal with H : rc_before ?x ?x |- _ => inversion H; subst; lia end.
Qed.

Lemma before_irrefl a : ~ before a a.
Proof.
  intros H. inversion H; subst; try lia.
  - match goal with H : rc_before ?x ?x |- _ => inversion H; subst; lia end.
  - eapply alpha_irrefl; eassumption.
Qed.

Lemma rc_trans a b c : rc_before a b -> rc_before b c -> rc_before a c.
Proof. intros H K. inversion H; subst; inversion K; subst; constructor; lia. Qed.

Lemma before_trans a b c : before a b -> before b c -> before a c.
Proof.
  intros H K. inversion H; subst; inversion K; subst;
    solve [ apply B_major; lia | apply B_minor; lia | apply B_stable; lia
          | apply B_rc; (assumption || eapply rc_trans; eassumption)
          | apply B_local; eapply alpha_trans; eassumption ].
Qed.

Lemma before_total a b : before a b \/ a = b \/ before b a.
Proof.
  destruct a as [a1 a2 a3 a4 a5], b as [b1 b2 b3 b4 b5].
  destruct (Z.lt_trichotomy a1 b1) as [E|[E|E]]; [left; now apply B_major| |right; right; now apply B_major].
  subst b1.
  destruct (Z.lt_trichotomy a2 b2) as [E|[E|E]]; [left; now apply B_minor| |right; right; now apply B_minor].
  subst b2.
  destruct (Z.lt_trichotomy a3 b3) as [E|[E|E]]; [left; now apply B_stable| |right; right; now apply B_stable].
  subst b3.
  assert (R : rc_before a4 b4 \/ a4 = b4 \/ rc_before b4 a4).
  { destruct a4 as [x|], b4 as [y|].
    - destruct (Z.lt_trichotomy x y) as [E|[E|E]]; [left; now constructor|subst; tauto|right; right; now constructor].
    - left. constructor.
    - right. right. constructor.
    - tauto. }
  destruct R as [E|[E|E]]; [left; now apply B_rc| |right; right; now apply B_rc]. subst b4.
  destruct (alpha_total a5 b5) as [E|[E|E]]; [left; now apply B_local|subst; tauto|right; right; now apply B_local].
Qed.

(** ** Final forms *)
Lemma kver_lt_ok s1 s2 r : kver_lt s1 s2 = Ok r ->
  exists a b, split_kver s1 = Ok a /\ split_kver s2 = Ok b /\ kv_ltb a b = r.
Proof.
  unfold kver_lt. destruct (split_kver s1) as [a|]; [|discriminate].
  destruct (split_kver s2) as [b|]; [|discriminate]. cbn. intros [= <-]. eauto.
Qed.

Lemma C39_compare_l s1 s2 a b : split_kver s1 = Ok a -> split_kver s2 = Ok b ->
  (kver_lt s1 s2 = Ok true <-> before a b) /\ (kver_lt s1 s2 = Ok false <-> ~ before a b) /\
  (kver_ge s1 s2 = Ok true <-> ~ before a b).
Proof.
  intros H1 H2. unfold kver_ge, kver_lt. rewrite H1, H2. cbn.
  rewrite <- kv_ltb_spec. destruct (kv_ltb a b); cbn; intuition congruence.
Qed.

Lemma C39_irreflexive_l s r : kver_lt s s = Ok r -> r = false.
Proof.
  intros H. apply kver_lt_ok in H as (a & b & H1 & H2 & <-). assert (a = b) by congruence. subst b.
  destruct (kv_ltb a a) eqn:E; [|reflexivity]. apply kv_ltb_spec in E. now apply before_irrefl in E.
Qed.

Lemma C39_asymmetric_l s1 s2 : kver_lt s1 s2 = Ok true -> kver_lt s2 s1 = Ok false.
Proof.
  intros H. apply kver_lt_ok in H as (a & b & H1 & H2 & H). unfold kver_lt. rewrite H1, H2. cbn.
  f_equal. destruct (kv_ltb b a) eqn:E; [|reflexivity]. apply kv_ltb_spec in E, H.
  exfalso. eapply before_irrefl, before_trans; eassumption.
Qed.

Lemma C39_transitive_l s1 s2 s3 : kver_lt s1 s2 = Ok true -> kver_lt s2 s3 = Ok true ->
  kver_lt s1 s3 = Ok true.
Proof.
  intros H K. apply kver_lt_ok in H as (a & b & H1 & H2 & H).
  apply kver_lt_ok in K as (b' & c & K1 & K2 & K). assert (b' = b) by congruence. subst b'.
  unfold kver_lt. rewrite H1, K2. cbn. f_equal. apply kv_ltb_spec. apply kv_ltb_spec in H, K.
  eapply before_trans; eassumption.
Qed.

Lemma C39_total_l s1 s2 : kver_lt s1 s2 = Ok false -> kver_lt s2 s1 = Ok false ->
  split_kver s1 = split_kver s2.
Proof.
  intros H K. apply kver_lt_ok in H as (a & b & H1 & H2 & H).
  apply kver_lt_ok in K as (b' & a' & K1 & K2 & K).
  assert (b' = b) by congruence. assert (a' = a) by congruence. subst a' b'.
  destruct (before_total a b) as [E|[E|E]]; [| subst; congruence |]; apply kv_ltb_spec in E; congruence.
Qed.

Lemma C39_rc_l s1 s2 a b c n l l' : reads_as s1 a b c (Some n) l -> reads_as s2 a b c None l' ->
  kver_lt s1 s2 = Ok true /\ kver_lt s2 s1 = Ok false.
Proof.
  intros H1 H2. apply split_kver_reads in H1, H2.
  assert (E : kver_lt s1 s2 = Ok true).
  { apply (C39_compare_l _ _ _ _ H1 H2). apply B_rc. constructor. }
  split; [exact E|]. now apply C39_asymmetric_l.
Qed.

Lemma C39_reject_l s1 s2 : split_kver s1 = Exn EError \/ split_kver s2 = Exn EError ->
  kver_lt s1 s2 = Exn EError.
Proof.
  assert (G : forall s e, split_kver s = Exn e -> e = EError).
  { intros s e. unfold split_kver. destruct (digits1 s) as [[m l1]|]; [|congruence].
    destruct (lit (s2l ".") l1) as [l2|]; [|congruence].
    destruct (digits1 l2) as [[m' l3]|]; [|congruence].
    destruct (fetch_stable l3) as [st l4].
    destruct (fetch_rc (dot_star l4)). discriminate. }
  unfold kver_lt. intros [H|H]; rewrite H; [reflexivity|].
  destruct (split_kver s1) eqn:E; cbn; [reflexivity|]. now rewrite (G _ _ E).
Qed.

Lemma span_digits_spec l : forall d r, span_digits l = (d, r) ->
  l = d ++ r /\ Forall is_digit d /\ (forall c t, r = c :: t -> ~ is_digit c).
Proof.
  induction l as [|c l IH]; intros d r H; cbn in H.
  - injection H as <- <-. repeat split; [constructor|discriminate].
  - destruct (digitb c) eqn:E.
    + destruct (span_digits l) as [d' r']. injection H as <- <-.
      destruct (IH _ _ eq_refl) as (-> & Hd & Hr). apply digitb_spec in E.
      split; [reflexivity|]. split; [now constructor|exact Hr].
    + injection H as <- <-. repeat split; [constructor|]. intros x t [= <- _] Hd.
      apply digitb_spec in Hd. congruence.
Qed.

Lemma digits1_some l d r : digits1 l = Some (d, r) -> l = d ++ r /\ number d (spelled d).
Proof.
  unfold digits1. destruct (span_digits l) as [d' r'] eqn:E. destruct d' as [|c d']; [discriminate|].
  intros [= <- <-]. apply span_digits_spec in E as (-> & Hd & _). split; [reflexivity|].
  split; [discriminate|]. now split.
Qed.

(** The first number is followed by a dot and the second number by whatever. *)
Lemma span_digits_dot m t : Forall is_digit m -> span_digits (m ++ "."%char :: t) = (m, "."%char :: t).
Proof. intros H. apply span_digits_app; [exact H|]. intros c u [= <- _]. exact nd_dot. Qed.

Lemma digits1_prefix m n t : number m n -> digits1 (m ++ t) <> None.
Proof.
  intros (Hne & Hd & _). destruct m as [|c m]; [congruence|]. inversion Hd; subst.
  unfold digits1. cbn [app span_digits]. apply digitb_spec in H1. rewrite H1.
  destruct (span_digits (m ++ t)). discriminate.
Qed.

Lemma C39_accepts_l s : (exists kv, split_kver s = Ok kv) <->
  exists m1 n1 m2 n2 t, s = m1 ++ "."%char :: m2 ++ t /\ number m1 n1 /\ number m2 n2.
Proof.
  split.
  - intros (kv & H). unfold split_kver in H.
    destruct (digits1 s) as [[m1 l1]|] eqn:E1; [|discriminate].
    destruct (lit (s2l ".") l1) as [l2|] eqn:E2; [|discriminate].
    destruct (digits1 l2) as [[m2 l3]|] eqn:E3; [|discriminate].
    apply digits1_some in E1 as (-> & H1). apply lit_some in E2. apply digits1_some in E3 as (-> & H3).
    subst l1. exists m1, (spelled m1), m2, (spelled m2), l3. split; [reflexivity|split; assumption].
  - intros (m1 & n1 & m2 & n2 & t & -> & H1 & H2). unfold split_kver.
    rewrite (digits1_app m1 n1).
    2: exact H1.
    2:{ intros x u [= <- _]. exact nd_dot. }
    change ("."%char :: m2 ++ t) with (s2l "." ++ m2 ++ t). rewrite lit_app.
    pose proof (digits1_prefix m2 n2 t H2) as Hp.
    destruct (digits1 (m2 ++ t)) as [[m l3]|]; [|congruence].
    destruct (fetch_stable l3) as [st l4]. destruct (fetch_rc (dot_star l4)). eauto.
Qed.
