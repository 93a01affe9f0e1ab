(** Lemmas about durations. *)
From Coq Require Import QArith Qabs Qpower ZifyBool Lqa Sorted.
From Verif Require Import Base L_Base M_Text S_Text L_Text M_Human S_Human L_Human L_Human2 L_Human3 L_Human4 L_Human5 L_Human6.

Definition amt (z : Z) : Q := inject_Z (1 * spelled (dec z ++ [])) * (10 # 1) ^ (0 - Z.of_nat (@length ascii [])).
Lemma amt_eq z : 0 <= z -> (amt z == inject_Z z)%Q.
Proof.
  intros H. unfold amt. rewrite app_nil_r. destruct (dec_numeral z H) as (_ & _ & -> & _).
  cbn [length Z.of_nat Z.sub Z.opp Z.add]. change ((10 # 1) ^ 0)%Q with 1%Q. rewrite Z.mul_1_l. ring.
Qed.
Lemma amt_number b z : 0 <= z -> white b -> number (b ++ dec z) (amt z).
Proof.
  intros H Hb. destruct (dec_numeral z H) as (H1 & H2 & _).
  assert (E : b ++ dec z = b ++ [] ++ dec z ++ [] ++ [] ++ [] ++ []) by now rewrite !app_nil_r.
  rewrite E. apply Number; auto; try constructor. now rewrite app_nil_r.
Qed.
Lemma amt_whole b z : 0 <= z -> white b -> exists k, integer_text (b ++ dec z) k.
Proof.
  intros H Hb. destruct (dec_numeral z H) as (H1 & H2 & _). exists (1 * spelled (dec z)).
  assert (E : b ++ dec z = b ++ [] ++ dec z ++ []) by now rewrite !app_nil_r.
  rewrite E. apply Integer; auto; constructor.
Qed.

Definition tpart (b : str) (z : Z) (u : string) (n : Z) : part := Part (b ++ dec z) (s2l u) (amt z) (inject_Z n).
Definition tunit (u : string) (n : Z) : Prop := In (u, n) [("h"%string, 3600); ("m"%string, 60); ("s"%string, 1)].
Lemma tunit_factor u n : tunit u n -> factor (s2l "s") (s2l u) (inject_Z n) /\ (s2l u = s2l "s" \/ exists k, time_unit (s2l u) k).
Proof.
  intros [H|[H|[H|[]]]]; injection H as <- <-.
  - split; [apply F_time; [reflexivity|cbn; tauto]|right; exists 3600; cbn; tauto].
  - split; [apply F_time; [reflexivity|cbn; tauto]|right; exists 60; cbn; tauto].
  - split; [apply (F_si (s2l "s") [] 0); cbn; tauto|now left].
Qed.

Inductive tlist : list part -> Prop :=
| T1 b z u n : 0 <= z -> white b -> tunit u n -> tlist [tpart b z u n]
| T2 b z u n b' z' u' n' ps : 0 <= z -> white b -> tunit u n -> n' < n -> tlist (tpart b' z' u' n' :: ps) ->
    tlist (tpart b z u n :: tpart b' z' u' n' :: ps).
Lemma tlist_time ps : tlist ps -> time_parts ps.
Proof.
  induction 1 as [b z u n Hz Hb Hu|b z u n b' z' u' n' ps Hz Hb Hu Hn H IH].
  - destruct (tunit_factor _ _ Hu) as (F1 & F2). split; [discriminate|]. split; [|split].
    + split; [|constructor]. constructor; [|constructor]. split; [now apply amt_number|exact F1].
    + constructor; [exact F2|constructor].
    + intros l p q r E. destruct l as [|x l]; [discriminate|]. injection E as _ E. destruct l; discriminate.
  - destruct (tunit_factor _ _ Hu) as (F1 & F2). destruct IH as (I1 & (I2 & I3) & I4 & I5).
    split; [discriminate|]. split; [|split].
    + split; [constructor; [split; [now apply amt_number|exact F1]|exact I2]|].
      change (Forall whole (tpart b z u n :: removelast (tpart b' z' u' n' :: ps))). constructor; [now apply amt_whole|exact I3].
    + constructor; [exact F2|exact I4].
    + intros l p q r E. destruct l as [|x l].
      * cbn in E. injection E as <- <- <-. cbn [p_factor tpart]. rewrite <- Zlt_Qlt. exact Hn.
      * cbn in E. injection E as _ E. now apply (I5 l p q r).
Qed.

Lemma last_app_one {A} (l : list A) x d : last (l ++ [x]) d = x.
Proof. apply last_last. Qed.
Lemma tlist_strip ps z u n ps' : 0 <= z -> tlist ps -> ps = tpart [] z u n :: ps' ->
  strip (parts_text ps ++ [" "%char]) = parts_text ps.
Proof.
  intros Hz0 H E.
  assert (L : exists a c, parts_text ps = a ++ [c] /\ is_space c = false).
  { clear E. induction H as [b z0 u0 n0 Hz Hb Hu|b z0 u0 n0 b' z' u' n' qs Hz Hb Hu Hn H (a & c & E & Hc)].
    - unfold parts_text. cbn [map concat tpart p_text p_unit].
      destruct Hu as [Hu|[Hu|[Hu|[]]]]; injection Hu as <- <-; rewrite app_nil_r; eexists; eexists; (split; [reflexivity|reflexivity]).
    - exists ((p_text (tpart b z0 u0 n0) ++ p_unit (tpart b z0 u0 n0)) ++ a), c. rewrite <- (app_assoc _ a), <- E.
      split; [reflexivity|exact Hc]. }
  destruct L as (a & c & L & Hc).
  assert (F : exists d t, parts_text ps = d :: t /\ is_space d = false).
  { rewrite E. unfold parts_text. cbn [map concat tpart p_text p_unit app].
    destruct (dec_numeral z Hz0) as (H1 & H2 & _). destruct (dec z) as [|d t]; [congruence|].
    inversion H2; subst. eexists d, _. split; [reflexivity|now apply digit_nospace]. }
  destruct F as (d & t & F & Hd).
  change (parts_text ps ++ [" "%char]) with ([] ++ parts_text ps ++ [" "%char]). unfold strip. rewrite strip_mid; auto.
  - rewrite F. discriminate.
  - now rewrite F.
  - rewrite L, last_app_one. exact Hc.
Qed.

Lemma duration_l n : 0 <= n < 86400 -> exists txt w, duration n = Ok txt /\
  parse_human txt (s2l "s") None false = Ok (HFloat w) /\ (w == inject_Z n)%Q.
Proof.
  intros Hn. destruct (Z.eq_dec n 0) as [->|N0].
  { eexists. eexists. split; [vm_compute; reflexivity|]. split; [vm_compute; reflexivity|]. reflexivity. }
  unfold duration. assert (E0 : (Z.abs n <? 1) = false) by lia. rewrite E0. clear E0.
  assert (E0 : (n <? 0) = false) by lia. rewrite E0. clear E0. cbv beta iota zeta.
  set (h := n / 60 / 60). set (m := (n / 60) mod 60). set (s := n mod 60).
  assert (Hd : n / 60 / 60 / 24 = 0).
  { rewrite !Zdiv_Zdiv by lia. apply Z.div_small. lia. }
  assert (Hh : h mod 24 = h).
  { apply Z.mod_small. unfold h. split; [apply Z.div_pos; [apply Z.div_pos; lia|lia]|].
    rewrite Zdiv_Zdiv by lia. apply Z.div_lt_upper_bound; lia. }
  fold h in Hd. rewrite Hd, Hh.
  assert (Bh : 0 <= h) by (unfold h; apply Z.div_pos; [apply Z.div_pos; lia|lia]).
  assert (Bm : 0 <= m < 60) by (apply Z.mod_pos_bound; lia).
  assert (Bs : 0 <= s < 60) by (apply Z.mod_pos_bound; lia).
  assert (En : n = h * 3600 + m * 60 + s).
  { pose proof (Z.div_mod n 60 ltac:(lia)). pose proof (Z.div_mod (n / 60) 60 ltac:(lia)). unfold h, m, s. lia. }
  clearbody h m s. clear Hd Hh. cbn [Z.eqb app].
  assert (W0 : white []) by constructor. assert (W1 : white [" "%char]) by (constructor; [cbn; lia|constructor]).
  assert (Uh : tunit "h" 3600) by (cbn; tauto). assert (Um : tunit "m" 60) by (cbn; tauto).
  assert (Us : tunit "s" 1) by (cbn; tauto).
  assert (F : forall z u k ps, 0 <= z -> tlist (tpart [] z u k :: ps) ->
    (parts_total (tpart [] z u k :: ps) == inject_Z n)%Q ->
    forall txt, txt = parts_text (tpart [] z u k :: ps) ++ [" "%char] ->
    exists t w, Ok (strip txt) = Ok t /\ parse_human t (s2l "s") None false = Ok (HFloat w) /\ (w == inject_Z n)%Q).
  { intros z u k ps Hz HT Htot txt ->. rewrite (tlist_strip _ z u k ps Hz HT eq_refl).
    assert (Hu : si_unit (s2l "s") (s2l "s") ((10 # 1) ^ 0)).
    { split; [cbn; tauto|]. exists [], 0. split; [now left|auto]. }
    destruct (parse_time_l (s2l "s") _ None 1%Q false _ [] Hu eq_refl (tlist_time _ HT)) as (r & E & Ha); [constructor|].
    rewrite app_nil_r in E. destruct r as [i|w]; cbn [answer] in Ha; [destruct Ha; discriminate|].
    exists (parts_text (tpart [] z u k :: ps)), w. split; [reflexivity|]. split; [exact E|]. destruct Ha as (_ & ->). rewrite Htot. field. }
  assert (Q1 : (inject_Z n == inject_Z h * inject_Z 3600 + inject_Z m * inject_Z 60 + inject_Z s * inject_Z 1)%Q).
  { rewrite En, !inject_Z_plus, !inject_Z_mult. ring. }
  assert (Ah := amt_eq h Bh). assert (Am := amt_eq m ltac:(lia)). assert (As := amt_eq s ltac:(lia)).
  assert (Z0 : forall x, x = 0 -> (inject_Z x == 0)%Q) by (intros x ->; reflexivity).
  destruct (h =? 0) eqn:Eh; destruct (m =? 0) eqn:Em; destruct (s =? 0) eqn:Es; cbn [app].
  - lia.
  - apply (F s "s"%string 1 []); [lia|now constructor| |].
    + cbn [parts_total fold_right tpart p_amount p_factor]. rewrite As, Q1, (Z0 h), (Z0 m) by lia. ring.
    + unfold parts_text. cbn [map concat tpart p_text p_unit app]. repeat (progress (rewrite ?app_nil_r, <- ?app_assoc; cbn [app])). reflexivity.
  - apply (F m "m"%string 60 []); [lia|constructor; auto; lia| |].
    + cbn [parts_total fold_right tpart p_amount p_factor]. rewrite Am, Q1, (Z0 h), (Z0 s) by lia. ring.
    + unfold parts_text. cbn [map concat tpart p_text p_unit app]. repeat (progress (rewrite ?app_nil_r, <- ?app_assoc; cbn [app])). reflexivity.
  - apply (F m "m"%string 60 [tpart [" "%char] s "s" 1]); [lia|constructor; auto; try lia; now constructor| |].
    + cbn [parts_total fold_right tpart p_amount p_factor]. rewrite Am, As, Q1, (Z0 h) by lia. ring.
    + unfold parts_text. cbn [map concat tpart p_text p_unit app]. repeat (progress (rewrite ?app_nil_r, <- ?app_assoc; cbn [app])). reflexivity.
  - apply (F h "h"%string 3600 []); [lia|constructor; auto; lia| |].
    + cbn [parts_total fold_right tpart p_amount p_factor]. rewrite Ah, Q1, (Z0 m), (Z0 s) by lia. ring.
    + unfold parts_text. cbn [map concat tpart p_text p_unit app]. repeat (progress (rewrite ?app_nil_r, <- ?app_assoc; cbn [app])). reflexivity.
  - apply (F h "h"%string 3600 [tpart [" "%char] s "s" 1]); [lia|constructor; auto; try lia; now constructor| |].
    + cbn [parts_total fold_right tpart p_amount p_factor]. rewrite Ah, As, Q1, (Z0 m) by lia. ring.
    + unfold parts_text. cbn [map concat tpart p_text p_unit app]. repeat (progress (rewrite ?app_nil_r, <- ?app_assoc; cbn [app])). reflexivity.
  - apply (F h "h"%string 3600 [tpart [" "%char] m "m" 60]); [lia|constructor; auto; try lia; constructor; auto; lia| |].
    + cbn [parts_total fold_right tpart p_amount p_factor]. rewrite Ah, Am, Q1, (Z0 s) by lia. ring.
    + unfold parts_text. cbn [map concat tpart p_text p_unit app]. repeat (progress (rewrite ?app_nil_r, <- ?app_assoc; cbn [app])). reflexivity.
  - apply (F h "h"%string 3600 [tpart [" "%char] m "m" 60; tpart [" "%char] s "s" 1]); [lia| | |].
    + constructor; auto; try lia. constructor; auto; try lia. now constructor.
    + cbn [parts_total fold_right tpart p_amount p_factor]. rewrite Ah, Am, As, Q1. ring.
    + unfold parts_text. cbn [map concat tpart p_text p_unit app]. repeat (progress (rewrite ?app_nil_r, <- ?app_assoc; cbn [app])). reflexivity.
Qed.
