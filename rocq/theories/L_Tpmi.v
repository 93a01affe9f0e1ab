(** Lemmas about TPMI: the map of the 'mem_dump' file. *)
From Verif Require Import Base L_Base M_Text S_Text L_Text M_Kver S_Kver L_Kver M_Osa M_Tpmi S_Tpmi.
From Coq Require Import ZifyBool.

(** ** Characters *)
Lemma lhexb_spec c : lhexb c = true <-> is_hex c.
Proof. unfold lhexb, is_hex. lia. Qed.

Lemma hex_digit_val c : is_hex c -> exists d, digit_val c = Some d /\ 0 <= d < 16.
Proof.
  unfold is_hex, digit_val. intros H.
  destruct ((48 <=? Z.of_nat (nat_of_ascii c)) && (Z.of_nat (nat_of_ascii c) <=? 57)) eqn:E1.
  { eexists. split; [reflexivity|lia]. }
  destruct ((97 <=? Z.of_nat (nat_of_ascii c)) && (Z.of_nat (nat_of_ascii c) <=? 122)) eqn:E2.
  { eexists. split; [reflexivity|lia]. }
  lia.
Qed.

Lemma hex_not c k : is_hex c -> ~ is_hex k -> Ascii.eqb c k = false.
Proof. intros H Hk. apply Ascii.eqb_neq. now intros ->. Qed.

Lemma hex_nospace c : is_hex c -> is_space c = false.
Proof. unfold is_hex, is_space. lia. Qed.
Lemma hex_nocspace c : is_hex c -> is_cspace c = false.
Proof. unfold is_hex, is_cspace. lia. Qed.

Lemma span_hex_app d r : Forall is_hex d -> (forall c t, r = c :: t -> ~ is_hex c) -> span_hex (d ++ r) = (d, r).
Proof.
  intros Hd Hr. induction Hd as [|c d Hc Hd IH]; cbn [app span_hex].
  - destruct r as [|c t]; [reflexivity|]. cbn. destruct (lhexb c) eqn:E; [|reflexivity].
    apply lhexb_spec in E. now apply (Hr c t) in E.
  - apply lhexb_spec in Hc. now rewrite Hc, IH.
Qed.

Lemma hex1_app d r : d <> [] -> Forall is_hex d -> (forall c t, r = c :: t -> ~ is_hex c) ->
  hex1 (d ++ r) = Some (d, r).
Proof. intros Hn Hd Hr. unfold hex1. rewrite span_hex_app by assumption. now destruct d. Qed.

(** ** Hexadecimal numbers *)
Lemma scan_hex s : Forall is_hex s -> forall v,
  scan_digits 16 s false v = Some (fold_left (fun v c => 16 * v + match digit_val c with Some x => x | None => 0 end) s v, []).
Proof.
  intros H. induction H as [|c s Hc H IH]; intros v; [reflexivity|]. cbn [scan_digits fold_left].
  rewrite (hex_not c "_" Hc) by (unfold is_hex; cbn; lia).
  destruct (hex_digit_val c Hc) as (d & Ed & Hd). rewrite Ed.
  destruct (d <? 16) eqn:E; [|lia]. rewrite IH. do 3 f_equal. lia.
Qed.

Lemma int_digits_hex s : s <> [] -> Forall is_hex s -> int_digits 16 s = Some (hexval s).
Proof.
  intros Hn H. unfold int_digits. destruct s as [|c s]; [congruence|]. pose proof H as H'. inversion H; subst.
  destruct (hex_digit_val c H2) as (d & Ed & Hd). rewrite Ed. destruct (d <? 16) eqn:E; [|lia].
  rewrite (scan_hex _ H'). reflexivity.
Qed.

Lemma str_to_int16_hex s : s <> [] -> Forall is_hex s -> str_to_int16 s = Ok (hexval s).
Proof.
  intros Hn H. unfold str_to_int16, py_int16. destruct s as [|c s]; [congruence|].
  pose proof H as H'. inversion H as [|? ? Hc Hs]; subst. rewrite lstrip_stop by now apply hex_nocspace.
  rewrite (hex_not c "+" Hc) by (unfold is_hex; cbn; lia).
  rewrite (hex_not c "-" Hc) by (unfold is_hex; cbn; lia).
  unfold int_base16. destruct s as [|x s].
  - now rewrite int_digits_hex.
  - inversion Hs as [|? ? Hx Hs']; subst.
    rewrite (hex_not x "x" Hx) by (unfold is_hex; cbn; lia).
    rewrite (hex_not x "X" Hx) by (unfold is_hex; cbn; lia).
    rewrite andb_false_r. now rewrite int_digits_hex.
Qed.

Lemma hexval_snoc s c : hexval (s ++ [c]) = 16 * hexval s + match digit_val c with Some x => x | None => 0 end.
Proof. unfold hexval. now rewrite fold_left_app. Qed.

Lemma hexval_nonneg s : Forall is_hex s -> 0 <= hexval s.
Proof.
  induction s as [|c s IH] using rev_ind; intros H; [cbn; lia|].
  apply Forall_app in H as [H1 H2]. inversion H2; subst. rewrite hexval_snoc.
  destruct (hex_digit_val c H3) as (d & -> & Hd). specialize (IH H1). lia.
Qed.

Lemma hexval_bound s : Forall is_hex s -> hexval s < 16 ^ Z.of_nat (length s).
Proof.
  induction s as [|c s IH] using rev_ind; intros H; [cbn; lia|].
  apply Forall_app in H as [H1 H2]. inversion H2; subst. rewrite hexval_snoc, app_length. cbn [length].
  destruct (hex_digit_val c H3) as (d & -> & Hd). specialize (IH H1).
  rewrite Nat2Z.inj_add, Z.pow_add_r by lia. change (16 ^ Z.of_nat 1) with 16. lia.
Qed.

Lemma hex_char_ok d : 0 <= d < 16 -> is_hex (hex_char d) /\ digit_val (hex_char d) = Some d.
Proof.
  intros H. assert (D : d = 0 \/ d = 1 \/ d = 2 \/ d = 3 \/ d = 4 \/ d = 5 \/ d = 6 \/ d = 7 \/ d = 8 \/ d = 9 \/
    d = 10 \/ d = 11 \/ d = 12 \/ d = 13 \/ d = 14 \/ d = 15) by lia.
  decompose [or] D; subst; (split; [apply lhexb_spec; reflexivity|reflexivity]).
Qed.

Lemma hex_digits_ok n : forall v, 0 <= v -> length (hex_digits n v) = n /\ Forall is_hex (hex_digits n v) /\
  hexval (hex_digits n v) = v mod 16 ^ Z.of_nat n.
Proof.
  induction n as [|n IH]; intros v Hv.
  - cbn. rewrite Z.mod_1_r. auto.
  - cbn [hex_digits]. destruct (IH (v / 16) ltac:(apply Z.div_pos; lia)) as (H1 & H2 & H3).
    pose proof (Z.mod_pos_bound v 16 ltac:(lia)) as Hm. destruct (hex_char_ok _ Hm) as [Hc Ec].
    rewrite app_length, H1. split; [cbn; lia|]. split; [apply Forall_app; split; [exact H2|now constructor]|].
    rewrite hexval_snoc, H3, Ec. rewrite Nat2Z.inj_succ, Z.pow_succ_r by lia.
    rewrite (Z.rem_mul_r v 16 (16 ^ Z.of_nat n)) by lia. lia.
Qed.

Lemma hex8_ok v : 0 <= v < 2 ^ 32 -> length (hex8 v) = 8%nat /\ Forall is_hex (hex8 v) /\ hexval (hex8 v) = v.
Proof.
  intros H. destruct (hex_digits_ok 8 v ltac:(lia)) as (H1 & H2 & H3). unfold hex8.
  split; [exact H1|]. split; [exact H2|]. rewrite H3. apply Z.mod_small. change (16 ^ Z.of_nat 8) with (2 ^ 32). lia.
Qed.

(** ** Lines *)
Lemma rstrip_id l c : is_space c = false -> rstrip (l ++ [c]) = l ++ [c].
Proof.
  intros H. unfold rstrip. rewrite rev_app_distr. cbn [rev app]. rewrite lstrip_stop by exact H.
  cbn [rev]. now rewrite rev_involutive.
Qed.

Lemma rstrip_last l : l <> [] -> is_space (last l "0"%char) = false -> rstrip l = l.
Proof.
  intros Hn H. rewrite (app_removelast_last "0"%char Hn) at 1. rewrite rstrip_id by exact H.
  symmetry. now apply app_removelast_last.
Qed.

Lemma last_app_ne {A} (a b : list A) d : b <> [] -> last (a ++ b) d = last b d.
Proof.
  intros H. induction a as [|x a IH]; [reflexivity|]. cbn. rewrite IH.
  destruct (a ++ b) eqn:E; [|reflexivity]. apply app_eq_nil in E as [_ ->]. congruence.
Qed.

Lemma last_Forall {A} (P : A -> Prop) l d : l <> [] -> Forall P l -> P (last l d).
Proof.
  intros Hn H. induction H as [|x l Hx H IH]; [congruence|]. destruct l as [|y l]; [exact Hx|].
  apply IH. discriminate.
Qed.

Lemma numeral_number n : 0 <= n -> number (dec n) n.
Proof. intros H. destruct (dec_numeral n H) as (H1 & H2 & H3 & _). now repeat split. Qed.

Lemma str_to_int_dec n : 0 <= n -> str_to_int (dec n) = Ok n.
Proof.
  intros H. unfold str_to_int. pose proof (py_int0_num [] (dec n) n [] (dec_numeral n H)) as E.
  rewrite app_nil_r in E. cbn [app] in E. rewrite E by constructor. reflexivity.
Qed.

Definition sec_ok (s : dsection) : Prop :=
  0 <= ds_inst s /\ ds_where s <> [] /\ Forall is_hex (ds_where s) /\ ds_rows s <> [] /\ Forall row_ok (ds_rows s).

Lemma nohex_space : ~ is_hex " "%char.
Proof. unfold is_hex. cbn. lia. Qed.

Lemma match_head_show s : sec_ok s -> match_head (show_head s) = Some (dec (ds_inst s)).
Proof.
  intros (Hi & Hw & Hx & _). unfold match_head, show_head. rewrite lit_app.
  rewrite (digits1_app (dec (ds_inst s)) (ds_inst s)).
  2: now apply numeral_number.
  2:{ intros c t E. cbn in E. injection E as <- _. unfold is_digit. cbn. lia. }
  rewrite lit_app. pose proof (hex1_app (ds_where s) [] Hw Hx) as E. rewrite app_nil_r in E.
  rewrite E by discriminate. reflexivity.
Qed.

Lemma rstrip_head s : sec_ok s -> rstrip (show_head s) = show_head s.
Proof.
  intros (Hi & Hw & Hx & _). apply rstrip_last.
  - unfold show_head. cbn. discriminate.
  - unfold show_head. rewrite !app_assoc. rewrite last_app_ne by exact Hw.
    apply hex_nospace. now apply last_Forall.
Qed.

Lemma join_cons sep w ws : ws <> [] -> join sep (w :: ws) = w ++ sep :: join sep ws.
Proof. destruct ws; [congruence|reflexivity]. Qed.

Lemma join_ne sep ws : ws <> [] -> Forall (fun w => length w = 8%nat /\ Forall is_hex w) ws -> join sep ws <> [].
Proof.
  intros Hn H. destruct ws as [|w ws]; [congruence|]. inversion H as [|? ? [Hw _] _]; subst.
  destruct w; [discriminate|]. destruct ws; cbn; discriminate.
Qed.

Lemma join_last sep ws d : ws <> [] -> Forall (fun w => length w = 8%nat /\ Forall is_hex w) ws ->
  is_hex (last (join sep ws) d).
Proof.
  intros Hn H. induction H as [|w ws [Hw Hx] H IH]; [congruence|].
  destruct ws as [|w' ws].
  - cbn. apply last_Forall; [|exact Hx]. now destruct w.
  - rewrite join_cons by discriminate. rewrite last_app_ne by discriminate.
    change (sep :: join sep (w' :: ws)) with ([sep] ++ join sep (w' :: ws)).
    rewrite last_app_ne; [apply IH; discriminate|]. apply join_ne; [discriminate|exact H].
Qed.

Lemma rstrip_row r : row_ok r -> rstrip (show_row r) = show_row r.
Proof.
  intros (Ha & Hx & Hn & Hw). apply rstrip_last; [discriminate|]. unfold show_row.
  match goal with |- context [last (?c :: dr_at r ++ ?e :: " "%char :: ?j)] =>
    replace (c :: dr_at r ++ e :: " "%char :: j) with ((c :: dr_at r ++ [e; " "%char]) ++ j)
      by (cbn; now rewrite <- app_assoc) end.
  rewrite last_app_ne by now apply join_ne. apply hex_nospace. now apply join_last.
Qed.

Lemma match_head_row r : match_head (show_row r) = None.
Proof.
  unfold match_head, show_row. destruct (dr_old r); reflexivity.
Qed.

Lemma match_row_show r : row_ok r -> match_row (show_row r) = Some (dr_at r, join " " (dr_words r)).
Proof.
  intros (Ha & Hx & Hn & Hw). unfold match_row, show_row. destruct (dr_old r); cbn [Ascii.eqb orb Bool.eqb].
  - change (Ascii.eqb "[" " " || Ascii.eqb "[" "[")%bool with true. cbv iota.
    rewrite (hex1_app (dr_at r)); [reflexivity|assumption|assumption|].
    intros c t [= <- _]. unfold is_hex. cbn. lia.
  - change (Ascii.eqb " " " " || Ascii.eqb " " "[")%bool with true. cbv iota.
    rewrite (hex1_app (dr_at r)); [reflexivity|assumption|assumption|].
    intros c t [= <- _]. unfold is_hex. cbn. lia.
Qed.

Lemma hex_nochar c s : ~ is_hex c -> Forall is_hex s -> has_char c s = false.
Proof.
  intros Hc H. apply has_char_false. intros Hi. rewrite Forall_forall in H. apply Hc. auto.
Qed.

Lemma strip_hex w : w <> [] -> Forall is_hex w -> strip w = w.
Proof.
  intros Hn H. unfold strip, strip_by. destruct w as [|c w]; [congruence|]. pose proof H as H'. inversion H; subst.
  rewrite lstrip_stop by now apply hex_nospace.
  pose proof (rstrip_last (c :: w) ltac:(discriminate)) as R. unfold rstrip in R. apply R.
  apply hex_nospace. apply last_Forall; [discriminate|exact H'].
Qed.

Lemma split_words ws : ws <> [] -> Forall (fun w => length w = 8%nat /\ Forall is_hex w) ws ->
  split_csv_line " " false false (join " " ws) = ws.
Proof.
  intros Hn H. rewrite split_csv_toks. rewrite toks_join.
  clear Hn. induction H as [|w ws [Hw Hx] H IH]; [reflexivity|]. cbn [flat_map].
  assert (E : toks " " w = [w]).
  { unfold toks. rewrite split_on_none by (apply hex_nochar; [exact nohex_space|exact Hx]).
    destruct w; [discriminate|reflexivity]. }
  rewrite E. cbn [app map]. rewrite strip_hex; [|now destruct w|exact Hx]. f_equal. exact IH.
Qed.
