(** Lemmas about the number-list text helpers. *)
From Verif Require Import Base L_Base M_Text S_Text.
From Coq Require Import ZifyBool Permutation Sorted.

(** ** Strings *)
Lemma str_eqb_eq a b : str_eqb a b = true <-> a = b.
Proof. unfold str_eqb. destruct (list_eq_dec ascii_dec a b); split; congruence. Qed.

Lemma aeqb_eq a b : Ascii.eqb a b = true <-> a = b.
Proof. apply Ascii.eqb_eq. Qed.

Lemma split_on_app sep a b : split_on sep (a ++ sep :: b) = split_on sep a ++ split_on sep b.
Proof.
  induction a as [|c t IH]; cbn [split_on app].
  - now rewrite Ascii.eqb_refl.
  - destruct (Ascii.eqb sep c) eqn:E.
    + now rewrite IH.
    + rewrite IH. assert (Hn : split_on sep t <> []).
      { clear. destruct t as [|x t]; cbn; [congruence|].
        destruct (Ascii.eqb sep x); [congruence|]. destruct (split_on sep t); congruence. }
      destruct (split_on sep t) as [|w ws]; [congruence|reflexivity].
Qed.

Lemma split_on_none sep a : has_char sep a = false -> split_on sep a = [a].
Proof.
  unfold has_char.
  induction a as [|c t IH]; cbn [split_on existsb]; [reflexivity|].
  intros H. apply orb_false_iff in H as [H1 H2]. rewrite H1, IH by exact H2. reflexivity.
Qed.

Lemma split_join sep ws : ws <> [] ->
  split_on sep (join sep ws) = flat_map (split_on sep) ws.
Proof.
  induction ws as [|w ws IH]; [congruence|]. intros _. destruct ws as [|w' ws].
  - cbn [join flat_map]. now rewrite app_nil_r.
  - change (join sep (w :: w' :: ws)) with (w ++ sep :: join sep (w' :: ws)).
    rewrite split_on_app, IH by congruence. reflexivity.
Qed.

Lemma has_char_app c a b : has_char c (a ++ b) = (has_char c a || has_char c b)%bool.
Proof. apply existsb_app. Qed.

Lemma has_char_false c a : has_char c a = false <-> ~ In c a.
Proof.
  unfold has_char. split.
  - intros H Hi. assert (existsb (Ascii.eqb c) a = true); [|congruence].
    apply existsb_exists. exists c. split; [exact Hi|apply Ascii.eqb_refl].
  - intros H. destruct (existsb (Ascii.eqb c) a) eqn:E; [|reflexivity].
    apply existsb_exists in E as (x & Hx & Hc). apply Ascii.eqb_eq in Hc. now subst.
Qed.

(** Empty values do not count. *)
Definition toks (sep : ascii) (l : str) : list str := filter nonemptyb (split_on sep l).

Lemma toks_lstrip sep l : toks sep (lstrip_by (Ascii.eqb sep) l) = toks sep l.
Proof.
  induction l as [|c t IH]; [reflexivity|]. cbn [lstrip_by].
  destruct (Ascii.eqb sep c) eqn:E; [|reflexivity].
  rewrite IH. unfold toks. cbn [split_on]. now rewrite E.
Qed.

Lemma toks_app sep a b : toks sep (a ++ sep :: b) = toks sep a ++ toks sep b.
Proof. unfold toks. now rewrite split_on_app, filter_app. Qed.

Lemma rstrip_decomp p l : exists t, l = rev (lstrip_by p (rev l)) ++ t /\ forallb p t = true.
Proof.
  induction l as [|c l IH] using rev_ind; [now exists []|].
  rewrite rev_app_distr. cbn [rev app lstrip_by]. destruct (p c) eqn:E.
  - destruct IH as (t & Et & Ht). exists (t ++ [c]). rewrite app_assoc, <- Et. split; [reflexivity|].
    rewrite forallb_app, Ht. cbn. now rewrite E.
  - exists []. cbn [rev]. rewrite rev_involutive. now rewrite app_nil_r.
Qed.

Lemma toks_rstrip sep l : toks sep (rev (lstrip_by (Ascii.eqb sep) (rev l))) = toks sep l.
Proof.
  destruct (rstrip_decomp (Ascii.eqb sep) l) as (t & Et & Ht).
  rewrite Et at 2. generalize (rev (lstrip_by (Ascii.eqb sep) (rev l))) as a. intros a.
  revert Ht. clear. revert a. induction t as [|c t IH]; intros a Ht; [now rewrite app_nil_r|].
  cbn in Ht. apply andb_true_iff in Ht as [Hc Ht]. apply Ascii.eqb_eq in Hc. subst c.
  rewrite toks_app. specialize (IH [] Ht). cbn [app] in IH. rewrite <- IH. cbn.
  now rewrite app_nil_r.
Qed.

Lemma toks_strip sep l : toks sep (strip_char sep l) = toks sep l.
Proof. unfold strip_char, strip_by. now rewrite toks_rstrip, toks_lstrip. Qed.

Lemma split_csv_toks sep dd l :
  split_csv_line sep dd false l =
  let r := map strip (toks sep l) in if dd then list_dedup str_eqb r else r.
Proof.
  unfold split_csv_line. rewrite <- (toks_strip sep l). unfold toks.
  assert (E : flat_map (fun val => match val with [] => [] | _ => [strip val] end)
                       (split_on sep (strip_char sep l)) =
              map strip (filter nonemptyb (split_on sep (strip_char sep l)))).
  { induction (split_on sep (strip_char sep l)) as [|w ws IH]; [reflexivity|].
    cbn. destruct w; cbn; now rewrite IH. }
  cbn. cbn in E. now rewrite E.
Qed.

Lemma toks_join sep ws : toks sep (join sep ws) = flat_map (toks sep) ws.
Proof.
  destruct ws as [|w ws]; [reflexivity|]. unfold toks at 1. rewrite split_join by congruence.
  induction (w :: ws) as [|x xs IH]; [reflexivity|]. cbn [flat_map]. rewrite filter_app, IH. reflexivity.
Qed.

Lemma commas_join l : commas l = join "," l.
Proof.
  induction l as [|w ws IH]; [reflexivity|]. destruct ws as [|w' ws]; [reflexivity|].
  change (commas (w :: w' :: ws)) with (w ++ ","%char :: commas (w' :: ws)). now rewrite IH.
Qed.

(** ** Stripping *)
Lemma lstrip_all p b l : forallb p b = true -> lstrip_by p (b ++ l) = lstrip_by p l.
Proof.
  induction b as [|c t IH]; [reflexivity|]. cbn. intros H. apply andb_true_iff in H as [Hc H].
  now rewrite Hc, IH.
Qed.

Lemma lstrip_stop p c l : p c = false -> lstrip_by p (c :: l) = c :: l.
Proof. intros H. cbn. now rewrite H. Qed.

Lemma forallb_rev {A} (p : A -> bool) l : forallb p (rev l) = forallb p l.
Proof.
  induction l as [|x t IH]; [reflexivity|]. cbn. rewrite forallb_app, IH. cbn.
  destruct (p x), (forallb p t); reflexivity.
Qed.

Lemma strip_mid p b1 m b2 :
  m <> [] -> p (hd "0"%char m) = false -> p (last m "0"%char) = false ->
  forallb p b1 = true -> forallb p b2 = true ->
  strip_by p (b1 ++ m ++ b2) = m.
Proof.
  intros Hm Hh Hl H1 H2. unfold strip_by. rewrite lstrip_all by exact H1.
  destruct m as [|c m]; [congruence|]. cbn [app hd] in *. rewrite lstrip_stop by exact Hh.
  change (c :: m ++ b2) with ((c :: m) ++ b2). rewrite rev_app_distr.
  rewrite lstrip_all by (now rewrite forallb_rev).
  destruct (@exists_last _ (c :: m)) as (i & x & Ex); [congruence|].
  rewrite Ex in *. rewrite last_last in Hl. rewrite rev_app_distr. cbn [rev app].
  rewrite lstrip_stop by exact Hl. cbn [rev]. now rewrite rev_involutive.
Qed.

(** ** Digits *)
Lemma digit_dec_val c : is_digit c -> digit_val c = Some (Z.of_nat (nat_of_ascii c) - 48).
Proof.
  unfold is_digit, digit_val. intros H.
  destruct (48 <=? Z.of_nat (nat_of_ascii c)) eqn:E1; [|lia].
  destruct (Z.of_nat (nat_of_ascii c) <=? 57) eqn:E2; [reflexivity|lia].
Qed.

Lemma digit_not c k : is_digit c -> ((nat_of_ascii k < 48) \/ (57 < nat_of_ascii k))%nat -> Ascii.eqb c k = false.
Proof.
  intros H Hk. apply Ascii.eqb_neq. intros ->. unfold is_digit in H. lia.
Qed.

Lemma digit_not' c k : is_digit c -> ((nat_of_ascii k < 48) \/ (57 < nat_of_ascii k))%nat -> Ascii.eqb k c = false.
Proof. intros. rewrite Ascii.eqb_sym. now apply digit_not. Qed.

Lemma digit_nospace c : is_digit c -> is_space c = false.
Proof. unfold is_digit, is_space. intros. lia. Qed.
Lemma digit_nocspace c : is_digit c -> is_cspace c = false.
Proof. unfold is_digit, is_cspace. intros. lia. Qed.

Lemma blanks_space b : blanks b -> forallb is_space b = true.
Proof.
  unfold blanks. rewrite Forall_forall, forallb_forall. intros H c Hc.
  destruct (H c Hc) as [E|E]; subst; reflexivity.
Qed.
Lemma blanks_cspace b : blanks b -> forallb is_cspace b = true.
Proof.
  unfold blanks. rewrite Forall_forall, forallb_forall. intros H c Hc.
  destruct (H c Hc) as [E|E]; subst; reflexivity.
Qed.
Lemma blanks_nochar b c : blanks b -> c <> " "%char -> c <> "009"%char -> has_char c b = false.
Proof.
  unfold blanks. rewrite Forall_forall. intros H H1 H2. apply has_char_false. intros Hi.
  destruct (H c Hi); congruence.
Qed.
Lemma digits_nochar s c : Forall is_digit s -> ~ is_digit c -> has_char c s = false.
Proof. rewrite Forall_forall. intros H Hc. apply has_char_false. intros Hi. now apply Hc, H. Qed.

(** The scanner reads exactly the digits. *)
Lemma scan_digits_num s rest : Forall is_digit s -> forall v,
  scan_digits 10 (s ++ rest) false v =
  scan_digits 10 rest false (fold_left (fun v c => 10 * v + (Z.of_nat (nat_of_ascii c) - 48)) s v).
Proof.
  induction s as [|c t IH]; intros H v; [reflexivity|].
  inversion H as [|c' t' Hc Ht]; subst. cbn [app scan_digits fold_left].
  rewrite (digit_not c "_") by (auto; vm_compute; lia).
  rewrite digit_dec_val by exact Hc.
  destruct (Z.of_nat (nat_of_ascii c) - 48 <? 10) eqn:E; [|unfold is_digit in Hc; lia].
  rewrite IH by exact Ht. f_equal. f_equal. lia.
Qed.

Lemma scan_blanks b v : blanks b -> scan_digits 10 b false v = Some (v, b).
Proof.
  intros H. destruct b as [|c t]; [reflexivity|]. inversion H as [|c' t' Hc Ht]; subst.
  destruct Hc; subst c; reflexivity.
Qed.

Lemma int_digits_num s n b : numeral s n -> blanks b -> int_digits 10 (s ++ b) = Some n.
Proof.
  intros (Hne & Hd & Hv & _) Hb. destruct s as [|c t]; [congruence|].
  unfold int_digits. cbn [app].
  inversion Hd as [|c' t' Hc Ht]; subst. rewrite digit_dec_val by exact Hc.
  destruct (Z.of_nat (nat_of_ascii c) - 48 <? 10) eqn:E; [|unfold is_digit in Hc; lia].
  change (c :: t ++ b) with ((c :: t) ++ b). rewrite scan_digits_num by exact Hd.
  rewrite scan_blanks by exact Hb. rewrite blanks_cspace by exact Hb. reflexivity.
Qed.

Lemma int_base0_num s n b : numeral s n -> blanks b -> int_base0 (s ++ b) = Some n.
Proof.
  intros Hn Hb. pose proof (int_digits_num s n b Hn Hb) as Hi.
  destruct Hn as (Hne & Hd & Hv & Hz). destruct s as [|c t]; [congruence|].
  unfold int_base0. cbn [app]. destruct (Ascii.eqb c "0") eqn:E; [|exact Hi].
  apply Ascii.eqb_eq in E. subst c. specialize (Hz eq_refl). injection Hz as ->. cbn [app] in *.
  destruct b as [|x b]; [exact Hi|]. inversion Hb as [|x' b' Hx Hb']; subst.
  assert (spelled ["0"%char] = 0) as E0 by reflexivity. rewrite E0 in *.
  rewrite Hi. destruct Hx; subst x; reflexivity.
Qed.

Lemma py_int0_num b1 s n b2 : numeral s n -> blanks b1 -> blanks b2 ->
  py_int0 (b1 ++ s ++ b2) = Some n.
Proof.
  intros Hn H1 H2. unfold py_int0. rewrite lstrip_all by (now apply blanks_cspace).
  pose proof (int_base0_num s n b2 Hn H2) as Hi.
  destruct Hn as (Hne & Hd & Hv & Hz). destruct s as [|c t]; [congruence|].
  inversion Hd as [|c' t' Hc Ht]; subst. cbn [app] in *.
  rewrite lstrip_stop by (now apply digit_nocspace).
  rewrite (digit_not c "+"), (digit_not c "-") by (auto; vm_compute; lia). exact Hi.
Qed.

Lemma numeral_nonneg s n : numeral s n -> 0 <= n.
Proof.
  intros (_ & Hd & <- & _). unfold spelled.
  assert (G : forall v, 0 <= v ->
    0 <= fold_left (fun v c => 10 * v + (Z.of_nat (nat_of_ascii c) - 48)) s v).
  { induction s as [|c t IH]; intros v Hv; [exact Hv|]. inversion Hd as [|c' t' Hc Ht]; subst.
    cbn [fold_left]. apply IH; [exact Ht|]. unfold is_digit in Hc. lia. }
  apply G; lia.
Qed.

(** ** str() of an integer is its numeral *)
Lemma digit_char_code d : 0 <= d < 10 -> Z.of_nat (nat_of_ascii (digit_char d)) = 48 + d.
Proof.
  intros H. unfold digit_char. rewrite nat_ascii_embedding; lia.
Qed.

Lemma digit_char_is d : 0 <= d < 10 -> is_digit (digit_char d).
Proof. intros H. pose proof (digit_char_code d H). unfold is_digit. lia. Qed.

Lemma spelled_app s c : spelled (s ++ [c]) = 10 * spelled s + (Z.of_nat (nat_of_ascii c) - 48).
Proof. unfold spelled. now rewrite fold_left_app. Qed.

Lemma dec_digits_spec fuel : forall n acc, 0 <= n < 2 ^ Z.of_nat fuel -> (0 < fuel)%nat ->
  exists s, dec_digits fuel n acc = s ++ acc /\ numeral s n.
Proof.
  induction fuel as [|f IH]; intros n acc Hn Hf; [lia|].
  cbn [dec_digits]. pose proof (Z.mod_pos_bound n 10 ltac:(lia)) as Hm.
  pose proof (Z_div_mod_eq_full n 10) as Hdm.
  pose proof (digit_char_code _ Hm) as Hcode.
  destruct (n / 10 =? 0) eqn:E.
  - exists [digit_char (n mod 10)]. split; [reflexivity|]. repeat split.
    + congruence.
    + constructor; [now apply digit_char_is|constructor].
    + unfold spelled. cbn [fold_left]. lia.
    + cbn. congruence.
  - assert (Hf' : (0 < f)%nat) by (destruct f; [cbn in Hn; lia|lia]).
    assert (Hn' : 0 <= n / 10 < 2 ^ Z.of_nat f).
    { rewrite Nat2Z.inj_succ, Z.pow_succ_r in Hn by lia. lia. }
    destruct (IH (n / 10) (digit_char (n mod 10) :: acc) Hn' Hf') as (s & Es & Hne & Hd & Hv & Hz).
    exists (s ++ [digit_char (n mod 10)]). split; [rewrite Es, <- app_assoc; reflexivity|].
    repeat split.
    + destruct s; cbn; congruence.
    + apply Forall_app. split; [exact Hd|]. constructor; [now apply digit_char_is|constructor].
    + rewrite spelled_app, Hv. lia.
    + destruct s as [|c s]; [congruence|]. cbn [app hd]. intros ->. specialize (Hz eq_refl).
      injection Hz as ->. exfalso. unfold spelled in Hv. cbn in Hv. lia.
Qed.

Lemma dec_numeral n : 0 <= n -> numeral (dec n) n.
Proof.
  intros H. unfold dec. destruct (n <? 0) eqn:E; [lia|]. unfold dec_nat.
  destruct (dec_digits_spec (S (Z.to_nat (Z.log2 n))) n []) as (s & Es & Hs).
  - rewrite Nat2Z.inj_succ, Z2Nat.id by apply Z.log2_nonneg. split; [exact H|].
    destruct (Z.eq_dec n 0) as [->|Hn]; [cbn; lia|]. apply Z.log2_spec; lia.
  - lia.
  - rewrite Es, app_nil_r. exact Hs.
Qed.

(** ** One item *)
Lemma count_up_zrange_gen k : forall a j,
  map (fun i => a + Z.of_nat i) (seq j k) = count_up (a + Z.of_nat j) k.
Proof.
  induction k as [|k IH]; intros a j; [reflexivity|]. cbn [seq map count_up]. f_equal.
  rewrite IH. f_equal. lia.
Qed.

Lemma zrange_count_up a b : zrange a b = count_up a (Z.to_nat (b - a + 1)).
Proof. unfold zrange. rewrite count_up_zrange_gen. f_equal. cbn. lia. Qed.

Lemma nodigit c : ((nat_of_ascii c < 48) \/ (57 < nat_of_ascii c))%nat -> ~ is_digit c.
Proof. unfold is_digit. lia. Qed.

Lemma numeral_hd s n : numeral s n -> is_digit (hd "0"%char s).
Proof. intros (Hne & Hd & _). destruct s; [congruence|]. now inversion Hd. Qed.

Lemma numeral_last s n : numeral s n -> is_digit (last s "0"%char).
Proof.
  intros (Hne & Hd & _). destruct (@exists_last _ s Hne) as (i & x & ->). rewrite last_last.
  apply Forall_app in Hd as [_ Hd]. now inversion Hd.
Qed.

Lemma strip_written_num b1 s n b2 : numeral s n -> blanks b1 -> blanks b2 ->
  strip (b1 ++ s ++ b2) = s.
Proof.
  intros Hn H1 H2. apply strip_mid.
  - apply Hn.
  - eapply digit_nospace, numeral_hd; eassumption.
  - eapply digit_nospace, numeral_last; eassumption.
  - now apply blanks_space.
  - now apply blanks_space.
Qed.

Lemma parse_item_num s n : numeral s n -> parse_item s = Ok [n].
Proof.
  intros Hn. unfold parse_item.
  rewrite (digits_nochar s "-") by (try apply Hn; apply nodigit; vm_compute; lia).
  unfold str_to_int. pose proof (py_int0_num [] s n [] Hn) as H. cbn [app] in H.
  rewrite app_nil_r in H. rewrite H by constructor. reflexivity.
Qed.

Lemma strip_written_range b1 s a b2 b3 t b b4 : numeral s a -> numeral t b ->
  blanks b1 -> blanks b4 ->
  strip (b1 ++ s ++ b2 ++ "-"%char :: b3 ++ t ++ b4) = s ++ b2 ++ "-"%char :: b3 ++ t.
Proof.
  intros Hs Ht H1 H4.
  replace (s ++ b2 ++ "-"%char :: b3 ++ t ++ b4) with ((s ++ b2 ++ "-"%char :: b3 ++ t) ++ b4)
    by (repeat (rewrite <- app_assoc; cbn [app]); reflexivity).
  apply strip_mid.
  - destruct s; [now destruct Hs|]; cbn; congruence.
  - destruct s as [|c s]; [now destruct Hs|]. cbn [app hd]. apply digit_nospace.
    eapply (numeral_hd (c :: s)); eassumption.
  - destruct (@exists_last _ t (proj1 Ht)) as (i & x & Et). subst t.
    replace (s ++ b2 ++ "-"%char :: b3 ++ i ++ [x]) with ((s ++ b2 ++ "-"%char :: b3 ++ i) ++ [x])
      by (repeat (rewrite <- app_assoc; cbn [app]); reflexivity).
    rewrite last_last. apply digit_nospace. pose proof (numeral_last _ _ Ht) as H.
    now rewrite last_last in H.
  - now apply blanks_space.
  - now apply blanks_space.
Qed.

Lemma parse_item_range s a b2 b3 t b : numeral s a -> numeral t b -> blanks b2 -> blanks b3 ->
  parse_item (s ++ b2 ++ "-"%char :: b3 ++ t) =
  if b <? a then Exn EBadFormat else Ok (meaning (IRange a b)).
Proof.
  intros Hs Ht H2 H3. unfold parse_item.
  assert (Nd : ~ is_digit "-") by (apply nodigit; vm_compute; lia).
  replace (has_char "-" (s ++ b2 ++ "-"%char :: b3 ++ t)) with true.
  2:{ rewrite !has_char_app. cbn. now rewrite !orb_true_r. }
  rewrite app_assoc, split_on_app.
  rewrite !split_on_none.
  2:{ rewrite has_char_app, (digits_nochar t "-"), (blanks_nochar b3 "-"); auto; try congruence.
      apply Ht. }
  2:{ rewrite has_char_app, (digits_nochar s "-"), (blanks_nochar b2 "-"); auto; try congruence.
      apply Hs. }
  assert (E1 : nonemptyb (s ++ b2) = true) by (destruct s; [now destruct Hs|reflexivity]).
  assert (E2 : nonemptyb (b3 ++ t) = true).
  { destruct b3; [|reflexivity]. destruct t; [now destruct Ht|reflexivity]. }
  cbn [app filter]. rewrite E1, E2. unfold str_to_int.
  pose proof (py_int0_num [] s a b2 Hs ltac:(constructor) H2) as P1. cbn [app] in P1. rewrite P1.
  pose proof (py_int0_num b3 t b [] Ht H3 ltac:(constructor)) as P2. rewrite app_nil_r in P2.
  rewrite P2. cbn. destruct (b <? a); [reflexivity|]. now rewrite zrange_count_up.
Qed.

(** What a written item turns into. *)
Definition item_result (i : item) : res (list Z) :=
  match i with
  | IRange a b => if b <? a then Exn EBadFormat else Ok (meaning i)
  | _ => Ok (meaning i)
  end.

Lemma written_nocomma i s : written i s -> has_char "," s = false.
Proof.
  assert (Nd : ~ is_digit ",") by (apply nodigit; vm_compute; lia).
  intros [n s' b1 b2 Hn H1 H2|a b s' t b1 b2 b3 b4 Hs Ht H1 H2 H3 H4|]; [| |reflexivity].
  - rewrite !has_char_app, (digits_nochar s' ","), !(blanks_nochar _ ","); auto; try congruence.
    apply Hn.
  - rewrite !has_char_app. cbn [has_char existsb]. fold (has_char "," (b3 ++ t ++ b4)).
    rewrite !has_char_app, (digits_nochar s' ","), (digits_nochar t ","), !(blanks_nochar _ ",");
      auto; try congruence; [apply Ht|apply Hs].
Qed.

Lemma written_toks i s : written i s ->
  match i with IEmpty => toks "," s = [] | _ => toks "," s = [s] end.
Proof.
  intros H. pose proof (written_nocomma i s H) as Hc. unfold toks. rewrite split_on_none by exact Hc.
  destruct H as [n s' b1 b2 Hn H1 H2|a b s' t b1 b2 b3 b4 Hs Ht H1 H2 H3 H4|]; [| |reflexivity].
  - destruct b1; [|reflexivity]. destruct s'; [now destruct Hn|reflexivity].
  - destruct b1; [|reflexivity]. destruct s'; [now destruct Hs|reflexivity].
Qed.

Lemma written_parse i s : written i s -> i <> IEmpty -> parse_item (strip s) = item_result i.
Proof.
  intros [n s' b1 b2 Hn H1 H2|a b s' t b1 b2 b3 b4 Hs Ht H1 H2 H3 H4|] Hne; [| |congruence].
  - erewrite strip_written_num by eassumption. cbn. now apply parse_item_num.
  - erewrite strip_written_range by eassumption. now apply parse_item_range.
Qed.

Lemma parse_items its ts : Forall2 written its ts ->
  rmap (map strip (flat_map (toks ",") ts)) parse_item =
  rmap (filter (fun i => match i with IEmpty => false | _ => true end) its) item_result.
Proof.
  induction 1 as [|i s its ts Hw Hr IH]; [reflexivity|].
  cbn [flat_map filter]. pose proof (written_toks i s Hw) as Ht.
  pose proof (written_parse i s Hw) as Hp.
  destruct i; rewrite Ht; cbn [app map rmap]; rewrite ?Hp, ?IH by congruence; reflexivity.
Qed.

Lemma items_ok its : Forall (fun i => ~ descending i) its ->
  (let? ls := rmap (filter (fun i => match i with IEmpty => false | _ => true end) its) item_result
   in Ok (concat ls)) = Ok (flat_map meaning its).
Proof.
  induction 1 as [|i its Hi Hr IH]; [reflexivity|].
  cbn [filter flat_map].
  destruct i as [n|a b|]; [| |exact IH]; cbn [rmap item_result].
  - cbn [rbind]. destruct (rmap _ item_result) as [l|e]; cbn in *; congruence.
  - cbn in Hi. destruct (b <? a) eqn:E; [lia|]. cbn [rbind].
    destruct (rmap _ item_result) as [l|e]; cbn [rbind concat] in *; congruence.
Qed.

Lemma items_bad its : Exists descending its ->
  rmap (filter (fun i => match i with IEmpty => false | _ => true end) its) item_result
  = Exn EBadFormat.
Proof.
  assert (A : forall l, rmap (filter (fun i => match i with IEmpty => false | _ => true end) l)
                              item_result = Exn EBadFormat \/
              exists r, rmap (filter (fun i => match i with IEmpty => false | _ => true end) l)
                              item_result = Ok r).
  { induction l as [|i l IH]; [right; now exists []|]. cbn [filter].
    destruct i as [n|a b|]; [| |exact IH]; cbn [rmap item_result];
      [|destruct (b <? a); [now left|]];
      (destruct IH as [IH|[r IH]]; rewrite IH; cbn; [now left|right; now eexists]). }
  intros H. induction H as [i its Hi|i its Hi IH]; cbn [filter].
  - destruct i as [n|a b|]; cbn in Hi; try tauto. cbn [rmap item_result].
    destruct (b <? a) eqn:E; [reflexivity|lia].
  - destruct i as [n|a b|]; [| |exact IH]; cbn [rmap item_result];
      [|destruct (b <? a); [reflexivity|]]; rewrite IH; reflexivity.
Qed.

(** Any way of cutting the list into strings. *)
Lemma toks_chunks (chunks : list (list str)) :
  toks "," (join "," (map commas chunks)) = flat_map (toks ",") (concat chunks).
Proof.
  rewrite toks_join. induction chunks as [|c cs IH]; [reflexivity|].
  cbn [map flat_map concat]. rewrite flat_map_app, IH, commas_join, toks_join. reflexivity.
Qed.

Lemma parse_chunks_ok chunks its :
  Forall2 written its (concat chunks) -> Forall (fun i => ~ descending i) its ->
  parse_int_list "," false (map (fun c => NStr (commas c)) chunks) = Ok (flat_map meaning its).
Proof.
  intros Hw Hd. unfold parse_int_list, split_csv_line_int.
  rewrite map_map. cbn [nstr]. rewrite split_csv_toks. cbn.
  rewrite toks_chunks, (parse_items its) by exact Hw. now apply items_ok.
Qed.

Lemma parse_chunks_bad chunks its :
  Forall2 written its (concat chunks) -> Exists descending its ->
  parse_int_list "," false (map (fun c => NStr (commas c)) chunks) = Exn EBadFormat.
Proof.
  intros Hw Hd. unfold parse_int_list, split_csv_line_int.
  rewrite map_map. cbn [nstr]. rewrite split_csv_toks. cbn.
  rewrite toks_chunks, (parse_items its) by exact Hw. now rewrite items_bad.
Qed.

(** ** Removal of duplicates *)
Lemma rmap_In {A B} (f : A -> res B) l r : rmap l f = Ok r ->
  forall y, In y r <-> exists x, In x l /\ f x = Ok y.
Proof.
  revert r; induction l as [|x t IH]; intros r H y.
  - injection H as <-. cbn. split; [tauto|]. intros (x & [] & _).
  - cbn in H. destruct (f x) as [z|] eqn:E; [|discriminate]. cbn in H.
    destruct (rmap t f) as [zs|]; [|discriminate]. cbn in H. injection H as <-.
    cbn [In]. rewrite (IH zs eq_refl). split.
    + intros [->|(x' & Hx & Hf)]; [exists x|exists x']; auto.
    + intros (x' & [->|Hx] & Hf); [left; congruence|right; now exists x'].
Qed.

Lemma rmap_total {A B} (f : A -> res B) l : (forall x, In x l -> exists y, f x = Ok y) ->
  exists r, rmap l f = Ok r.
Proof.
  induction l as [|x t IH]; intros H; [now exists []|].
  destruct (H x (or_introl eq_refl)) as (y & Hy). destruct IH as (r & Hr); [intros; apply H; now right|].
  exists (y :: r). cbn. now rewrite Hy, Hr.
Qed.

Lemma str_eqb_spec (a b : str) : str_eqb a b = true <-> a = b.
Proof. apply str_eqb_eq. Qed.

Lemma toks_parse_total its ts : Forall2 written its ts -> Forall (fun i => ~ descending i) its ->
  forall w, In w (map strip (flat_map (toks ",") ts)) ->
  exists i, In i its /\ i <> IEmpty /\ parse_item w = Ok (meaning i).
Proof.
  intros Hw Hd w Hi. apply in_map_iff in Hi as (s & <- & Hs). apply in_flat_map in Hs as (x & Hx & Hs).
  revert Hd. induction Hw as [|i t its ts Hi Hr IH]; intros Hd; [destruct Hx|].
  inversion Hd as [|i' its' Hdi Hdr]; subst.
  destruct Hx as [E|Hx]; [subst t|].
  - exists i. split; [now left|]. pose proof (written_toks i x Hi) as Ht.
    destruct i as [n|a b|].
    + rewrite Ht in Hs. destruct Hs as [E|[]]; subst s. split; [congruence|].
      now rewrite (written_parse _ _ Hi) by congruence.
    + rewrite Ht in Hs. destruct Hs as [E|[]]; subst s. split; [congruence|].
      rewrite (written_parse _ _ Hi) by congruence. cbn. cbn in Hdi. destruct (b <? a) eqn:E; [lia|].
      reflexivity.
    + rewrite Ht in Hs. destruct Hs.
  - destruct (IH Hx Hdr) as (j & Hj & H). exists j. split; [now right|exact H].
Qed.

Lemma toks_parse_onto its ts : Forall2 written its ts -> Forall (fun i => ~ descending i) its ->
  forall i, In i its -> i <> IEmpty ->
  exists w, In w (map strip (flat_map (toks ",") ts)) /\ parse_item w = Ok (meaning i).
Proof.
  intros Hw. induction Hw as [|j t its ts Hj Hr IH]; intros Hd i Hi Hne; [destruct Hi|].
  inversion Hd as [|j' its' Hdj Hdr]; subst. destruct Hi as [E|Hi]; [subst j|].
  - exists (strip t). split.
    + apply in_map. cbn [flat_map]. apply in_app_iff. left. pose proof (written_toks i t Hj) as Ht.
      destruct i; [| |congruence]; rewrite Ht; now left.
    + rewrite (written_parse _ _ Hj) by exact Hne. destruct i as [n|a b|]; [reflexivity| |congruence].
      cbn. cbn in Hdj. destruct (b <? a) eqn:E; [lia|reflexivity].
  - destruct (IH Hdr i Hi Hne) as (w & Hin & Hp). exists w. split; [|exact Hp].
    cbn [flat_map]. rewrite map_app. apply in_app_iff. now right.
Qed.

Lemma parse_dedup_members chunks its :
  Forall2 written its (concat chunks) -> Forall (fun i => ~ descending i) its ->
  exists r, parse_int_list "," true (map (fun c => NStr (commas c)) chunks) = Ok r /\
    forall n, In n r <-> In n (flat_map meaning its).
Proof.
  intros Hw Hd. unfold parse_int_list, split_csv_line_int.
  rewrite map_map. cbn [nstr]. rewrite split_csv_toks. cbn. rewrite toks_chunks.
  set (ws := map strip (flat_map (toks ",") (concat chunks))).
  destruct (rmap_total parse_item (list_dedup str_eqb ws)) as (r & Er).
  { intros w Hi. apply list_dedup_In in Hi; [|apply str_eqb_spec].
    destruct (toks_parse_total its _ Hw Hd w Hi) as (i & _ & _ & H). eauto. }
  exists (concat r). rewrite Er. split; [reflexivity|].
  intros n. rewrite in_concat, in_flat_map. split.
  - intros (l & Hl & Hn). rewrite (rmap_In _ _ _ Er) in Hl. destruct Hl as (w & Hi & Hp).
    apply list_dedup_In in Hi; [|apply str_eqb_spec].
    destruct (toks_parse_total its _ Hw Hd w Hi) as (i & Hii & _ & H).
    exists i. split; [exact Hii|]. congruence.
  - intros (i & Hi & Hn). destruct i as [m|a b|]; [| |destruct Hn].
    + destruct (toks_parse_onto its _ Hw Hd _ Hi) as (w & Hwi & Hp); [congruence|].
      exists (meaning (INum m)). split; [|exact Hn]. rewrite (rmap_In _ _ _ Er). exists w.
      split; [|exact Hp]. apply list_dedup_In; [apply str_eqb_spec|exact Hwi].
    + destruct (toks_parse_onto its _ Hw Hd _ Hi) as (w & Hwi & Hp); [congruence|].
      exists (meaning (IRange a b)). split; [|exact Hn]. rewrite (rmap_In _ _ _ Er). exists w.
      split; [|exact Hp]. apply list_dedup_In; [apply str_eqb_spec|exact Hwi].
Qed.

(** Numerals are unique. *)
Lemma spelled_digits_app s t : spelled (s ++ t) =
  fold_left (fun v c => 10 * v + (Z.of_nat (nat_of_ascii c) - 48)) t (spelled s).
Proof. unfold spelled. now rewrite fold_left_app. Qed.

Lemma spelled_nonneg s : Forall is_digit s -> 0 <= spelled s.
Proof.
  induction s as [|c s IH] using rev_ind; [cbn; lia|]. intros H. apply Forall_app in H as [H1 H2].
  rewrite spelled_app. specialize (IH H1). inversion H2 as [|x l Hc Hl]; subst. unfold is_digit in Hc. lia.
Qed.

Lemma ascii_code_inj c d : nat_of_ascii c = nat_of_ascii d -> c = d.
Proof. intros H. rewrite <- (ascii_nat_embedding c), <- (ascii_nat_embedding d). now rewrite H. Qed.

Lemma spelled_zero s : Forall is_digit s -> s <> [] -> hd "0"%char s <> "0"%char -> spelled s <> 0.
Proof.
  induction s as [|c s IH] using rev_ind; [congruence|]. intros H _ Hh.
  apply Forall_app in H as [H1 H2]. inversion H2 as [|x l Hc Hl]; subst. unfold is_digit in Hc.
  rewrite spelled_app. pose proof (spelled_nonneg s H1) as Hp. destruct s as [|d s].
  - cbn in Hh. cbn [spelled fold_left]. intros E. apply Hh. apply ascii_code_inj.
    change (nat_of_ascii "0") with 48%nat. unfold spelled in E. cbn [fold_left] in E. lia.
  - specialize (IH H1 ltac:(congruence)). cbn [app hd] in *. specialize (IH Hh). lia.
Qed.

Lemma numeral_unique_gen s : forall t, Forall is_digit s -> Forall is_digit t -> s <> [] -> t <> [] ->
  (hd "0"%char s = "0"%char -> s = ["0"%char]) -> (hd "0"%char t = "0"%char -> t = ["0"%char]) ->
  spelled s = spelled t -> s = t.
Proof.
  induction s as [|c s IH] using rev_ind; [congruence|]. intros t Hs Ht _ Htn Zs Zt E.
  destruct (@exists_last _ t Htn) as (t' & d & ->).
  apply Forall_app in Hs as [Hs Hc]. apply Forall_app in Ht as [Ht Hd].
  inversion Hc as [|? ? Hc' _]; subst. inversion Hd as [|? ? Hd' _]; subst.
  unfold is_digit in Hc', Hd'. rewrite !spelled_app in E.
  pose proof (spelled_nonneg s Hs). pose proof (spelled_nonneg t' Ht).
  assert (Ecd : c = d) by (apply ascii_code_inj; lia). subst d.
  assert (Est : spelled s = spelled t') by lia. f_equal.
  assert (Zs' : forall x y z, hd "0"%char ((x :: y) ++ [z]) = "0"%char ->
                (x :: y) ++ [z] = ["0"%char] -> False).
  { intros x y z _ K. destruct y; discriminate K. }
  destruct s as [|x s].
  - destruct t' as [|y t']; [reflexivity|]. exfalso.
    assert (spelled (y :: t') <> 0); [|cbn in Est; unfold spelled in *; cbn in *; lia].
    apply spelled_zero; [exact Ht|congruence|]. cbn [hd]. intros ->. eapply Zs'; [|apply Zt]; reflexivity.
  - destruct t' as [|y t'].
    + exfalso. assert (spelled (x :: s) <> 0); [|unfold spelled in *; cbn in *; lia].
      apply spelled_zero; [exact Hs|congruence|]. cbn [hd]. intros ->. eapply Zs'; [|apply Zs]; reflexivity.
    + apply IH; try congruence; try assumption.
      * cbn [hd app] in *. intros ->. exfalso. eapply Zs'; [|apply Zs]; reflexivity.
      * cbn [hd app] in *. intros ->. exfalso. eapply Zs'; [|apply Zt]; reflexivity.
Qed.

Lemma numeral_unique s t n : numeral s n -> numeral t n -> s = t.
Proof.
  intros (A1 & A2 & A3 & A4) (B1 & B2 & B3 & B4). apply numeral_unique_gen; auto. congruence.
Qed.

Lemma firsts_dedup l : forall seen,
  firsts seen l = filter (fun x => negb (inb x seen)) (dedup l).
Proof.
  unfold dedup. induction l as [|x t IH]; intros seen; [reflexivity|].
  cbn [firsts list_dedup filter]. destruct (in_dec Z.eq_dec x seen) as [Hi|Hi].
  - replace (inb x seen) with true by (symmetry; now apply inb_In). cbn [negb]. rewrite IH.
    clear IH. induction (list_dedup Z.eqb t) as [|y l IHl]; [reflexivity|].
    cbn [filter]. destruct (x =? y) eqn:E; cbn [negb filter].
    + assert (x = y) by lia. subst y. replace (inb x seen) with true by (symmetry; now apply inb_In).
      cbn [negb]. exact IHl.
    + destruct (inb y seen); cbn [negb]; [exact IHl|]. f_equal. exact IHl.
  - replace (inb x seen) with false by (symmetry; now apply inb_false). cbn [negb]. f_equal.
    rewrite IH. clear IH. induction (list_dedup Z.eqb t) as [|y l IHl]; [reflexivity|].
    cbn [filter inb existsb]. rewrite (Z.eqb_sym y x). destruct (x =? y) eqn:E; cbn [negb filter orb].
    + exact IHl.
    + fold (inb y seen). destruct (inb y seen); cbn [negb]; [exact IHl|]. f_equal. exact IHl.
Qed.

(** De-duplicating texts that correspond one to one to numbers. *)
Lemma dedup_images {A} (eqb : A -> A -> bool) (f : A -> Z -> Prop) ws ns :
  (forall x y, eqb x y = true <-> x = y) ->
  (forall a b n, f a n -> f b n -> a = b) -> (forall a n m, f a n -> f a m -> n = m) ->
  Forall2 f ws ns -> Forall2 f (list_dedup eqb ws) (dedup ns).
Proof.
  intros Heq Hinj Hfun. unfold dedup.
  induction 1 as [|a n ws ns Ha Hr IH]; [constructor|]. cbn [list_dedup]. constructor; [exact Ha|].
  clear Hr. induction IH as [|b m bs ms Hb Hr IH']; [constructor|]. cbn [filter].
  destruct (eqb a b) eqn:E1, (n =? m) eqn:E2; cbn [negb].
  - exact IH'.
  - apply Heq in E1. subst b. pose proof (Hfun _ _ _ Ha Hb). lia.
  - assert (n = m) by lia. subst m. pose proof (Hinj _ _ _ Ha Hb). subst b.
    assert (eqb a a = true) by now apply Heq. congruence.
  - constructor; assumption.
Qed.

Lemma plain_tokens its ts : Forall2 written its ts -> Forall plain its ->
  Forall2 numeral (map strip (flat_map (toks ",") ts)) (flat_map meaning its).
Proof.
  induction 1 as [|i t its ts Hi Hr IH]; intros Hp; [constructor|].
  inversion Hp as [|i' its' Hpi Hpr]; subst. specialize (IH Hpr).
  cbn [flat_map]. pose proof (written_toks i t Hi) as Ht.
  destruct i as [n|a b|]; [| destruct Hpi |]; rewrite Ht; cbn [app map meaning]; [|exact IH].
  constructor; [|exact IH]. inversion Hi as [n' s b1 b2 Hn H1 H2| |]; subst.
  now rewrite (strip_written_num b1 s n b2).
Qed.

Lemma rmap_numerals ws ns : Forall2 numeral ws ns ->
  (let? ls := rmap ws parse_item in Ok (concat ls)) = Ok ns.
Proof.
  induction 1 as [|w n ws ns Hw Hr IH]; [reflexivity|]. cbn [rmap].
  rewrite (parse_item_num w n Hw). cbn [rbind]. destruct (rmap ws parse_item) as [l|]; cbn in *; congruence.
Qed.

Lemma parse_dedup_plain chunks its :
  Forall2 written its (concat chunks) -> Forall plain its ->
  parse_int_list "," true (map (fun c => NStr (commas c)) chunks) =
  Ok (firsts [] (flat_map meaning its)).
Proof.
  intros Hw Hp. unfold parse_int_list, split_csv_line_int.
  rewrite map_map. cbn [nstr]. rewrite split_csv_toks. cbn -[rbind rmap]. rewrite toks_chunks.
  rewrite firsts_dedup.
  replace (filter (fun x => negb (inb x [])) (dedup (flat_map meaning its)))
    with (dedup (flat_map meaning its)).
  2:{ induction (dedup (flat_map meaning its)) as [|y l IH]; [reflexivity|]. cbn [filter inb existsb negb]. f_equal. exact IH. }
  apply rmap_numerals. apply (dedup_images str_eqb).
  - apply str_eqb_spec.
  - intros a b n Ha Hb. eapply numeral_unique; eassumption.
  - intros a n m (_ & _ & <- & _) (_ & _ & <- & _). reflexivity.
  - now apply plain_tokens.
Qed.

(** ** Negative numbers never come out *)
Lemma scan_nonneg base l : 0 <= base -> forall us acc v r, 0 <= acc ->
  scan_digits base l us acc = Some (v, r) -> 0 <= v.
Proof.
  intros Hb. induction l as [|c t IH]; intros us acc v r Ha H; cbn in H.
  - destruct us; [discriminate|]. injection H as <- <-. exact Ha.
  - destruct (Ascii.eqb c "_").
    { destruct us; [discriminate|]. eapply IH; eassumption. }
    assert (Hd : forall d, digit_val c = Some d -> 0 <= d).
    { unfold digit_val. intros d.
      destruct ((48 <=? _) && _) eqn:E1; [intros [= <-]; lia|].
      destruct ((97 <=? _) && _) eqn:E2; [intros [= <-]; lia|].
      destruct ((65 <=? _) && _) eqn:E3; [intros [= <-]; lia|discriminate]. }
    destruct (digit_val c) as [d|].
    + specialize (Hd d eq_refl). destruct (d <? base).
      * eapply IH; [|exact H]. nia.
      * destruct us; [discriminate|]. injection H as <- <-. exact Ha.
    + destruct us; [discriminate|]. injection H as <- <-. exact Ha.
Qed.

Lemma int_digits_nonneg base l v : 0 <= base -> int_digits base l = Some v -> 0 <= v.
Proof.
  intros Hb. unfold int_digits. destruct l as [|c t]; [discriminate|].
  destruct (digit_val c) as [d|]; [|discriminate]. destruct (d <? base); [|discriminate].
  destruct (scan_digits base (c :: t) false 0) as [[w r]|] eqn:E; [|discriminate].
  destruct (forallb is_cspace r); [|discriminate]. intros [= <-].
  eapply scan_nonneg; [exact Hb| |exact E]. lia.
Qed.

Lemma int_base0_nonneg l v : int_base0 l = Some v -> 0 <= v.
Proof.
  unfold int_base0. destruct l as [|c t]; [discriminate|].
  destruct (Ascii.eqb c "0"); [|apply int_digits_nonneg; lia].
  destruct t as [|x t]; [apply int_digits_nonneg; lia|].
  destruct (_ || _)%bool; [apply int_digits_nonneg; lia|].
  destruct (_ || _)%bool; [apply int_digits_nonneg; lia|].
  destruct (_ || _)%bool; [apply int_digits_nonneg; lia|].
  destruct (int_digits 10 _) as [w|] eqn:E; [|discriminate].
  destruct (w =? 0); [|discriminate]. intros [= <-]. eapply int_digits_nonneg; [|exact E]; lia.
Qed.

Lemma lstrip_In p c l : In c (lstrip_by p l) -> In c l.
Proof.
  induction l as [|x t IH]; [auto|]. cbn [lstrip_by]. destruct (p x); [right; auto|auto].
Qed.

Lemma py_int0_nonneg s v : has_char "-" s = false -> py_int0 s = Some v -> 0 <= v.
Proof.
  intros Hm. unfold py_int0. pose proof (fun c => lstrip_In is_cspace c s) as Hi.
  destruct (lstrip_by is_cspace s) as [|c t]; [discriminate|].
  destruct (Ascii.eqb c "+"); [apply int_base0_nonneg|].
  destruct (Ascii.eqb c "-") eqn:E; [|apply int_base0_nonneg].
  apply Ascii.eqb_eq in E. subst c. apply has_char_false in Hm. exfalso. apply Hm, Hi. now left.
Qed.

Lemma split_pieces sep l w : In w (split_on sep l) -> has_char sep w = false.
Proof.
  revert w. induction l as [|c t IH]; intros w; cbn [split_on].
  - intros [<-|[]]. reflexivity.
  - destruct (Ascii.eqb sep c) eqn:E.
    + intros [<-|H]; [reflexivity|auto].
    + destruct (split_on sep t) as [|x xs].
      * intros [<-|[]]. cbn. now rewrite E.
      * intros [<-|H]; [|apply IH; now right]. cbn [has_char existsb]. rewrite E. cbn.
        apply IH. now left.
Qed.

Lemma count_up_nonneg k : forall a, 0 <= a -> Forall (fun n => 0 <= n) (count_up a k).
Proof. induction k as [|k IH]; intros a Ha; constructor; [lia|]. apply IH. lia. Qed.

Lemma parse_item_nonneg w r : parse_item w = Ok r -> Forall (fun n => 0 <= n) r.
Proof.
  unfold parse_item, str_to_int. destruct (has_char "-" w) eqn:Hm.
  - pose proof (split_pieces "-" w) as Hp.
    destruct (filter nonemptyb (split_on "-" w)) as [|r0 [|r1 [|r2 rs]]] eqn:Ef; try discriminate.
    assert (H0 : In r0 (split_on "-" w)).
    { eapply proj1. apply (proj1 (filter_In nonemptyb r0 (split_on "-" w))). rewrite Ef. now left. }
    destruct (py_int0 r0) as [a|] eqn:Ea; [|discriminate].
    destruct (py_int0 r1) as [b|]; [|discriminate]. cbn. destruct (b <? a); [discriminate|].
    intros [= <-]. apply py_int0_nonneg in Ea; [|now apply Hp].
    rewrite zrange_count_up. now apply count_up_nonneg.
  - destruct (py_int0 w) as [a|] eqn:Ea; [|discriminate]. intros [= <-].
    constructor; [|constructor]. eapply py_int0_nonneg; eassumption.
Qed.

Lemma parse_item_exn w e : parse_item w = Exn e -> e = EBadFormat.
Proof.
  unfold parse_item, str_to_int. destruct (has_char "-" w).
  - destruct (filter _ _) as [|r0 [|r1 [|r2 rs]]]; try congruence.
    destruct (py_int0 r0); cbn; [|congruence]. destruct (py_int0 r1); cbn; [|congruence].
    destruct (_ <? _); congruence.
  - destruct (py_int0 w); cbn; congruence.
Qed.

Lemma rmap_exn {A B} (f : A -> res B) l e : rmap l f = Exn e -> exists x, In x l /\ f x = Exn e.
Proof.
  induction l as [|x t IH]; cbn; [discriminate|].
  destruct (f x) as [y|e'] eqn:E; cbn.
  - destruct (rmap t f) as [ys|e']; cbn; [discriminate|]. intros [= ->].
    destruct (IH eq_refl) as (z & Hz & Hf). exists z. auto.
  - intros [= ->]. exists x. auto.
Qed.

Lemma parse_outcome sep dd nums :
  match parse_int_list sep dd nums with
  | Ok r => Forall (fun n => 0 <= n) r
  | Exn e => e = EBadFormat
  end.
Proof.
  unfold parse_int_list, split_csv_line_int.
  destruct (rmap _ parse_item) as [ls|e] eqn:E; cbn.
  - apply Forall_forall. intros n Hn. apply in_concat in Hn as (l & Hl & Hn).
    rewrite (rmap_In _ _ _ E) in Hl. destruct Hl as (w & _ & Hp).
    apply parse_item_nonneg in Hp. rewrite Forall_forall in Hp. auto.
  - apply rmap_exn in E as (w & _ & Hp). eapply parse_item_exn; eassumption.
Qed.

(** ** rangify *)
Lemma group_pairs_spec l : concat (group_pairs l) = l /\ Forall (fun g => g <> []) (group_pairs l).
Proof.
  induction l as [|p t [IH1 IH2]]; [split; constructor|]. cbn [group_pairs].
  destruct (group_pairs t) as [|[|q g] gs].
  - cbn in *. subst t. split; [reflexivity|]. constructor; [congruence|constructor].
  - inversion IH2; congruence.
  - destruct (_ =? _); cbn in *; rewrite <- IH1; (split; [reflexivity|]).
    + inversion IH2; constructor; [congruence|assumption].
    + constructor; [congruence|assumption].
Qed.

(** Values of one group are consecutive. *)
Lemma groups_consecutive l : forall i,
  Forall (fun g => exists a k, map snd g = count_up a (S k)) (group_pairs (enum_from i l)).
Proof.
  induction l as [|x t IH]; intros i; [constructor|]. cbn [enum_from group_pairs].
  specialize (IH (i + 1)). pose proof (group_pairs_spec (enum_from (i + 1) t)) as [Hc Hn].
  destruct (group_pairs (enum_from (i + 1) t)) as [|[|q g] gs].
  - constructor; [|constructor]. now exists x, O.
  - inversion Hn; congruence.
  - inversion IH as [|g' gs' (a & k & Hg) Hgs]; subst.
    destruct (_ =? _) eqn:E.
    + constructor; [|exact Hgs]. destruct t as [|y t]; [discriminate Hc|]. cbn in Hc.
      injection Hc as Hq _. subst q. cbn [fst snd map] in *. cbn [count_up] in Hg. injection Hg as Ey Hg.
      exists x, (S k). assert (y = x + 1) by lia. cbn [count_up]. rewrite Hg. subst. reflexivity.
    + constructor; [now exists x, O|]. constructor; [now exists a, k|exact Hgs].
Qed.

Lemma enum_snd l : forall i, map snd (enum_from i l) = l.
Proof. induction l as [|x t IH]; intros i; [reflexivity|]. cbn. now rewrite IH. Qed.

Definition group_items (nums : list Z) : list item :=
  match nums with
  | a :: _ :: _ :: _ => [IRange a (last nums a)]
  | _ => map INum nums
  end.

Lemma count_up_last a k d : last (count_up a (S k)) d = a + Z.of_nat k.
Proof.
  revert a; induction k as [|k IH]; intros a; [cbn; lia|].
  change (count_up a (S (S k))) with (a :: count_up (a + 1) (S k)).
  transitivity (last (count_up (a + 1) (S k)) d); [reflexivity|]. rewrite IH. lia.
Qed.

Lemma group_items_meaning a k : flat_map meaning (group_items (count_up a (S k))) = count_up a (S k).
Proof.
  destruct k as [|[|k]]; [reflexivity..|].
  pose proof (count_up_last a (S (S k)) a) as Hl.
  unfold group_items. set (c := count_up a (S (S (S k)))) in *.
  assert (Ec : c = a :: (a + 1) :: (a + 1 + 1) :: count_up (a + 1 + 1 + 1) k) by reflexivity.
  rewrite Ec at 1. cbn [flat_map meaning]. rewrite app_nil_r, Hl. subst c. f_equal. lia.
Qed.

Lemma group_items_written nums : Forall (fun n => 0 <= n) nums ->
  Forall2 written (group_items nums) (group_strs nums).
Proof.
  assert (Num : forall n, 0 <= n -> written (INum n) (dec n)).
  { intros n Hn. pose proof (W_num n (dec n) [] [] (dec_numeral n Hn)) as H.
    cbn [app] in H. rewrite app_nil_r in H. apply H; constructor. }
  intros H. destruct nums as [|a [|b [|c t]]]; cbn [group_items group_strs map].
  - constructor.
  - inversion H; subst. constructor; [auto|constructor].
  - inversion H as [|? ? ? H']; subst. inversion H'; subst. repeat (constructor; [auto|]). constructor.
  - constructor; [|constructor]. set (z := last (a :: b :: c :: t) a).
    assert (Hz : 0 <= z).
    { rewrite Forall_forall in H. apply H. unfold z.
      destruct (@exists_last _ (a :: b :: c :: t)) as (i & y & ->); [congruence|].
      rewrite last_last. apply in_app_iff. right. now left. }
    inversion H; subst.
    pose proof (W_range a z (dec a) (dec z) [] [] [] [] (dec_numeral a ltac:(assumption))
                        (dec_numeral z Hz)) as W.
    cbn [app] in W. rewrite app_nil_r in W. apply W; constructor.
Qed.

Lemma group_items_asc a k : Forall (fun i => ~ descending i) (group_items (count_up a (S k))).
Proof.
  destruct k as [|[|k]]; [repeat constructor; auto..|].
  pose proof (count_up_last a (S (S k)) a) as Hl.
  unfold group_items. set (c := count_up a (S (S (S k)))) in *.
  assert (Ec : c = a :: (a + 1) :: (a + 1 + 1) :: count_up (a + 1 + 1 + 1) k) by reflexivity.
  rewrite Ec at 1. constructor; [|constructor]. cbn [descending]. rewrite Hl. lia.
Qed.

Lemma flat_map_Forall2 {A B C} (R : B -> C -> Prop) (f : A -> list B) (g : A -> list C) l :
  Forall (fun x => Forall2 R (f x) (g x)) l -> Forall2 R (flat_map f l) (flat_map g l).
Proof. induction 1; cbn; [constructor|]. now apply Forall2_app. Qed.

Lemma rangify_items l : Forall (fun n => 0 <= n) l ->
  exists its ts, rangify l = commas ts /\ Forall2 written its ts /\
    Forall (fun i => ~ descending i) its /\ flat_map meaning its = zsort l.
Proof.
  intros Hl. set (gs := group_pairs (enum_from 0 (zsort l))).
  pose proof (groups_consecutive (zsort l) 0) as Hg. fold gs in Hg.
  pose proof (group_pairs_spec (enum_from 0 (zsort l))) as [Hc _]. fold gs in Hc.
  assert (Hz : flat_map (map snd) gs = zsort l).
  { rewrite <- (enum_snd (zsort l) 0), <- Hc. clear. induction gs as [|g gs IH]; [reflexivity|].
    cbn. now rewrite map_app, IH. }
  assert (Hnn : forall g, In g gs -> Forall (fun n => 0 <= n) (map snd g)).
  { intros g Hgi. apply Forall_forall. intros n Hn. rewrite Forall_forall in Hl. apply Hl.
    apply zsort_In. rewrite <- Hz. apply in_flat_map. exists g. auto. }
  exists (flat_map (fun g => group_items (map snd g)) gs), (flat_map (fun g => group_strs (map snd g)) gs).
  split; [now rewrite commas_join|]. split; [|split].
  - apply flat_map_Forall2. apply Forall_forall. intros g Hgi. now apply group_items_written, Hnn.
  - apply Forall_forall. intros i Hi. apply in_flat_map in Hi as (g & Hgi & Hi).
    rewrite Forall_forall in Hg. destruct (Hg g Hgi) as (a & k & E). rewrite E in Hi.
    pose proof (group_items_asc a k) as Ha. rewrite Forall_forall in Ha. auto.
  - rewrite <- Hz. clear - Hg. induction Hg as [|g gs (a & k & E) _ IH]; [reflexivity|].
    cbn [flat_map]. rewrite flat_map_app, IH, E, group_items_meaning. reflexivity.
Qed.

Lemma rangify_round_trip l : Forall (fun n => 0 <= n) l ->
  exists r, parse_int_list "," false [NStr (rangify l)] = Ok r /\
            Permutation l r /\ StronglySorted Z.le r.
Proof.
  intros Hl. destruct (rangify_items l Hl) as (its & ts & Er & Hw & Hd & Hm).
  exists (zsort l). split.
  - rewrite <- Hm. rewrite Er. apply (parse_chunks_ok [ts] its); [|exact Hd]. cbn. now rewrite app_nil_r.
  - split; [apply Permutation_sym, zsort_perm|apply zsort_sorted].
Qed.

(** ** Without overlaps de-duplication changes nothing *)
Lemma NoDup_app_r {A} (a b : list A) : NoDup (a ++ b) -> NoDup b.
Proof. induction a as [|x a IH]; cbn; [auto|]. intros H. inversion H. auto. Qed.

Lemma NoDup_tokens ws : forall ls, rmap ws parse_item = Ok ls -> Forall (fun l => l <> []) ls ->
  NoDup (concat ls) -> NoDup ws.
Proof.
  induction ws as [|w ws IH]; intros ls H Hn Hd; [constructor|].
  cbn in H. destruct (parse_item w) as [m|] eqn:E; [|discriminate]. cbn in H.
  destruct (rmap ws parse_item) as [ms|] eqn:Er; [|discriminate]. cbn in H. injection H as <-.
  cbn [concat] in Hd. inversion Hn as [|? ? Hm Hms]; subst. constructor.
  - intros Hi. destruct m as [|n m]; [congruence|]. 
    assert (In (n :: m) ms) by (apply (rmap_In _ _ _ Er); eauto).
    cbn [app] in Hd. inversion Hd as [|? ? Hnin _]; subst. apply Hnin. apply in_app_iff. right.
    apply in_concat. exists (n :: m). split; [assumption|now left].
  - apply (IH ms eq_refl Hms). eapply NoDup_app_r; eassumption.
Qed.

Lemma item_result_nonempty its : Forall (fun i => ~ descending i) its -> forall ls,
  rmap (filter (fun i => match i with IEmpty => false | _ => true end) its) item_result = Ok ls ->
  Forall (fun l => l <> []) ls.
Proof.
  intros Hd ls H. apply Forall_forall. intros l Hl. rewrite (rmap_In _ _ _ H) in Hl.
  destruct Hl as (i & Hi & Hr). apply filter_In in Hi as [Hi Hf]. rewrite Forall_forall in Hd.
  specialize (Hd i Hi). destruct i as [n|a b|]; [| |discriminate]; cbn in *.
  - injection Hr as <-. congruence.
  - destruct (b <? a) eqn:E; [discriminate|]. injection Hr as <-.
    destruct (Z.to_nat (b - a + 1)) eqn:En; [lia|]. cbn. congruence.
Qed.

Lemma parse_dedup_disjoint chunks its :
  Forall2 written its (concat chunks) -> Forall (fun i => ~ descending i) its ->
  NoDup (flat_map meaning its) ->
  parse_int_list "," true (map (fun c => NStr (commas c)) chunks) = Ok (flat_map meaning its).
Proof.
  intros Hw Hd Hn. rewrite <- (parse_chunks_ok chunks its Hw Hd).
  unfold parse_int_list, split_csv_line_int. rewrite !split_csv_toks. cbn [negb].
  rewrite map_map. cbn [nstr]. rewrite toks_chunks.
  pose proof (items_ok its Hd) as Hok. pose proof (parse_items its _ Hw) as Hp.
  rewrite <- Hp in Hok.
  destruct (rmap _ parse_item) as [ls|] eqn:E in Hok; [|discriminate].
  cbn in Hok. injection Hok as Hc.
  assert (N : NoDup (map strip (flat_map (toks ",") (concat chunks)))).
  { apply (NoDup_tokens _ ls E).
    - apply (item_result_nonempty its Hd). rewrite <- Hp. exact E.
    - now rewrite Hc. }
  cbv zeta. rewrite (list_dedup_id str_eqb str_eqb_spec _ N). reflexivity.
Qed.

Lemma rangify_round_trip_dedup l : Forall (fun n => 0 <= n) l -> NoDup l ->
  exists r, parse_int_list "," true [NStr (rangify l)] = Ok r /\
            Permutation l r /\ StronglySorted Z.le r.
Proof.
  intros Hl Hnd. destruct (rangify_items l Hl) as (its & ts & Er & Hw & Hd & Hm).
  exists (zsort l). split.
  - rewrite <- Hm. rewrite Er. apply (parse_dedup_disjoint [ts] its); [cbn; now rewrite app_nil_r|exact Hd|].
    rewrite Hm. eapply Permutation_NoDup; [apply Permutation_sym, zsort_perm|exact Hnd].
  - split; [apply Permutation_sym, zsort_perm|apply zsort_sorted].
Qed.

Lemma StronglySorted_perm_eq (a : list Z) : forall b, StronglySorted Z.le a -> StronglySorted Z.le b ->
  Permutation a b -> a = b.
Proof.
  induction a as [|x a IH]; intros b Ha Hb P.
  - now apply Permutation_nil in P.
  - destruct b as [|y b]; [apply Permutation_sym, Permutation_nil in P; discriminate|].
    inversion Ha as [|? ? Ha' Fx]; subst. inversion Hb as [|? ? Hb' Fy]; subst.
    rewrite Forall_forall in Fx, Fy.
    assert (x = y).
    { assert (In x (y :: b)) as Hx by (eapply Permutation_in; [exact P|now left]).
      assert (In y (x :: a)) as Hy by (eapply Permutation_in; [apply Permutation_sym, P|now left]).
      destruct Hx as [Hx|Hx]; [congruence|]. destruct Hy as [Hy|Hy]; [congruence|].
      specialize (Fx y Hy). specialize (Fy x Hx). lia. }
    subst y. f_equal. apply IH; auto. eapply Permutation_cons_inv; eassumption.
Qed.

Lemma rangify_perm l l' : Permutation l l' -> rangify l = rangify l'.
Proof.
  intros P. unfold rangify. rewrite (StronglySorted_perm_eq (zsort l) (zsort l')); [reflexivity|..].
  - apply zsort_sorted.
  - apply zsort_sorted.
  - etransitivity; [apply zsort_perm|]. etransitivity; [exact P|]. apply Permutation_sym, zsort_perm.
Qed.

(** Different number lists have different texts. *)
Lemma rangify_inj l l' : Forall (fun n => 0 <= n) l -> Forall (fun n => 0 <= n) l' ->
  rangify l = rangify l' -> Permutation l l'.
Proof.
  intros H H' E. destruct (rangify_round_trip l H) as (r & Hr & P & _).
  destruct (rangify_round_trip l' H') as (r' & Hr' & P' & _). rewrite E, Hr' in Hr.
  injection Hr as ->. etransitivity; [exact P|]. now apply Permutation_sym.
Qed.
