(** Lemmas about ranges and first letters (C83). *)
From Coq Require Import Ascii String ZifyBool Lia QArith.
From Verif Require Import Base M_Text M_Human M_Osa S_Systemd S_Ident M_Words S_Words L_Base L_Text L_Human L_Remote L_TopoInfo2 L_Ident.
Open Scope list_scope.

(** ** Ranges *)
Lemma lstrip_none p (l : str) : (forall c t, l = c :: t -> p c = false) -> lstrip_by p l = l.
Proof. destruct l as [|c t]; intros H; [reflexivity|]. cbn [lstrip_by]. now rewrite (H c t eq_refl). Qed.

Lemma strip_sep_none sep l : (forall c t, l = c :: t -> c <> sep) -> (forall t c, l = t ++ [c] -> c <> sep) -> strip_char sep l = l.
Proof.
  intros H1 H2. unfold strip_char, strip_by. rewrite (lstrip_none _ l).
  - rewrite lstrip_none; [apply rev_involutive|]. intros c t E. apply Ascii.eqb_neq. intros <-. apply (H2 (rev t) sep); [|reflexivity].
    rewrite <- (rev_involutive l), E. reflexivity.
  - intros c t E. apply Ascii.eqb_neq. intros <-. now apply (H1 sep t E).
Qed.

Lemma pair_split sep x y rng : pair_text sep x y rng -> split_csv_line sep false false rng = [x; y].
Proof.
  intros (Hx & Hy & Tx & Ty & Nx & Ny & Hs & a & b & c & d & Ha & Hb & Hc & Hd & ->). unfold split_csv_line.
  assert (Sp : forall l, S_Systemd.spaces l -> ~ In sep l) by (intros l Hl Hi; unfold S_Systemd.spaces in Hl; rewrite Forall_forall in Hl; rewrite (Hl _ Hi) in Hs; discriminate Hs).
  assert (Hl : ~ In sep (a ++ x ++ b)).
  { intros Hi. apply in_app_or in Hi as [Hi|Hi]; [now apply (Sp a)|]. apply in_app_or in Hi as [Hi|Hi]; [now apply Hx|now apply (Sp b)]. }
  assert (Hr : ~ In sep (c ++ y ++ d)).
  { intros Hi. apply in_app_or in Hi as [Hi|Hi]; [now apply (Sp c)|]. apply in_app_or in Hi as [Hi|Hi]; [now apply Hy|now apply (Sp d)]. }
  assert (El : a ++ x ++ b <> []) by (intros E; apply app_eq_nil in E as (_ & E); apply app_eq_nil in E as (E & _); now apply Nx).
  assert (Er : c ++ y ++ d <> []) by (intros E; apply app_eq_nil in E as (_ & E); apply app_eq_nil in E as (E & _); now apply Ny).
  set (l := a ++ x ++ b) in *. set (r := c ++ y ++ d) in *.
  rewrite strip_sep_none.
  - rewrite split_on_app, (split_on_free _ l Hl), (split_on_free _ r Hr). cbn [app flat_map]. subst l r.
    rewrite <- (strip_eq a x b Ha Hb Tx) at 2. rewrite <- (strip_eq c y d Hc Hd Ty) at 2.
    destruct (a ++ x ++ b); [now destruct El|]. destruct (c ++ y ++ d); [now destruct Er|]. reflexivity.
  - intros e t E <-. destruct l as [|z l]; [now destruct El|]. injection E as -> _. apply Hl. now left.
  - intros t e E <-. apply Hr. destruct (exists_last Er) as (r' & z & Ez). rewrite Ez in *. 
    change (l ++ e :: r' ++ [z]) with (l ++ (e :: r') ++ [z]) in E. rewrite app_assoc in E. apply app_inj_tail in E as (_ & ->). apply in_or_app. right. now left.
Qed.

Lemma value_hq n q : value_of n q <-> q = hq n.
Proof. destruct n; reflexivity. Qed.

Lemma less_iff a b : less a b <-> (hq b ?= hq a)%Q = Gt.
Proof.
  unfold less. split.
  - intros (p & q & Hp & Hq & H). apply value_hq in Hp, Hq. subst. now apply Qgt_alt.
  - intros H. exists (hq a), (hq b). split; [now apply value_hq|]. split; [now apply value_hq|]. now apply Qgt_alt.
Qed.

Lemma parse_int_shape x unit target r : parse_human x unit target true = Ok r -> hround r = r.
Proof.
  unfold parse_human. destruct (separate_si_prefix unit) as (p, b). intros H.
  destruct (match target with None => _ | Some _ => _ end) as [ts|]; [|discriminate H]. cbn [rbind] in H.
  destruct (tokenize _ _ _) as [tk|]; [|discriminate H]. cbn [rbind] in H. destruct (add_up _ _) as [q|]; [|discriminate H]. cbn [rbind] in H.
  now injection H as <-.
Qed.

Lemma range_ok_l sep x y rng unit target integer a b : pair_text sep x y rng ->
  parse_human x unit target integer = Ok a -> parse_human y unit target integer = Ok b ->
  (less a b -> parse_human_range rng unit target integer sep = Ok (a, b)) /\ (~ less a b -> parse_human_range rng unit target integer sep = Exn EError).
Proof.
  intros Hp Ea Eb. unfold parse_human_range. rewrite (pair_split sep x y rng Hp), Ea. cbn [rbind]. rewrite Eb. cbn [rbind]. rewrite less_iff. split.
  - intros ->. destruct integer; [|reflexivity]. now rewrite (parse_int_shape _ _ _ _ Ea), (parse_int_shape _ _ _ _ Eb).
  - intros H. destruct (hq b ?= hq a)%Q; [reflexivity|reflexivity|now destruct H].
Qed.

Lemma range_sound_l rng unit target integer sep a b : parse_human_range rng unit target integer sep = Ok (a, b) ->
  less a b /\ exists x y, split_csv_line sep false false rng = [x; y] /\ parse_human x unit target integer = Ok a /\ parse_human y unit target integer = Ok b.
Proof.
  unfold parse_human_range. destruct (split_csv_line sep false false rng) as [|x [|y [|? ?]]]; try discriminate.
  destruct (parse_human x unit target integer) as [a'|] eqn:Ea; [|discriminate]. cbn [rbind].
  destruct (parse_human y unit target integer) as [b'|] eqn:Eb; [|discriminate]. cbn [rbind].
  destruct (hq b' ?= hq a')%Q eqn:E; try discriminate. intros H.
  assert (Eab : a' = a /\ b' = b).
  { destruct integer; [|now injection H as <- <-]. rewrite (parse_int_shape _ _ _ _ Ea), (parse_int_shape _ _ _ _ Eb) in H. now injection H as <- <-. }
  destruct Eab as (-> & ->). split; [now apply less_iff|]. exists x, y. auto.
Qed.

Lemma range_bad_l sep x y rng unit target integer e : pair_text sep x y rng ->
  (parse_human x unit target integer = Exn e -> parse_human_range rng unit target integer sep = Exn e) /\
  (forall a, parse_human x unit target integer = Ok a -> parse_human y unit target integer = Exn e -> parse_human_range rng unit target integer sep = Exn e).
Proof.
  intros Hp. unfold parse_human_range. rewrite (pair_split sep x y rng Hp). split; [now intros ->|]. intros a ->. cbn [rbind]. now intros ->.
Qed.

(** ** First letters *)
Lemma split_first sep s : exists rest, s = hd [] (split_on sep s) ++ rest /\ ~ In sep (hd [] (split_on sep s)) /\ (rest = [] \/ exists t, rest = sep :: t).
Proof.
  induction s as [|c s (rest & E & Hn & Hr)].
  - exists []. cbn. auto.
  - cbn [split_on]. destruct (Ascii.eqb_spec sep c) as [<-|Hc]; cbn [hd].
    + exists (sep :: s). split; [reflexivity|]. split; [intros []|]. right. now exists s.
    + destruct (split_on sep s) as [|w ws] eqn:Es; [destruct (split_on_cons sep s) as (w & ws & Es'); congruence|]. cbn [hd] in *.
      exists rest. split; [cbn [app]; now rewrite E at 1|]. split; [|exact Hr]. intros [->|Hi]; [now destruct Hc|now apply Hn].
Qed.

Lemma hd_split sep w rest : ~ In sep w -> (rest = [] \/ exists t, rest = sep :: t) -> hd [] (split_on sep (w ++ rest)) = w.
Proof.
  intros Hw [->|(t & ->)]; [rewrite app_nil_r|rewrite split_on_app]; rewrite (split_on_free _ w Hw); reflexivity.
Qed.

Lemma word_split s w rest : first_word s w rest -> hd [] (split_on "-" (hd [] (split_on " " s))) = w /\ (length w <= length (hd [] (split_on " " s)))%nat.
Proof.
  intros (-> & H1 & H2 & Hr). destruct Hr as [->|(t & [->| ->])].
  - rewrite (hd_split " " w []) by auto. split; [|lia]. rewrite <- (app_nil_r w) at 1. apply hd_split; auto.
  - rewrite (hd_split " " w (" "%char :: t)) by eauto. split; [|lia]. rewrite <- (app_nil_r w) at 1. apply hd_split; auto.
  - destruct (split_first " " t) as (rest & Et & Hn & Hr). set (u := hd [] (split_on " " t)) in *.
    assert (E : hd [] (split_on " " (w ++ "-"%char :: t)) = w ++ "-"%char :: u).
    { rewrite Et. change (w ++ "-"%char :: u ++ rest) with (w ++ ("-"%char :: u) ++ rest). rewrite app_assoc. apply hd_split; [|exact Hr].
      intros Hi. apply in_app_or in Hi as [Hi|[Hi|Hi]]; [now apply H1|discriminate Hi|now apply Hn]. }
    rewrite E. split; [apply hd_split; eauto|rewrite app_length; lia].
Qed.

Lemma between_iff lo hi c : char_in lo hi c = true <-> between lo hi c.
Proof. unfold char_in, between. lia. Qed.
Lemma between_not lo hi c : char_in lo hi c = false <-> ~ between lo hi c.
Proof. rewrite <- between_iff. destruct (char_in lo hi c); split; congruence. Qed.

Lemma lowered_char c : lowered c (lower_char c).
Proof.
  unfold lowered, upper_case, between, lower_char. cbn zeta. destruct ((65 <=? nat_of_ascii c) && (nat_of_ascii c <=? 90))%nat eqn:E.
  - left. rewrite nat_ascii_embedding by lia. lia.
  - right. split; [lia|reflexivity].
Qed.

Lemma ordinary_l c s w rest : first_word (c :: s) w rest -> ordinary w -> exists d, lowered c d /\ uncapitalize (c :: s) = d :: s.
Proof.
  intros Hf (x & y & t & -> & Hx & Hy & Hd). destruct (word_split _ _ _ Hf) as (Ew & Hl). exists (lower_char c). split; [apply lowered_char|].
  unfold uncapitalize. cbn [length] in Hl. destruct (Nat.ltb_spec (length (hd [] (split_on " " (c :: s)))) 2) as [H|_]; [lia|]. rewrite Ew.
  apply between_not in Hx, Hy. change (char_in 97 122 x) with (is_lower x) in Hx. change (char_in 65 90 y) with (is_upper y) in Hy. rewrite Hx, Hy. cbn [orb].
  assert (E : existsb is_dec (x :: y :: t) = false).
  { destruct (existsb is_dec (x :: y :: t)) eqn:E; [|reflexivity]. apply existsb_exists in E as (z & Hz & Ez). rewrite Forall_forall in Hd. destruct (Hd z Hz). now apply between_iff. }
  now rewrite E.
Qed.

Lemma unchanged_l s w rest : first_word s w rest -> ~ ordinary w -> uncapitalize s = s.
Proof.
  intros Hf Hn. destruct (word_split _ _ _ Hf) as (Ew & _). unfold uncapitalize. destruct (length _ <? 2)%nat; [reflexivity|]. rewrite Ew.
  destruct w as [|x [|y t]]; [reflexivity|reflexivity|]. destruct (is_lower x) eqn:Ex; [reflexivity|]. destruct (is_upper y) eqn:Ey; [reflexivity|]. cbn [orb].
  destruct (existsb is_dec (x :: y :: t)) eqn:E; [reflexivity|]. destruct Hn. exists x, y, t. split; [reflexivity|].
  split; [now apply between_not|]. split; [now apply between_not|]. apply Forall_forall. intros z Hz Hd. apply between_iff in Hd.
  assert (existsb is_dec (x :: y :: t) = true) by (apply existsb_exists; now exists z). congruence.
Qed.

Lemma has_first_word s : exists w rest, first_word s w rest.
Proof.
  destruct (split_first " " s) as (r1 & E1 & H1 & Hr1). set (u := hd [] (split_on " " s)) in *.
  destruct (split_first "-" u) as (r2 & E2 & H2 & Hr2). set (w := hd [] (split_on "-" u)) in *.
  exists w, (r2 ++ r1). split; [rewrite E1 at 1; rewrite E2 at 1; now rewrite app_assoc|]. split.
  - intros Hi. apply H1. rewrite E2. apply in_or_app. now left.
  - split; [exact H2|]. destruct Hr2 as [->|(t & ->)]; [|right; exists (t ++ r1); now right]. cbn [app]. destruct Hr1 as [->|(t & ->)]; [now left|right; exists t; now left].
Qed.

Lemma idempotent_l s : uncapitalize (uncapitalize s) = uncapitalize s.
Proof.
  destruct (has_first_word s) as (w & rest & Hf). destruct s as [|c s]; [reflexivity|].
  assert (D : ordinary w \/ ~ ordinary w).
  { destruct w as [|x [|y t]]; [right; intros (? & ? & ? & E & _); discriminate E|right; intros (? & ? & ? & E & _); discriminate E|].
    destruct (is_lower x) eqn:Ex; [right; intros (x' & y' & t' & [= <- <- <-] & Hx & _); apply Hx, between_iff, Ex|].
    destruct (is_upper y) eqn:Ey; [right; intros (x' & y' & t' & [= <- <- <-] & _ & Hy & _); apply Hy, between_iff, Ey|].
    destruct (existsb is_dec (x :: y :: t)) eqn:E.
    - right. intros (_ & _ & _ & _ & _ & _ & Hd). apply existsb_exists in E as (z & Hz & Ez). rewrite Forall_forall in Hd. apply (Hd z Hz). now apply between_iff.
    - left. exists x, y, t. split; [reflexivity|]. split; [now apply between_not|]. split; [now apply between_not|]. apply Forall_forall. intros z Hz Hd.
      apply between_iff in Hd. assert (existsb is_dec (x :: y :: t) = true) by (apply existsb_exists; now exists z). congruence. }
  destruct D as [Ho|Ho]; [|rewrite (unchanged_l _ _ _ Hf Ho); now rewrite (unchanged_l _ _ _ Hf Ho)].
  destruct (ordinary_l c s w rest Hf Ho) as (d & Hd & E). rewrite E.
  destruct Hd as [(Hu & Hd)|(Hu & ->)].
  - destruct (has_first_word (d :: s)) as (w' & rest' & Hf'). apply (unchanged_l _ _ _ Hf'). intros (x & y & t & -> & Hx & _).
    destruct Hf' as (E' & _). injection E' as <- _. apply Hx. unfold lower_case, upper_case, between in *. lia.
  - exact E.
Qed.

Lemma range_one_l rng unit target integer sep : ~ In sep rng -> parse_human_range rng unit target integer sep = Exn EError.
Proof.
  intros H. unfold parse_human_range, split_csv_line. rewrite strip_sep_none.
  - rewrite (split_on_free _ rng H). destruct rng; reflexivity.
  - intros c t -> <-. apply H. now left.
  - intros t c -> <-. apply H, in_or_app. right. now left.
Qed.

Lemma range_three_l sep x y z unit target integer : ~ In sep x -> ~ In sep y -> ~ In sep z -> x <> [] -> y <> [] -> z <> [] ->
  parse_human_range (x ++ sep :: y ++ sep :: z) unit target integer sep = Exn EError.
Proof.
  intros Hx Hy Hz Nx Ny Nz. unfold parse_human_range, split_csv_line. rewrite strip_sep_none.
  - rewrite split_on_app, split_on_app, (split_on_free _ x Hx), (split_on_free _ y Hy), (split_on_free _ z Hz).
    destruct x; [now destruct Nx|]. destruct y; [now destruct Ny|]. destruct z; [now destruct Nz|]. reflexivity.
  - intros c t E <-. destruct x as [|x0 x]; [now destruct Nx|]. injection E as -> _. apply Hx. now left.
  - intros t c E <-. apply Hz. destruct (exists_last Nz) as (z' & k & ->).
    change (x ++ c :: y ++ c :: z' ++ [k]) with (x ++ (c :: y) ++ (c :: z') ++ [k]) in E. rewrite !app_assoc in E. apply app_inj_tail in E as (_ & ->).
    apply in_or_app. right. now left.
Qed.
