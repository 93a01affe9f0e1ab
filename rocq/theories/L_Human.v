(** Lemmas about numbers in text form. *)
From Coq Require Import QArith Qabs Qpower ZifyBool.
From Verif Require Import Base L_Base M_Text S_Text L_Text M_Human S_Human.

Lemma is_digitb_spec c : is_digitb c = true <-> is_digit c.
Proof. unfold is_digitb, is_digit. lia. Qed.
Lemma digits_b s : Forall is_digit s <-> forallb is_digitb s = true.
Proof.
  rewrite Forall_forall, forallb_forall. split; intros H c Hc; apply is_digitb_spec; auto.
Qed.
Lemma white_b s : white s <-> forallb is_cspace s = true.
Proof.
  unfold white. rewrite Forall_forall, forallb_forall. unfold is_cspace. split; intros H c Hc; specialize (H c Hc); lia.
Qed.

Lemma span_app p a r : forallb p a = true -> (match r with [] => True | c :: _ => p c = false end) ->
  span p (a ++ r) = (a, r).
Proof.
  induction a as [|c t IH]; cbn [app forallb span]; intros H Hr.
  - destruct r as [|c r]; [reflexivity|]. cbn. now rewrite Hr.
  - apply andb_true_iff in H as (Hc & H). rewrite Hc, IH by auto. reflexivity.
Qed.
Lemma span_inv p l a r : span p l = (a, r) ->
  l = a ++ r /\ forallb p a = true /\ match r with [] => True | c :: _ => p c = false end.
Proof.
  revert a r. induction l as [|c t IH]; cbn [span]; intros a r E.
  - injection E as <- <-. auto.
  - destruct (p c) eqn:Ec.
    + destruct (span p t) as (a' & b') eqn:Es. injection E as <- <-.
      destruct (IH _ _ eq_refl) as (-> & H1 & H2). cbn. rewrite Ec, H1. auto.
    + injection E as <- <-. cbn. auto.
Qed.

Lemma lstrip_inv p l : exists b, l = b ++ lstrip_by p l /\ forallb p b = true.
Proof.
  induction l as [|c t (b & E & H)]; cbn [lstrip_by]; [now exists []|].
  destruct (p c) eqn:Ec; [|now exists []].
  exists (c :: b). cbn [app forallb]. rewrite Ec, H, <- E. auto.
Qed.
Lemma strip_inv p l : exists b1 b2, l = b1 ++ strip_by p l ++ b2 /\ forallb p b1 = true /\ forallb p b2 = true.
Proof.
  destruct (lstrip_inv p l) as (b1 & E1 & H1). destruct (rstrip_decomp p (lstrip_by p l)) as (b2 & E2 & H2).
  exists b1, b2. unfold strip_by. rewrite <- E2. auto.
Qed.

Lemma split_sign_text st sg r : sign_text st sg -> (match r with [] => True | c :: _ => c <> "+"%char /\ c <> "-"%char end) ->
  split_sign (st ++ r) = (sg, r).
Proof.
  intros H Hr. destruct H; cbn [app split_sign]; [|reflexivity|reflexivity].
  destruct r as [|c r]; [reflexivity|]. destruct Hr as (H1 & H2). cbn.
  apply Ascii.eqb_neq in H1, H2. now rewrite H1, H2.
Qed.
Lemma split_sign_inv l sg r : split_sign l = (sg, r) -> exists st, l = st ++ r /\ sign_text st sg.
Proof.
  unfold split_sign. destruct l as [|c t].
  - intros [= <- <-]. exists []. split; [reflexivity|constructor].
  - destruct (Ascii.eqb c "+") eqn:E1; [|destruct (Ascii.eqb c "-") eqn:E2]; intros [= <- <-].
    + apply Ascii.eqb_eq in E1 as ->. exists ["+"%char]. split; [reflexivity|constructor].
    + apply Ascii.eqb_eq in E2 as ->. exists ["-"%char]. split; [reflexivity|constructor].
    + exists []. split; [reflexivity|constructor].
Qed.

Lemma digit_not_sign c : is_digit c -> c <> "+"%char /\ c <> "-"%char.
Proof. intros H. split; intros ->; unfold is_digit in H; cbn in H; lia. Qed.

Lemma exponent_text_ok et e : exponent_text et e -> exponent et = Some e.
Proof.
  intros H. destruct H as [|c st sg ds Hc Hs Hn Hd]; [reflexivity|]. cbn [exponent].
  assert (E : (Ascii.eqb c "e" || Ascii.eqb c "E")%bool = true) by (destruct Hc as [-> | ->]; reflexivity).
  rewrite E. rewrite (split_sign_text st sg ds Hs).
  - rewrite <- (app_nil_r ds) at 1. rewrite (span_app is_digitb ds []) by (auto; now apply digits_b).
    destruct ds; [congruence|reflexivity].
  - destruct ds; [congruence|]. apply digit_not_sign. now inversion Hd.
Qed.
Lemma exponent_inv et e : exponent et = Some e -> exponent_text et e.
Proof.
  unfold exponent. destruct et as [|c t]; [intros [= <-]; constructor|].
  destruct (Ascii.eqb c "e" || Ascii.eqb c "E")%bool eqn:E; [|discriminate].
  destruct (split_sign t) as (sg & t') eqn:Es. apply split_sign_inv in Es as (st & -> & Hs).
  destruct (span is_digitb t') as (ds & r) eqn:Ep. apply span_inv in Ep as (-> & Hd & _).
  destruct ds as [|d ds]; [discriminate|]. destruct r; [|discriminate]. intros [= <-].
  rewrite app_nil_r. constructor; [|exact Hs|discriminate|now apply digits_b].
  apply orb_true_iff in E as [E|E]; apply Ascii.eqb_eq in E; auto.
Qed.
Lemma exponent_hd et e : exponent_text et e -> match et with [] => True | c :: _ => c = "e"%char \/ c = "E"%char end.
Proof. intros H. destruct H; cbn; auto. Qed.

Lemma q10_spec m e : (q10 m e == inject_Z m * (10 # 1) ^ e)%Q.
Proof.
  unfold q10. destruct (0 <=? e) eqn:E.
  - rewrite inject_Z_mult. rewrite (Zpower_Qpower 10 e) by lia. reflexivity.
  - unfold Qdiv. rewrite (Zpower_Qpower 10 (- e)) by lia. rewrite Qpower_opp. rewrite Qinv_involutive. reflexivity.
Qed.

(** The text between the blanks. *)
Definition core st ip pt fp et : str := st ++ ip ++ pt ++ fp ++ et.
Definition core_char (c : ascii) : Prop :=
  is_digit c \/ In c ["+"; "-"; "."; "e"; "E"]%char.
Lemma core_chars st sg ip pt fp et e : sign_text st sg -> Forall is_digit ip -> Forall is_digit fp ->
  pt = ["."%char] \/ (pt = [] /\ fp = []) -> exponent_text et e -> Forall core_char (core st ip pt fp et).
Proof.
  intros Hs Hi Hf Hp He. unfold core. rewrite !Forall_app.
  assert (D : forall l, Forall is_digit l -> Forall core_char l).
  { intros l. apply Forall_impl. intros; now left. }
  assert (S : forall t s, sign_text t s -> Forall core_char t).
  { intros t s H. destruct H; [constructor|constructor; [right; cbn; tauto|constructor]..]. }
  repeat split; auto; [eauto| |].
  - destruct Hp as [-> | (-> & _)]; [|constructor]. constructor; [right; cbn; tauto|constructor].
  - destruct He as [|c s g ds Hc H1 H2 H3]; [constructor|]. constructor.
    + right. destruct Hc as [-> | ->]; cbn; tauto.
    + apply Forall_app. split; eauto.
Qed.
Lemma core_char_nospace c : core_char c -> is_cspace c = false /\ is_space c = false.
Proof.
  intros [H|H]; [split; [now apply digit_nocspace|now apply digit_nospace]|].
  cbn in H. repeat destruct H as [<-|H]; try destruct H; split; reflexivity.
Qed.
Lemma core_nonempty st ip pt fp et : ip ++ fp <> [] -> core st ip pt fp et <> [].
Proof.
  intros H E. unfold core in E. apply app_eq_nil in E as (_ & E). apply app_eq_nil in E as (-> & E).
  apply app_eq_nil in E as (_ & E). apply app_eq_nil in E as (-> & _). now apply H.
Qed.
Lemma last_in {A} (d : A) l : l <> [] -> In (last l d) l.
Proof.
  intros H. destruct (exists_last H) as (i & x & ->). rewrite last_last. apply in_or_app. right. now left.
Qed.
Lemma hd_in {A} (d : A) l : l <> [] -> In (hd d l) l.
Proof. destruct l; [congruence|]. now left. Qed.

Lemma float_core st sg ip pt fp et e : sign_text st sg -> Forall is_digit ip -> Forall is_digit fp -> ip ++ fp <> [] ->
  pt = ["."%char] \/ (pt = [] /\ fp = []) -> exponent_text et e ->
  (let (sg, l) := split_sign (core st ip pt fp et) in
   let (ip, l) := span is_digitb l in
   let (fp, l) := match l with
                 | c :: t => if Ascii.eqb c "." then span is_digitb t else ([], l)
                 | [] => ([], [])
                 end in
   match ip ++ fp, exponent l with
   | [], _ | _, None => None
   | ds, Some e => Some (q10 (sg * digits_value ds) (e - Z.of_nat (length fp)))
   end) = Some (q10 (sg * spelled (ip ++ fp)) (e - Z.of_nat (length fp))).
Proof.
  intros Hs Hi Hf Hne Hp He. unfold core. pose proof (exponent_hd et e He) as Hh.
  rewrite (split_sign_text st sg) by
    (exact Hs || (destruct ip as [|c ip]; cbn [app];
       [destruct Hp as [-> | (-> & ->)]; [cbn; split; discriminate|now cbn in Hne]
       |apply digit_not_sign; now inversion Hi])).
  assert (Nd : forall c, c = "e"%char \/ c = "E"%char -> is_digitb c = false)
    by (intros c [-> | ->]; reflexivity).
  rewrite (span_app is_digitb ip).
  - assert (E : match pt ++ fp ++ et with
                | c :: t => if Ascii.eqb c "." then span is_digitb t else ([], pt ++ fp ++ et)
                | [] => ([], [])
                end = (fp, et)).
    { destruct Hp as [-> | (-> & ->)]; cbn [app].
      - cbn. apply span_app; [now apply digits_b|]. destruct et; auto.
      - destruct et as [|c t]; [reflexivity|]. destruct Hh as [-> | ->]; reflexivity. }
    cbv beta iota. unfold str in *. rewrite E. cbv beta iota. rewrite (exponent_text_ok et e He). change digits_value with spelled.
    destruct (ip ++ fp); [congruence|reflexivity].
  - now apply digits_b.
  - destruct Hp as [-> | (-> & ->)]; [reflexivity|]. cbn. destruct et; auto.
Qed.

Lemma py_float_number s q : number s q -> exists q', py_float s = Some q' /\ (q' == q)%Q.
Proof.
  intros H. destruct H as [b1 st sg ip pt fp et e b2 W1 W2 Hs Hi Hf Hne Hp He].
  eexists. split; [|apply q10_spec]. unfold py_float.
  replace (b1 ++ st ++ ip ++ pt ++ fp ++ et ++ b2) with (b1 ++ core st ip pt fp et ++ b2)
    by (unfold core; now rewrite <- !app_assoc).
  pose proof (core_chars _ _ _ _ _ _ _ Hs Hi Hf Hp He) as Hc. rewrite Forall_forall in Hc.
  pose proof (core_nonempty st ip pt fp et Hne) as Hn.
  rewrite strip_mid; [exact (float_core st sg ip pt fp et e Hs Hi Hf Hne Hp He)|exact Hn| | | |].
  - apply core_char_nospace, Hc, hd_in, Hn.
  - apply core_char_nospace, Hc, last_in, Hn.
  - now apply white_b.
  - now apply white_b.
Qed.

Lemma py_float_sound s q : py_float s = Some q -> exists q', number s q' /\ (q == q')%Q.
Proof.
  unfold py_float. destruct (strip_inv is_cspace s) as (b1 & b2 & Es & H1 & H2).
  destruct (split_sign (strip_by is_cspace s)) as (sg & l) eqn:E1. apply split_sign_inv in E1 as (st & E1 & Hs).
  destruct (span is_digitb l) as (ip & l2) eqn:E2. apply span_inv in E2 as (-> & Hi & _).
  destruct (match l2 with
            | c :: t => if Ascii.eqb c "." then span is_digitb t else ([], l2)
            | [] => ([], []) end) as (fp & l3) eqn:E3.
  assert (X : exists pt, l2 = pt ++ fp ++ l3 /\ Forall is_digit fp /\ (pt = ["."%char] \/ (pt = [] /\ fp = []))).
  { destruct l2 as [|c t].
    - injection E3 as <- <-. exists []. auto.
    - destruct (Ascii.eqb c ".") eqn:Ec.
      + apply Ascii.eqb_eq in Ec as ->. apply span_inv in E3 as (-> & Hd & _). exists ["."%char].
        split; [reflexivity|]. split; [now apply digits_b|auto].
      + injection E3 as <- <-. exists []. auto. }
  destruct X as (pt & -> & Hf & Hp). clear E3.
  destruct (ip ++ fp) as [|d ds] eqn:Ed; [discriminate|].
  destruct (exponent l3) as [e|] eqn:Ee; [|discriminate]. intros [= <-].
  exists (inject_Z (sg * spelled (ip ++ fp)) * (10 # 1) ^ (e - Z.of_nat (length fp)))%Q. split.
  - rewrite Es, E1. rewrite <- !app_assoc. constructor; auto.
    + now apply white_b.
    + now apply white_b.
    + now apply digits_b.
    + congruence.
    + now apply exponent_inv.
  - rewrite Ed. apply q10_spec.
Qed.

(** *** Integers *)
Lemma int_digits_text ds b : ds <> [] -> Forall is_digit ds -> white b -> int_digits 10 (ds ++ b) = Some (spelled ds).
Proof.
  intros Hne Hd Hb. destruct ds as [|c t]; [congruence|].
  unfold int_digits. cbn [app].
  inversion Hd as [|c' t' Hc Ht]; subst. rewrite digit_dec_val by exact Hc.
  destruct (Z.of_nat (nat_of_ascii c) - 48 <? 10) eqn:E; [|unfold is_digit in Hc; lia].
  change (c :: t ++ b) with ((c :: t) ++ b). rewrite scan_digits_num by exact Hd.
  apply white_b in Hb as Hb'.
  assert (Es : forall v, scan_digits 10 b false v = Some (v, b)).
  { intros v. destruct b as [|x b]; [reflexivity|]. cbn [scan_digits].
    inversion Hb as [|x' b2 Hx _]; subst.
    assert (E1 : Ascii.eqb x "_" = false).
    { apply Ascii.eqb_neq. intros ->. cbn in Hx. lia. }
    rewrite E1. unfold digit_val.
    destruct ((48 <=? Z.of_nat (nat_of_ascii x)) && (Z.of_nat (nat_of_ascii x) <=? 57)) eqn:E2; [lia|].
    destruct ((97 <=? Z.of_nat (nat_of_ascii x)) && (Z.of_nat (nat_of_ascii x) <=? 122)) eqn:E3; [lia|].
    destruct ((65 <=? Z.of_nat (nat_of_ascii x)) && (Z.of_nat (nat_of_ascii x) <=? 90)) eqn:E4; [lia|]. reflexivity. }
  rewrite Es, Hb'. reflexivity.
Qed.

Lemma py_int_text s z : integer_text s z -> py_int s = Some z.
Proof.
  intros H. destruct H as [b1 st sg ds b2 W1 W2 Hs Hn Hd]. unfold py_int.
  apply white_b in W1. rewrite lstrip_all by exact W1.
  pose proof (int_digits_text ds b2 Hn Hd W2) as E.
  destruct Hs; cbn [app].
  - destruct ds as [|c t]; [congruence|]. cbn [app] in *. inversion Hd as [|c' t' Hc Ht]; subst.
    rewrite lstrip_stop by now apply digit_nocspace.
    rewrite (digit_not c "+"), (digit_not c "-") by (auto; vm_compute; lia). rewrite E. f_equal. lia.
  - rewrite lstrip_stop by reflexivity. change (Ascii.eqb "+" "+") with true. cbv iota. rewrite E. f_equal. lia.
  - rewrite lstrip_stop by reflexivity. change (Ascii.eqb "-" "+") with false. change (Ascii.eqb "-" "-") with true.
    cbv iota. rewrite E. cbn [option_map]. f_equal.
Qed.

Lemma scan_sound l : ~ In "_"%char l -> forall acc v rest, scan_digits 10 l false acc = Some (v, rest) ->
  exists ds, l = ds ++ rest /\ Forall is_digit ds /\
    v = fold_left (fun v c => 10 * v + (Z.of_nat (nat_of_ascii c) - 48)) ds acc.
Proof.
  induction l as [|c t IH]; cbn [scan_digits]; intros Hu acc v rest E.
  - injection E as <- <-. exists []. auto.
  - destruct (Ascii.eqb c "_") eqn:Eu.
    { apply Ascii.eqb_eq in Eu as ->. exfalso. apply Hu. now left. }
    destruct (digit_val c) as [d|] eqn:Ed.
    2:{ injection E as <- <-. exists []. auto. }
    destruct (d <? 10) eqn:E10.
    2:{ injection E as <- <-. exists []. auto. }
    apply IH in E as (ds & -> & Hd & ->); [|intros H; apply Hu; now right].
    assert (Hc : is_digit c /\ d = Z.of_nat (nat_of_ascii c) - 48).
    { unfold digit_val in Ed. unfold is_digit.
      destruct ((48 <=? Z.of_nat (nat_of_ascii c)) && (Z.of_nat (nat_of_ascii c) <=? 57)) eqn:E2;
        [injection Ed as <-; lia|].
      destruct ((97 <=? Z.of_nat (nat_of_ascii c)) && (Z.of_nat (nat_of_ascii c) <=? 122)) eqn:E3;
        [injection Ed as <-; lia|].
      destruct ((65 <=? Z.of_nat (nat_of_ascii c)) && (Z.of_nat (nat_of_ascii c) <=? 90)) eqn:E4;
        [injection Ed as <-; lia|]. discriminate. }
    destruct Hc as (Hc & ->). exists (c :: ds). split; [reflexivity|]. split; [now constructor|].
    cbn [fold_left]. f_equal. lia.
Qed.
Lemma int_digits_sound l v : ~ In "_"%char l -> int_digits 10 l = Some v ->
  exists ds b, l = ds ++ b /\ ds <> [] /\ Forall is_digit ds /\ white b /\ v = spelled ds.
Proof.
  intros Hu. unfold int_digits. destruct l as [|c t]; [discriminate|].
  destruct (digit_val c) as [d|] eqn:Ed; [|discriminate]. destruct (d <? 10) eqn:E10; [|discriminate].
  destruct (scan_digits 10 (c :: t) false 0) as [(v' & rest)|] eqn:Es; [|discriminate].
  destruct (forallb is_cspace rest) eqn:Ew; [|discriminate]. intros [= <-].
  apply scan_sound in Es as (ds & El & Hd & ->); [|exact Hu].
  exists ds, rest. split; [exact El|]. split; [|split; [exact Hd|split; [now apply white_b|reflexivity]]].
  intros ->. cbn in El. rewrite <- El in Ew. cbn in Ew. apply andb_true_iff in Ew as (Ew & _).
  unfold is_cspace in Ew. unfold digit_val in Ed.
  destruct ((48 <=? Z.of_nat (nat_of_ascii c)) && (Z.of_nat (nat_of_ascii c) <=? 57)) eqn:E2; [lia|].
  destruct ((97 <=? Z.of_nat (nat_of_ascii c)) && (Z.of_nat (nat_of_ascii c) <=? 122)) eqn:E3; [lia|].
  destruct ((65 <=? Z.of_nat (nat_of_ascii c)) && (Z.of_nat (nat_of_ascii c) <=? 90)) eqn:E4; [lia|]. discriminate.
Qed.

Lemma py_int_sound s z : ~ In "_"%char s -> py_int s = Some z -> integer_text s z.
Proof.
  intros Hu. unfold py_int. destruct (lstrip_inv is_cspace s) as (b1 & Es & H1).
  destruct (lstrip_by is_cspace s) as [|c t] eqn:El; [discriminate|].
  assert (Hu' : ~ In "_"%char (c :: t)) by (intros H; apply Hu; rewrite Es; apply in_or_app; auto).
  assert (Hut : ~ In "_"%char t) by (intros H; apply Hu'; now right).
  apply white_b in H1.
  destruct (Ascii.eqb c "+") eqn:E1; [|destruct (Ascii.eqb c "-") eqn:E2].
  - apply Ascii.eqb_eq in E1 as ->. intros E. apply int_digits_sound in E as (ds & b & -> & Hn & Hd & Hw & ->); [|exact Hut].
    rewrite Es. replace (spelled ds) with (1 * spelled ds) by lia.
    apply (Integer b1 ["+"%char] 1 ds b); auto. constructor.
  - apply Ascii.eqb_eq in E2 as ->. destruct (int_digits 10 t) as [v|] eqn:E; [|discriminate]. intros [= <-].
    apply int_digits_sound in E as (ds & b & -> & Hn & Hd & Hw & ->); [|exact Hut].
    rewrite Es. replace (- spelled ds) with (-1 * spelled ds) by lia.
    apply (Integer b1 ["-"%char] (-1) ds b); auto. constructor.
  - intros E. apply int_digits_sound in E as (ds & b & Ec & Hn & Hd & Hw & ->); [|exact Hu'].
    rewrite Es, Ec. replace (spelled ds) with (1 * spelled ds) by lia.
    apply (Integer b1 [] 1 ds b); auto. constructor.
Qed.

Lemma integer_number s z : integer_text s z -> exists q, number s q /\ (q == inject_Z z)%Q.
Proof.
  intros H. destruct H as [b1 st sg ds b2 W1 W2 Hs Hn Hd].
  exists (inject_Z (sg * spelled (ds ++ [])) * (10 # 1) ^ (0 - Z.of_nat (@length ascii [])))%Q. split.
  - apply (Number b1 st sg ds [] [] [] 0 b2); auto.
    + now rewrite app_nil_r.
    + constructor.
  - rewrite app_nil_r. cbn [length Z.of_nat Z.sub Z.opp Z.add]. unfold Qpower. ring.
Qed.
Lemma py_int_float s z : ~ In "_"%char s -> py_int s = Some z -> exists q, py_float s = Some q /\ (q == inject_Z z)%Q.
Proof.
  intros Hu E. apply py_int_sound in E; [|exact Hu]. apply integer_number in E as (q & Hn & Hq).
  apply py_float_number in Hn as (q' & E & Hq'). exists q'. split; [exact E|]. now rewrite Hq'.
Qed.

(** *** Number texts hold no letters but e and E *)
Definition number_char (c : ascii) : Prop := core_char c \/ is_cspace c = true.
Lemma number_chars s q : number s q -> Forall number_char s.
Proof.
  intros H. destruct H as [b1 st sg ip pt fp et e b2 W1 W2 Hs Hi Hf Hne Hp He].
  replace (b1 ++ st ++ ip ++ pt ++ fp ++ et ++ b2) with (b1 ++ core st ip pt fp et ++ b2)
    by (unfold core; now rewrite <- !app_assoc).
  pose proof (core_chars _ _ _ _ _ _ _ Hs Hi Hf Hp He) as Hc.
  apply white_b in W1, W2. rewrite forallb_forall in W1, W2.
  rewrite !Forall_app. split; [|split].
  - apply Forall_forall. intros c H. right. auto.
  - revert Hc. apply Forall_impl. intros; now left.
  - apply Forall_forall. intros c H. right. auto.
Qed.
Lemma number_char_no c k : number_char k -> In c ["_"; "x"; "X"; "o"; "O"; "b"; "B"; "H"; "W"; "s"; "d"; "D"; "h"; "m"; "M";
     "P"; "T"; "G"; "k"; "u"; "n"; "K"; "i"; "z"; "a"; "y"]%char -> k <> c.
Proof.
  intros Hk Hc ->. assert (C : is_digitb c = false /\ existsb (Ascii.eqb c) ["+"; "-"; "."; "e"; "E"]%char = false /\ is_cspace c = false).
  { cbn in Hc. repeat destruct Hc as [<-|Hc]; [.. | destruct Hc]; vm_compute; auto. }
  destruct C as (C1 & C2 & C3). destruct Hk as [[H|H]|H].
  - apply is_digitb_spec in H. congruence.
  - assert (X : existsb (Ascii.eqb c) ["+"; "-"; "."; "e"; "E"]%char = true).
    { apply existsb_exists. exists c. split; [exact H|]. now apply Ascii.eqb_refl. }
    congruence.
  - congruence.
Qed.
Lemma number_no_us s q : number s q -> ~ In "_"%char s.
Proof.
  intros H Hi. apply number_chars in H. rewrite Forall_forall in H. apply (number_char_no "_" _ (H _ Hi)); cbn; auto.
Qed.

(** is_int() of a number text agrees with int(). *)
Lemma is_int_number s q : number s q -> is_int s = true -> exists z, py_int s = Some z /\ (inject_Z z == q)%Q.
Proof.
  intros Hn Hi. pose proof (number_no_us s q Hn) as Hu.
  assert (E : exists z, py_int s = Some z).
  { unfold is_int in Hi. destruct (py_int s) as [z|] eqn:E; [eauto|].
    destruct (py_int0 s) as [v|] eqn:E0; [|discriminate]. exfalso.
    pose proof (number_chars s q Hn) as Hc. rewrite Forall_forall in Hc.
    unfold py_int in E. unfold py_int0 in E0. destruct (lstrip_inv is_cspace s) as (b1 & Es & _).
    destruct (lstrip_by is_cspace s) as [|c t]; [discriminate|].
    assert (K : forall l w, (forall k, In k l -> In k s) -> int_base0 l = Some w -> int_digits 10 l = Some w).
    { intros l w Hl. unfold int_base0. destruct l as [|x l]; [discriminate|].
      destruct (Ascii.eqb x "0"); [|auto]. destruct l as [|y l]; [auto|].
      assert (Hy : number_char y) by (apply Hc, Hl; right; now left).
      assert (N : forall k, In k ["x"; "X"; "o"; "O"; "b"; "B"]%char -> Ascii.eqb y k = false).
      { intros k Hk. apply Ascii.eqb_neq. apply number_char_no; [exact Hy|]. cbn in *. tauto. }
      rewrite !N by (cbn; tauto). cbn [orb].
      destruct (int_digits 10 (x :: y :: l)) as [u|]; [|discriminate]. destruct (u =? 0); congruence. }
    assert (Hin : forall k, In k (c :: t) -> In k s) by (intros k Hk; rewrite Es; apply in_or_app; auto).
    destruct (Ascii.eqb c "+"); [|destruct (Ascii.eqb c "-")].
    - apply K in E0; [congruence|]. intros k Hk. apply Hin. now right.
    - destruct (int_base0 t) as [w|] eqn:Ew; [|discriminate]. apply K in Ew; [|intros k Hk; apply Hin; now right].
      rewrite Ew in E. discriminate.
    - apply K in E0; [congruence|]. exact Hin. }
  destruct E as (z & E). exists z. split; [exact E|].
  destruct (py_int_float s z Hu E) as (q1 & E1 & H1). destruct (py_float_number s q Hn) as (q2 & E2 & H2).
  rewrite E1 in E2. injection E2 as ->. now rewrite <- H1.
Qed.
