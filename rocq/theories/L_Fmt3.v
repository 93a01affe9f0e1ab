(** Lemmas about how values are written: the property values, reading lists back. *)
From Coq Require Import QArith Qabs Qpower Lqa ZifyBool.
From Verif Require Import Base L_Base M_Text S_Text L_Text M_Human S_Human L_Human L_Human2 L_Human3 L_Human4 L_Human5 L_Human6 M_Fmt S_Fmt L_Fmt L_Fmt2 L_Remote.

Lemma s_unit : base_unit (s2l "s").
Proof. cbn. tauto. Qed.

(** "250s" *)
Lemma whole_seconds n : 0 <= n -> exactly (s2l "s") (dec n ++ s2l "s") (inject_Z n).
Proof.
  intros Hn. pose proof (dec_nat_numeral n Hn) as (N1 & N2 & N3 & _).
  assert (E : dec n = dec_nat n) by (unfold dec; destruct (Z.ltb_spec n 0); [lia|reflexivity]). rewrite E.
  split; [split; [intros X; apply app_eq_nil in X as (X & _); contradiction|apply word_app; [now apply digits_word|apply unit_word, s_unit]]|].
  destruct (number_plain [] 1 (dec_nat n) [] []) as (q & Hq & Eq); [constructor|exact N2|constructor|exact N1|now right|].
  cbn [app] in Hq. rewrite app_nil_r in Hq. destruct (emit (s2l "s") _ q [] [] 0 s_unit Hq (Forall_nil _)) as (w & Ew & Hw); [now left|].
  exists w. split; [exact Ew|]. rewrite Hw, Eq, app_nil_r, N3. cbn [length]. change ((10 # 1) ^ (- Z.of_nat 0))%Q with 1%Q. change ((10 # 1) ^ 0)%Q with 1%Q.
  replace (1 * n) with n by lia. ring.
Qed.

Lemma trunc_spec v : (0 <= v)%Q -> 0 <= trunc v /\ (inject_Z (trunc v) <= v /\ v < inject_Z (trunc v) + 1)%Q.
Proof.
  intros H. unfold trunc. destruct v as (a & d). unfold Qle in H. cbn in H. assert (Ha : 0 <= a) by lia.
  cbn [Qnum Qden]. rewrite Z.quot_div_nonneg by lia. pose proof (Z.div_mod a (Zpos d) ltac:(lia)) as D. pose proof (Z.mod_pos_bound a (Zpos d) ltac:(lia)) as B.
  split; [apply Z.div_pos; lia|]. unfold Qle, Qlt, inject_Z, Qplus. cbn. nia.
Qed.

Lemma trunc_int n : trunc (inject_Z n) = n.
Proof. unfold trunc, inject_Z. cbn [Qnum Qden]. apply Z.quot_1_r. Qed.

Lemma exactly_about u t v : exactly u t v -> about u t v.
Proof.
  intros (W & w & E & Hw). split; [exact W|]. exists w. split; [exact E|]. right.
  setoid_replace (w - v)%Q with 0%Q by (rewrite Hw; ring). discriminate.
Qed.

Lemma format_unit_about unit v : base_unit unit -> unit <> s2l "s" \/ (v <= inject_Z 100)%Q ->
  exists t, format_unit unit v = Ok t /\ about unit t v.
Proof.
  intros Hu Hc. unfold format_unit.
  assert (E : str_eqb unit (s2l "s") && q_lt (inject_Z 100) v = false).
  { apply andb_false_iff. destruct Hc as [Hc|Hc]; [left|right; now apply q_lt_false].
    destruct (str_eqb unit (s2l "s")) eqn:X; [|reflexivity]. apply str_eqb_eq in X. contradiction. }
  rewrite E. now apply num2si_about.
Qed.

Lemma format_unit_seconds v : (inject_Z 100 < v)%Q -> exists t, format_unit (s2l "s") v = Ok t /\ to_a_second t v.
Proof.
  intros Hv. unfold format_unit. assert (E : str_eqb (s2l "s") (s2l "s") && q_lt (inject_Z 100) v = true).
  { apply andb_true_iff. split; [reflexivity|now apply q_lt_spec]. }
  rewrite E. eexists. split; [reflexivity|]. assert (Hp : (0 <= v)%Q) by (change (inject_Z 100) with (100 # 1)%Q in Hv; lra).
  destruct (trunc_spec v Hp) as (T0 & T1 & T2). destruct (whole_seconds (trunc v) T0) as (W & w & Ew & Hw).
  split; [exact W|]. exists w. split; [exact Ew|]. rewrite Hw. apply Qabs_Qlt_condition. lra.
Qed.

Lemma fmtz_about unit v : base_unit unit -> exists t, fmtz unit v = Ok t /\ about unit t (inject_Z v).
Proof.
  intros Hu. unfold fmtz, format_unit. destruct (str_eqb unit (s2l "s") && q_lt (inject_Z 100) (inject_Z v)) eqn:E; [|now apply num2si_about].
  apply andb_true_iff in E as (E1 & E2). apply str_eqb_eq in E1. apply q_lt_spec in E2. rewrite <- Zlt_Qlt in E2.
  eexists. split; [reflexivity|]. rewrite trunc_int, E1. apply exactly_about, whole_seconds. lia.
Qed.

Lemma fmtz_exactly unit v : base_unit unit -> short v -> exists t, fmtz unit v = Ok t /\ exactly unit t (inject_Z v).
Proof.
  intros Hu Hs. unfold fmtz, format_unit. destruct (str_eqb unit (s2l "s") && q_lt (inject_Z 100) (inject_Z v)) eqn:E; [|now apply num2si_exact].
  apply andb_true_iff in E as (E1 & E2). apply str_eqb_eq in E1. apply q_lt_spec in E2. rewrite <- Zlt_Qlt in E2.
  eexists. split; [reflexivity|]. rewrite trunc_int, E1. apply whole_seconds. lia.
Qed.

(** ** The property values *)

Lemma number_l unit v : base_unit unit -> unit <> s2l "s" \/ (v <= inject_Z 100)%Q ->
  exists t, format_value (PNumb unit v) = Ok (FText t) /\ about unit t v.
Proof. intros Hu Hc. destruct (format_unit_about unit v Hu Hc) as (t & E & H). exists t. cbn [format_value]. rewrite E. auto. Qed.

Lemma seconds_l v : (inject_Z 100 < v)%Q -> exists t, format_value (PNumb (s2l "s") v) = Ok (FText t) /\ to_a_second t v.
Proof. intros Hv. destruct (format_unit_seconds v Hv) as (t & E & H). exists t. cbn [format_value]. rewrite E. auto. Qed.

Lemma exact_number_l unit v : base_unit unit -> short v ->
  exists t, format_value (PNumb unit (inject_Z v)) = Ok (FText t) /\ exactly unit t (inject_Z v).
Proof. intros Hu Hs. destruct (fmtz_exactly unit v Hu Hs) as (t & E & H). exists t. cbn [format_value]. unfold fmtz in E. rewrite E. auto. Qed.

Lemma list_l unit l : base_unit unit -> l <> [] ->
  exists txt, format_value (PNums unit l) = Ok (FText txt) /\ stands (fun t v => about unit t (inject_Z v)) txt l.
Proof. intros Hu Hl. apply format_stands; [exact Hl| |]; intros; now apply fmtz_about. Qed.

Lemma list_exact_l unit l : base_unit unit -> l <> [] -> Forall short l -> Forall (fun d => d = 0 \/ short d) (differences l) ->
  exists txt, format_value (PNums unit l) = Ok (FText txt) /\ stands (fun t v => exactly unit t (inject_Z v)) txt l.
Proof.
  intros Hu Hl Hs Hd. rewrite Forall_forall in Hs, Hd. apply format_stands; [exact Hl| |].
  - intros v Hv. apply fmtz_exactly; auto.
  - intros v Hv Hn. apply fmtz_exactly; auto. destruct (Hd v Hv); [contradiction|assumption].
Qed.

(** ** Reading a list back *)

Fixpoint commas (ts : list str) : list str :=
  match ts with [] => [] | [t] => [t] | t :: r => (t ++ [","%char]) :: commas r end.

Lemma split_listed ts txt : listed ts txt -> Forall word ts -> split_on " "%char txt = commas ts.
Proof.
  induction 1 as [t|t ts r H IH]; intros Hw.
  - inversion Hw as [|? ? (_ & W & _)]; subst. now apply split_on_free.
  - inversion Hw as [|? ? (_ & W & _) Hw']; subst. cbn [s2l app].
    change (split_on " "%char (t ++ ([","%char] ++ (" "%char :: r))) = commas (t :: ts)). rewrite app_assoc, split_on_app, IH by exact Hw'.
    rewrite split_on_free by (rewrite in_app_iff; intros [X|[X|[]]]; [contradiction|discriminate]).
    destruct ts; [inversion H|reflexivity].
Qed.

Lemma split_steps tf tl ts : word tf -> word tl -> word ts ->
  split_on " "%char (tf ++ s2l " - " ++ tl ++ s2l " with step " ++ ts) = [tf; s2l "-"; tl; s2l "with"; s2l "step"; ts].
Proof.
  intros (_ & F & _) (_ & L & _) (_ & T & _).
  change (split_on " "%char (tf ++ " "%char :: (s2l "-" ++ " "%char :: (tl ++ " "%char :: (s2l "with" ++ " "%char :: (s2l "step" ++ " "%char :: ts))))) =
    [tf; s2l "-"; tl; s2l "with"; s2l "step"; ts]).
  rewrite !split_on_app. rewrite (split_on_free _ tf), (split_on_free _ tl), (split_on_free _ ts) by assumption. reflexivity.
Qed.

Lemma split_more tf tl ts tt : word tf -> word tl -> word ts -> word tt ->
  split_on " "%char (tf ++ s2l " - " ++ tl ++ s2l " with step " ++ ts ++ s2l ", " ++ tt) =
  [tf; s2l "-"; tl; s2l "with"; s2l "step"; ts ++ [","%char]; tt].
Proof.
  intros (_ & F & _) (_ & L & _) (_ & T & _) (_ & M & _).
  change (split_on " "%char (tf ++ " "%char :: (s2l "-" ++ " "%char :: (tl ++ " "%char :: (s2l "with" ++ " "%char :: (s2l "step" ++ " "%char ::
    (ts ++ ([","%char] ++ " "%char :: tt))))))) = [tf; s2l "-"; tl; s2l "with"; s2l "step"; ts ++ [","%char]; tt]).
  rewrite (app_assoc ts). rewrite !split_on_app. rewrite (split_on_free _ tf), (split_on_free _ tl), (split_on_free _ tt) by assumption.
  rewrite (split_on_free _ (ts ++ [","%char])) by (rewrite in_app_iff; intros [X|[X|[]]]; [contradiction|discriminate]). reflexivity.
Qed.

Lemma commas_inj : forall a b, commas a = commas b -> a = b.
Proof.
  induction a as [|x a IH]; intros [|y b] E; [reflexivity|destruct b; discriminate|destruct a; discriminate|].
  destruct a as [|x' a], b as [|y' b].
  - cbn in E. injection E as ->. reflexivity.
  - destruct b; discriminate.
  - destruct a; discriminate.
  - change (commas (x :: x' :: a)) with ((x ++ [","%char]) :: commas (x' :: a)) in E.
    change (commas (y :: y' :: b)) with ((y ++ [","%char]) :: commas (y' :: b)) in E.
    injection E as E1 E2. apply app_inj_tail in E1 as (-> & _). f_equal. now apply IH.
Qed.

(** The second word of at least three is not "-". *)
Lemma commas_dash ts a c d r : commas ts = a :: s2l "-" :: c :: d :: r -> False.
Proof.
  destruct ts as [|x [|y [|z ts]]]; try discriminate.
  change (commas (x :: y :: z :: ts)) with ((x ++ [","%char]) :: (y ++ [","%char]) :: commas (z :: ts)).
  intros E. injection E as _ E _. assert (X : In ","%char (y ++ [","%char])) by (apply in_app_iff; right; now left).
  assert (E' : y ++ [","%char] = s2l "-") by exact E. rewrite E' in X. cbn in X. intuition discriminate.
Qed.

Lemma stands_words (num : str -> Z -> Prop) txt l : (forall t v, num t v -> word t) -> stands num txt l ->
  (exists ts, split_on " "%char txt = commas ts /\ Forall2 num ts l) \/
  (exists tf tl ts f st n, split_on " "%char txt = [tf; s2l "-"; tl; s2l "with"; s2l "step"; ts] /\
     num tf f /\ num tl (f + Z.of_nat n * st) /\ num ts st /\ st <> 0 /\ l = progression f st n) \/
  (exists tf tl ts tt f st n v, split_on " "%char txt = [tf; s2l "-"; tl; s2l "with"; s2l "step"; ts ++ [","%char]; tt] /\
     num tf f /\ num tl (f + Z.of_nat n * st) /\ num ts st /\ st <> 0 /\ num tt v /\ l = progression f st n ++ [v]).
Proof.
  intros Hw H. assert (FW : forall ts vs, Forall2 num ts vs -> Forall word ts) by (induction 1; constructor; eauto).
  destruct H as [ts vs txt F L|tf tl ts f st n A B C D N|tf tl ts tt f st n v A B C D N V].
  - left. exists ts. split; [|exact F]. apply split_listed; eauto.
  - right. left. exists tf, tl, ts, f, st, n. rewrite split_steps by eauto. auto 10.
  - right. right. exists tf, tl, ts, tt, f, st, n, v. rewrite split_more by eauto. auto 10.
Qed.

Lemma unambiguous_gen (num : str -> Z -> Prop) txt l1 l2 :
  (forall t v, num t v -> word t) -> (forall t v1 v2, num t v1 -> num t v2 -> v1 = v2) ->
  stands num txt l1 -> stands num txt l2 -> l1 = l2.
Proof.
  intros Hw Hf S1 S2.
  assert (FU : forall ts vs, Forall2 num ts vs -> forall vs', Forall2 num ts vs' -> vs = vs').
  { induction 1 as [|t v ts vs H _ IH]; intros vs' H'; inversion H'; subst; [reflexivity|]. f_equal; [eapply Hf; eauto|now apply IH]. }
  assert (P : forall f st n n', st <> 0 -> f + Z.of_nat n * st = f + Z.of_nat n' * st -> n = n').
  { intros f st n n' Hs E. apply Z.add_reg_l, Z.mul_reg_r in E; [lia|exact Hs]. }
  apply (stands_words num txt l1 Hw) in S1. apply (stands_words num txt l2 Hw) in S2.
  destruct S1 as [(ts1 & W1 & F1)|[(tf1 & tl1 & ts1 & f1 & st1 & n1 & W1 & A1 & B1 & C1 & D1 & ->)|
    (tf1 & tl1 & ts1 & tt1 & f1 & st1 & n1 & v1 & W1 & A1 & B1 & C1 & D1 & V1 & ->)]];
  destruct S2 as [(ts2 & W2 & F2)|[(tf2 & tl2 & ts2 & f2 & st2 & n2 & W2 & A2 & B2 & C2 & D2 & ->)|
    (tf2 & tl2 & ts2 & tt2 & f2 & st2 & n2 & v2 & W2 & A2 & B2 & C2 & D2 & V2 & ->)]]; rewrite W1 in W2.
  - apply commas_inj in W2. subst ts2. eapply FU; eauto.
  - exfalso. eapply commas_dash; exact W2.
  - exfalso. eapply commas_dash; exact W2.
  - exfalso. symmetry in W2. eapply commas_dash; exact W2.
  - injection W2 as -> -> ->. assert (f1 = f2) by eauto. assert (st1 = st2) by eauto. subst f2 st2.
    assert (n1 = n2) by (eapply P; eauto). now subst n2.
  - discriminate.
  - exfalso. symmetry in W2. eapply commas_dash; exact W2.
  - discriminate.
  - injection W2 as -> -> W2 ->. apply app_inj_tail in W2 as (-> & _).
    assert (f1 = f2) by eauto. assert (st1 = st2) by eauto. assert (v1 = v2) by eauto. subst f2 st2 v2.
    assert (n1 = n2) by (eapply P; eauto). now subst n2.
Qed.

Lemma unambiguous_l unit txt l1 l2 :
  stands (fun t v => exactly unit t (inject_Z v)) txt l1 -> stands (fun t v => exactly unit t (inject_Z v)) txt l2 -> l1 = l2.
Proof.
  apply unambiguous_gen.
  - intros t v H. apply H.
  - intros t v1 v2 (_ & w1 & E1 & H1) (_ & w2 & E2 & H2). rewrite E1 in E2. injection E2 as <-. rewrite H1 in H2.
    unfold Qeq, inject_Z in H2. cbn in H2. lia.
Qed.

(** Two lists of short numbers with the same text are the same list. *)
Lemma same_text_l unit l1 l2 txt : base_unit unit -> l1 <> [] -> l2 <> [] ->
  Forall short l1 -> Forall (fun d => d = 0 \/ short d) (differences l1) ->
  Forall short l2 -> Forall (fun d => d = 0 \/ short d) (differences l2) ->
  format_value (PNums unit l1) = Ok (FText txt) -> format_value (PNums unit l2) = Ok (FText txt) -> l1 = l2.
Proof.
  intros Hu N1 N2 A1 B1 A2 B2 E1 E2.
  destruct (list_exact_l unit l1 Hu N1 A1 B1) as (t1 & F1 & S1). destruct (list_exact_l unit l2 Hu N2 A2 B2) as (t2 & F2 & S2).
  rewrite E1 in F1. rewrite E2 in F2. injection F1 as <-. injection F2 as <-. eapply unambiguous_l; eauto.
Qed.

(** ** The line *)


Lemma about_nonempty unit v : ~ about unit [] v.
Proof. intros ((H & _) & _). congruence. Qed.

Lemma stands_nonempty num txt l : stands num txt l -> (forall v, ~ num [] v) -> txt <> [].
Proof.
  intros H Hn ->. inversion H as [ts vs txt F L|tf tl ts f st n A B C D N E|tf tl ts tt f st n v A B C D N V E]; subst.
  - inversion L as [t|t ts' r L' E1 E2]; subst.
    + inversion F; subst. eapply Hn; eauto.
    + apply app_eq_nil in E2 as (_ & E2). discriminate.
  - apply app_eq_nil in E as (_ & E). discriminate.
  - apply app_eq_nil in E as (_ & E). discriminate.
Qed.

Lemma number_nonempty unit v : base_unit unit -> exists t, format_value (PNumb unit v) = Ok (FText t) /\ t <> [].
Proof.
  intros Hu. cbn [format_value]. unfold format_unit. destruct (str_eqb unit (s2l "s") && q_lt (inject_Z 100) v).
  - eexists. split; [reflexivity|]. intros E. apply app_eq_nil in E as (_ & E). discriminate.
  - destruct (num2si_about v unit Hu) as (t & E & H). rewrite E. exists t. split; [reflexivity|]. intros ->. now apply (about_nonempty unit v).
Qed.

Lemma nums_nonempty unit l : base_unit unit -> l <> [] -> exists t, format_value (PNums unit l) = Ok (FText t) /\ t <> [].
Proof.
  intros Hu Hl. destruct (list_l unit l Hu Hl) as (t & E & S). exists t. split; [exact E|]. eapply stands_nonempty; [exact S|].
  intros v. apply about_nonempty.
Qed.

Lemma join_listed_eq ts t : listed ts t -> join_cs ts = t.
Proof.
  induction 1 as [t|t ts r H IH]; [cbn; apply app_nil_r|]. destruct ts as [|x ts]; [inversion H|].
  rewrite <- IH. cbn [join_cs map concat]. now rewrite <- app_assoc.
Qed.

Lemma join_empty ts : join_cs ts = [] <-> ts = [] \/ ts = [[]].
Proof.
  split.
  - destruct ts as [|t [|x r]]; [now left| |].
    + cbn. rewrite app_nil_r. intros ->. now right.
    + cbn. intros E. apply app_eq_nil in E as (_ & E). discriminate.
  - now intros [-> | ->].
Qed.

Lemma dropped_l name nums v action prefix : units_ok v ->
  exists o, prop_line name nums (Some v) action prefix = Ok o /\
    (o = None <-> v = PDict [] \/ v = PTexts [] \/ v = PTexts [[]]).
Proof.
  intros Hu. unfold prop_line.
  destruct v as [t|unit q|d|l|unit l].
  - cbn [format_value rbind is_list_type is_text_type]. destruct t; eexists; (split; [reflexivity|]); (split; [discriminate|intros [|[|]]; discriminate]).
  - destruct (number_nonempty unit q Hu) as (t & -> & Ht). cbn [rbind]. destruct t; [congruence|].
    eexists; split; [reflexivity|]; split; [discriminate|intros [|[|]]; discriminate].
  - cbn [format_value rbind is_list_type is_text_type]. set (txt := join_cs _). destruct txt eqn:E; eexists; (split; [reflexivity|]).
    + split; [intros _|reflexivity]. left. unfold txt in E. apply join_empty in E as [E|E].
      * destruct d; [reflexivity|discriminate].
      * exfalso. destruct d as [|(k & x) d]; [discriminate|]. cbn in E. injection E as E _. apply app_eq_nil in E as (_ & E). discriminate.
    + split; [discriminate|]. intros [X|[X|X]]; try discriminate. injection X as ->. discriminate.
  - cbn [format_value rbind is_list_type is_text_type]. destruct (join_cs l) eqn:E; eexists; (split; [reflexivity|]).
    + split; [intros _|reflexivity]. apply join_empty in E as [-> | ->]; auto.
    + split; [discriminate|]. intros [X|[X|X]]; try discriminate; injection X as ->; discriminate.
  - destruct l as [|a l].
    + cbn [format_value format_nums rbind]. eexists; split; [reflexivity|]; split; [discriminate|intros [|[|]]; discriminate].
    + destruct (nums_nonempty unit (a :: l) Hu ltac:(discriminate)) as (t & -> & Ht). cbn [rbind]. destruct t; [congruence|].
      eexists; split; [reflexivity|]; split; [discriminate|intros [|[|]]; discriminate].
Qed.

Lemma line_l name nums v action prefix t : prop_line name nums (Some v) action prefix = Ok (Some t) ->
  exists y, (format_value v = Ok (FText y) \/ format_value v = Ok FEmpty /\ y = s2l "()") /\
    t = the_line name nums action prefix (quoted nums v y).
Proof.
  unfold prop_line, the_line. intros H. destruct (format_value v) as [o|e] eqn:Ef; cbn [rbind] in H; [|discriminate].
  destruct o as [y|].
  - exists y. split; [now left|]. destruct y as [|c y].
    + destruct v as [x|u q|d|l|u l]; cbn [is_list_type is_text_type] in H; try discriminate; injection H as <-;
        destruct nums as [n|], prefix, action; cbn [quoted s2l app]; rewrite <- ?app_assoc; reflexivity.
    + injection H as <-. destruct v as [x|u q|d|l|u l]; cbn [is_text_type];
        destruct nums as [n|], prefix, action; cbn [quoted s2l app]; rewrite <- ?app_assoc; reflexivity.
  - exists (s2l "()"). split; [now right|]. injection H as <-.
    destruct v as [x|u q|d|l|u l]; cbn [format_value] in Ef; try discriminate; [destruct (format_unit u q); discriminate|].
    destruct nums, prefix, action; cbn [quoted app]; rewrite <- ?app_assoc; reflexivity.
Qed.

Lemma unsupported_l name nums action prefix :
  prop_line name nums None action prefix = Ok (Some (the_line name nums action prefix (s2l "not supported"))).
Proof. unfold prop_line, the_line. destruct nums, prefix, action; cbn [app]; rewrite <- ?app_assoc; reflexivity. Qed.

Lemma texts_l : (forall t, format_value (PText t) = Ok (FText t)) /\
  (forall l, l <> [] -> exists t, format_value (PTexts l) = Ok (FText t) /\ listed l t) /\
  (forall d, d <> [] -> exists t ts, format_value (PDict d) = Ok (FText t) /\ listed ts t /\
     Forall2 (fun x kv => x = fst kv ++ s2l "=" ++ snd kv) ts d).
Proof.
  split; [reflexivity|]. split.
  - intros l Hl. exists (join_cs l). split; [reflexivity|]. now apply join_listed.
  - intros d Hd. eexists. exists (map (fun kv => fst kv ++ "="%char :: snd kv) d). split; [reflexivity|]. split.
    + apply join_listed. destruct d; [congruence|discriminate].
    + clear. induction d; constructor; auto.
Qed.
