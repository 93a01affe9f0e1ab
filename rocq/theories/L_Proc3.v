(** The end-of-command marker of the interactive shell: proofs of C58. *)
From Verif Require Import Base L_Base M_Text S_Text L_Text M_Proc S_Proc L_Proc L_Proc2.
From Coq Require Import ZifyBool.

Lemma rsplit_some t a b : rsplit_nl t = Some (a, b) -> t = a ++ NL :: b /\ ~ In NL b.
Proof.
  revert a b. induction t as [|c t IH]; intros a b H; cbn [rsplit_nl] in H; [discriminate|].
  destruct (rsplit_nl t) as [[a1 b1]|] eqn:E.
  - injection H as <- <-. destruct (IH _ _ eq_refl) as (-> & Hb). auto.
  - destruct (Ascii.eqb_spec c NL) as [-> |]; [|discriminate]. injection H as <- <-. split; [reflexivity|].
    clear -E. induction t as [|c t IH]; [intros []|]. cbn [rsplit_nl] in E.
    destruct (rsplit_nl t) as [[? ?]|]; [discriminate|].
    destruct (Ascii.eqb_spec c NL); [discriminate|]. intros [H|H]; [now subst|]. now apply IH.
Qed.

Lemma rsplit_none t : rsplit_nl t = None -> ~ In NL t.
Proof.
  induction t as [|c t IH]; intros E; [intros []|]. cbn [rsplit_nl] in E.
  destruct (rsplit_nl t) as [[? ?]|]; [discriminate|].
  destruct (Ascii.eqb_spec c NL); [discriminate|]. intros [H|H]; [now subst|]. now apply IH.
Qed.

Lemma starts_with_iff a l : starts_with a l = true <-> exists r, l = a ++ r.
Proof.
  revert l. induction a as [|c a IH]; intros l; cbn [starts_with].
  - split; [intros _; exists l; reflexivity|auto].
  - destruct l as [|d l]; [split; [discriminate|intros (r & E); discriminate]|].
    rewrite andb_true_iff, IH. destruct (Ascii.eqb_spec c d) as [-> |Hn].
    + split; [intros (_ & r & ->); exists r; reflexivity|intros (r & E); injection E as ->; eauto].
    + split; [intros (H & _); discriminate|intros (r & E); injection E as E _; congruence].
Qed.

Lemma span_dig_ok l ds rest : span_dig l = (ds, rest) ->
  l = ds ++ rest /\ Forall (fun c => is_dig c = true) ds /\ (forall c t, rest = c :: t -> is_dig c = false).
Proof.
  revert ds rest. induction l as [|c l IH]; intros ds rest H; cbn [span_dig] in H.
  - injection H as <- <-. repeat split; auto. discriminate.
  - destruct (is_dig c) eqn:Ed.
    + destruct (span_dig l) as [a b]. injection H as <- <-. destruct (IH _ _ eq_refl) as (-> & A & B).
      repeat split; auto.
    + injection H as <- <-. repeat split; auto. intros c' t E. injection E as <- _. exact Ed.
Qed.

Lemma span_dig_app ds c r : Forall (fun c => is_dig c = true) ds -> is_dig c = false ->
  span_dig (ds ++ c :: r) = (ds, c :: r).
Proof.
  intros H Hc. induction H as [|d ds Hd _ IH]; cbn [app span_dig].
  - rewrite Hc. reflexivity.
  - rewrite Hd, IH. reflexivity.
Qed.

Lemma match_sound m ll ds : match_marker m ll = Some ds ->
  ll = m ++ s2l ", " ++ ds ++ s2l " ---" /\ Forall (fun c => is_dig c = true) ds /\ ds <> [].
Proof.
  unfold match_marker. destruct (starts_with (m ++ s2l ", ") ll) eqn:E; [|discriminate].
  apply starts_with_iff in E. destruct E as (r & ->). rewrite skipn_app, Nat.sub_diag, skipn_all. cbn [app skipn].
  destruct (span_dig r) as [d rest] eqn:Es. destruct (span_dig_ok _ _ _ Es) as (-> & Hd & _).
  destruct (nonemptyb d) eqn:En; [|discriminate]. cbn [andb].
  unfold str_eqb. destruct (list_eq_dec ascii_dec rest (s2l " ---")) as [-> |]; [|discriminate].
  intros H. injection H as <-. rewrite <- app_assoc. split; [reflexivity|]. split; [exact Hd|].
  intros ->. discriminate.
Qed.

Lemma match_complete m ds : Forall (fun c => is_dig c = true) ds -> ds <> [] ->
  match_marker m (m ++ s2l ", " ++ ds ++ s2l " ---") = Some ds.
Proof.
  intros Hd Hn. unfold match_marker.
  replace (m ++ s2l ", " ++ ds ++ s2l " ---") with ((m ++ s2l ", ") ++ ds ++ s2l " ---") by (rewrite <- app_assoc; reflexivity).
  rewrite (proj2 (starts_with_iff _ _)) by eauto. rewrite skipn_app, Nat.sub_diag, skipn_all. cbn [app skipn].
  change (s2l " ---") with (" "%char :: s2l "---"). rewrite span_dig_app by (auto || reflexivity).
  destruct ds; [congruence|]. cbn [nonemptyb andb]. unfold str_eqb.
  destruct (list_eq_dec ascii_dec _ _); [reflexivity|]. exfalso. now apply n.
Qed.

Lemma is_dig_iff c : is_dig c = true <-> is_digit c.
Proof. unfold is_dig, is_digit. lia. Qed.

Lemma dec_digs e : 0 <= e -> Forall (fun c => is_dig c = true) (dec e) /\ dec e <> [] /\ int_digits 10 (dec e) = Some e.
Proof.
  intros He. pose proof (dec_numeral e He) as Hn. pose proof Hn as (N1 & N2 & _).
  split; [eapply Forall_impl; [|exact N2]; intros c Hc; now apply is_dig_iff|]. split; [exact N1|].
  rewrite <- (app_nil_r (dec e)). apply int_digits_num; [exact Hn|]. constructor.
Qed.

(** A proper prefix of the marker line does not match. *)
Lemma match_prefix m e a b ds : 0 <= e -> a ++ b = marker_line m e -> match_marker m a = Some ds -> b = [] /\ ds = dec e.
Proof.
  intros He Hab Hm. destruct (match_sound _ _ _ Hm) as (-> & Hd & Hn). unfold marker_line in Hab.
  rewrite <- !app_assoc in Hab. apply app_inv_head in Hab. apply app_inv_head in Hab.
  destruct (dec_digs e He) as (D1 & D2 & _).
  assert (E : span_dig (ds ++ s2l " ---" ++ b) = span_dig (dec e ++ s2l " ---")) by (rewrite Hab; reflexivity).
  change (s2l " ---" ++ b) with (" "%char :: (s2l "---" ++ b)) in E. change (s2l " ---") with (" "%char :: s2l "---") in E.
  rewrite !span_dig_app in E by (auto || reflexivity). injection E as -> E. split; [|reflexivity].
  exact E.
Qed.

Lemma marker_nonl m e : 0 <= e -> ~ In NL m -> ~ In NL (marker_line m e).
Proof.
  intros He Hm. unfold marker_line. rewrite !in_app_iff. intros [H|[H|[H|H]]].
  - now apply Hm.
  - cbn in H. repeat destruct H as [H|H]; try discriminate; exact H.
  - destruct (dec_digs e He) as (D & _). rewrite Forall_forall in D. apply D in H. discriminate.
  - cbn in H. repeat destruct H as [H|H]; try discriminate; exact H.
Qed.

(** What is known about '_ll' and '_check_ll' when 'c' was received. *)
Definition suspect (T c ll : str) (check : bool) : Prop :=
  ~ In NL ll /\ forall m', c = T ++ m' -> ll = m' /\ (m' = [] \/ check = true).

Lemma prefix_suspect m e a b : a ++ b = marker_line m e -> starts_with m a || starts_with a m = true.
Proof.
  unfold marker_line. intros H. apply app_eq_app in H. destruct H as (l & [(E & _)|(E & _)]).
  - rewrite (proj2 (starts_with_iff m a)); [reflexivity|eauto].
  - rewrite orb_true_iff. right. apply starts_with_iff. eauto.
Qed.

Lemma watch_ok m T e c d rest pre ll check : good_marker m T -> newline_ended T -> 0 <= e ->
  c ++ d ++ rest = T ++ marker_line m e -> d <> [] -> pre ++ ll = c -> suspect T c ll check ->
  match watch_for_marker m ll check d with
  | (cdata, ex, ll', check') =>
      rest = [] /\ ex = Some e /\ ll' = [] /\ pre ++ cdata = T \/
      rest <> [] /\ ex = None /\ pre ++ cdata ++ ll' = c ++ d /\ suspect T (c ++ d) ll' check'
  end.
Proof.
  intros (Hm & Hm0 & Hocc) HT He Heq Hd Hpre (Hll & Hsus).
  pose proof (marker_nonl m e He Hm) as Hml.
  (* after the text step: the data captured and the new '_ll' *)
  set (st := match rsplit_nl d with
             | Some (a, b) => (ll ++ a ++ [NL], b, true)
             | None => let check := if nonemptyb ll then check else true in
                       if check then ([], ll ++ d, check) else (ll ++ d, [], check)
             end).
  assert (Hst : let '(cdata, ll1, check1) := st in
    pre ++ cdata ++ ll1 = c ++ d /\ ~ In NL ll1 /\ forall m', c ++ d = T ++ m' -> ll1 = m' /\ check1 = true).
  { unfold st. destruct (rsplit_nl d) as [[a b]|] eqn:Er.
    - destruct (rsplit_some _ _ _ Er) as (-> & Hb). split; [|split; [exact Hb|]].
      + rewrite <- Hpre, <- !app_assoc. cbn [app]. reflexivity.
      + intros m' Em. split; [|reflexivity].
        assert (Hnm' : ~ In NL m').
        { intros H. apply Hml. rewrite app_assoc, Em, <- app_assoc in Heq. apply app_inv_head in Heq.
          rewrite <- Heq, in_app_iff. now left. }
        (* compare the last newline on both sides *)
        destruct HT as [-> |(T' & ->)].
        * exfalso. apply Hnm'. cbn [app] in Em. rewrite <- Em, !in_app_iff. right. right. now left.
        * rewrite <- app_assoc in Em. cbn [app] in Em.
          replace (c ++ a ++ NL :: b) with ((c ++ a) ++ NL :: b) in Em by (rewrite <- app_assoc; reflexivity).
          clear -Em Hb Hnm'. revert T' Em. generalize (c ++ a) as u.
          induction u as [|x u IH]; intros [|y T'] Em; cbn [app] in Em.
          -- injection Em. auto.
          -- exfalso. injection Em as _ Em. apply Hb. rewrite Em, in_app_iff. right. now left.
          -- exfalso. injection Em as _ Em. apply Hnm'. rewrite <- Em, in_app_iff. right. now left.
          -- injection Em as _ Em. exact (IH _ Em).
    - pose proof (rsplit_none _ Er) as Hnd.
      assert (Hcm : forall m', c ++ d = T ++ m' -> exists m0, c = T ++ m0 /\ m0 ++ d = m').
      { intros m' Em. apply app_eq_app in Em. destruct Em as (l & [(E1 & E2)|(E1 & E2)]).
        - exists l. auto.
        - destruct l as [|x l] using rev_ind.
          + exists []. rewrite app_nil_r in *. subst. auto.
          + exfalso. destruct HT as [-> |(T' & ->)].
            * apply app_eq_nil in E1 || symmetry in E1. destruct c; [|discriminate]. destruct l; discriminate.
            * rewrite app_assoc in E1. apply app_inj_tail in E1. destruct E1 as (_ & <-). apply Hnd. rewrite E2, !in_app_iff.
              left. right. now left. }
      cbn zeta. destruct (nonemptyb ll) eqn:Enl; [destruct check|].
      + split; [rewrite <- Hpre, <- app_assoc; reflexivity|]. split; [rewrite in_app_iff; tauto|].
        intros m' Em. destruct (Hcm m' Em) as (m0 & E0 & <-). destruct (Hsus _ E0) as (-> & _). auto.
      + split; [rewrite <- Hpre, app_nil_r, <- app_assoc; reflexivity|]. split; [intros []|].
        intros m' Em. exfalso. destruct (Hcm m' Em) as (m0 & E0 & <-). destruct (Hsus _ E0) as (E1 & [E2|E2]); [|discriminate].
        rewrite E1, E2 in Enl. discriminate.
      + split; [rewrite <- Hpre, <- app_assoc; reflexivity|]. split; [rewrite in_app_iff; tauto|].
        intros m' Em. destruct (Hcm m' Em) as (m0 & E0 & <-). destruct (Hsus _ E0) as (-> & _). auto. }
  unfold watch_for_marker. fold st. destruct st as [[cdata ll1] check1]. destruct Hst as (S1 & S2 & S3).
  (* no match before the whole marker line is there *)
  assert (Hsplit : (exists m', c ++ d = T ++ m' /\ m' ++ rest = marker_line m e) \/ (exists t, t <> [] /\ T = (c ++ d) ++ t)).
  { rewrite app_assoc in Heq. apply app_eq_app in Heq. destruct Heq as (l & [(E1 & E2)|(E1 & E2)]).
    - left. exists l. auto.
    - destruct l as [|x l]; [left; exists []; rewrite app_nil_r in *; subst; auto|].
      right. exists (x :: l). split; [discriminate|exact E1]. }
  destruct Hsplit as [(m' & Em & Hr)|(t & Ht & ET)].
  - destruct (S3 _ Em) as (-> & ->). cbn [andb]. rewrite (prefix_suspect m e m' rest Hr).
    assert (Hcd : pre ++ cdata = T).
    { apply (app_inv_tail m'). rewrite <- app_assoc, S1. exact Em. }
    destruct (match_marker m m') as [ds|] eqn:Emm.
    + destruct (match_prefix m e m' rest ds He Hr Emm) as (-> & ->). left.
      destruct (dec_digs e He) as (_ & _ & ->). auto.
    + right. split.
      * intros ->. rewrite app_nil_r in Hr. subst m'. unfold marker_line in Emm.
        destruct (dec_digs e He) as (D1 & D2 & _). rewrite (match_complete m (dec e) D1 D2) in Emm. discriminate.
      * split; [reflexivity|]. split; [exact S1|]. split; [exact S2|].
        intros m2 E2. rewrite Em in E2. apply app_inv_head in E2. subst. auto.
  - assert (Hno : match_marker m ll1 = None).
    { destruct (match_marker m ll1) as [ds|] eqn:Emm; [exfalso|reflexivity].
      destruct (match_sound _ _ _ Emm) as (El & _). apply Hocc.
      exists (pre ++ cdata), ((s2l ", " ++ ds ++ s2l " ---") ++ t). rewrite ET, <- S1, El, <- !app_assoc. reflexivity. }
    rewrite Hno. replace (if if check1 then starts_with m ll1 || starts_with ll1 m else check1 then None else None)
      with (@None str) by (destruct check1, (starts_with m ll1 || starts_with ll1 m); reflexivity).
    right. split.
    + intros ->. apply (f_equal (@List.length ascii)) in Heq. rewrite ET, !app_length in Heq.
      destruct t; [congruence|]. cbn [List.length] in Heq. lia.
    + split; [reflexivity|]. split; [exact S1|]. split; [exact S2|].
      intros m' Em. exfalso. apply (f_equal (@List.length ascii)) in Em. rewrite ET, !app_length in Em.
      destruct t; [congruence|]. cbn [List.length] in Em. lia.
Qed.
