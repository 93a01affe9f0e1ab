(** Lemmas about starting, stopping and restoring systemd units. *)
From Coq Require Import Ascii String Lia.
From Verif Require Import Base M_Text M_CFreq M_TpmiSpec M_Systemd S_Systemd L_Base L_Text L_CFreq4 L_Human L_TpmiSpec2.
Open Scope list_scope.
Open Scope Z_scope.

Lemma spaces_forallb t : spaces t <-> forallb is_space t = true.
Proof. unfold spaces. now rewrite Forall_forall, forallb_forall. Qed.

Lemma strip_active out : strip out = s2l "active" <-> exists p q, spaces p /\ spaces q /\ out = p ++ s2l "active" ++ q.
Proof.
  split.
  - intros H. destruct (strip_inv is_space out) as (b1 & b2 & E & H1 & H2). exists b1, b2. rewrite !spaces_forallb.
    split; [exact H1|]. split; [exact H2|]. rewrite <- H. exact E.
  - intros (p & q & Hp & Hq & ->). apply spaces_forallb in Hp, Hq. unfold strip. apply strip_mid; auto. discriminate.
Qed.

Lemma words_spaces t rest : spaces t -> words_from (t ++ rest) [] = words_from rest [].
Proof. induction 1 as [|c t Hc Ht IH]; [reflexivity|]. cbn [app words_from]. rewrite Hc. exact IH. Qed.

Lemma words_has t ws : has_words t ws -> words t = ws.
Proof.
  unfold words. induction 1 as [t Ht|t w Ht [Hw Hs]|t w c rest ws Ht [Hw Hs] Hc H IH].
  - rewrite <- (app_nil_r t). now rewrite words_spaces.
  - rewrite words_spaces by exact Ht. rewrite <- (app_nil_r w) at 1.
    rewrite words_from_word by (now apply Forall_forall). cbn [words_from]. rewrite app_nil_r.
    destruct (rev w) eqn:E; [|now rewrite <- E, rev_involutive].
    apply (f_equal (@rev _)) in E. rewrite rev_involutive in E. now subst.
  - rewrite words_spaces by exact Ht. rewrite words_from_word by (now apply Forall_forall). cbn [words_from]. rewrite app_nil_r, Hc.
    destruct (rev w) eqn:E; [|now rewrite IH, <- E, rev_involutive].
    apply (f_equal (@rev _)) in E. rewrite rev_involutive in E. now subst.
Qed.

Lemma has_words_some t : exists ws, has_words t ws.
Proof.
  revert t. intros t. remember (List.length t) as n eqn:En. assert (Hle : (List.length t <= n)%nat) by (rewrite En; apply le_n). clear En.
    revert t Hle. induction n as [|n IH]; intros t Hle; [destruct t; [exists []; constructor; constructor|cbn in Hle; inversion Hle]|].
    assert (S1 : forall t : str, exists a b, t = a ++ b /\ spaces a /\ match b with [] => True | c :: _ => is_space c = false end).
    { induction t0 as [|c t0 (a & b & -> & Ha & Hb)]; [exists [], []; repeat split; constructor|]. destruct (is_space c) eqn:E.
      - exists (c :: a), b. repeat split; [now constructor|exact Hb].
      - exists [], (c :: a ++ b). repeat split; [constructor|exact E]. }
    assert (S2 : forall t : str, exists a b, t = a ++ b /\ Forall (fun c => is_space c = false) a /\ match b with [] => True | c :: _ => is_space c = true end).
    { induction t0 as [|c t0 (a & b & -> & Ha & Hb)]; [exists [], []; repeat split; constructor|]. destruct (is_space c) eqn:E.
      - exists [], (c :: a ++ b). repeat split; [constructor|exact E].
      - exists (c :: a), b. repeat split; [now constructor|exact Hb]. }
    destruct (S1 t) as (a & b & -> & Ha & Hb). destruct b as [|c b]; [exists []; rewrite app_nil_r; now constructor|].
    destruct (S2 (c :: b)) as (w & r & E & Hw & Hr). rewrite E in *. assert (Hw0 : w <> []).
    { intros ->. destruct r as [|d r]; [discriminate|]. cbn [app] in E. injection E as <- <-. cbn in Hb. congruence. }
    destruct r as [|d r]; [exists [w]; rewrite app_nil_r; constructor; [exact Ha|now split]|].
    destruct (IH r) as [ws Hws].
    { rewrite !app_length in Hle. cbn [List.length] in Hle. destruct w; [congruence|]. cbn [List.length] in Hle.
      lia. }
    exists (w :: ws). constructor; auto. now split.
Qed.
Lemma has_words_words t : has_words t (words t).
Proof. destruct (has_words_some t) as [ws H]. pose proof (words_has _ _ H) as E. now rewrite E. Qed.

Lemma timers_filter ws l : timers_of ws l -> filter (ends_with (s2l ".timer")) ws = l.
Proof.
  induction 1 as [|b ws l H IH|w ws l Hn H IH]; [reflexivity| |]; cbn [filter].
  - assert (E : ends_with (s2l ".timer") (b ++ s2l ".timer") = true) by (apply ends_with_iff; eauto). rewrite E. now f_equal.
  - destruct (ends_with (s2l ".timer") w) eqn:E; [|exact IH]. apply ends_with_iff in E as [b E]. now destruct (Hn b).
Qed.

Lemma timers_ex ws : timers_of ws (filter (ends_with (s2l ".timer")) ws).
Proof.
  induction ws as [|w ws IH]; [constructor|]. cbn [filter]. destruct (ends_with (s2l ".timer") w) eqn:E.
  - apply ends_with_iff in E as [b ->]. now constructor.
  - constructor; [|exact IH]. intros b ->. assert (ends_with (s2l ".timer") (b ++ s2l ".timer") = true) by (apply ends_with_iff; eauto). congruence.
Qed.

Section Sys.
  Context {W : Type}.
  Variable sd : sysd W.
  Variable active : str -> W -> bool.
  Hypothesis Ht : tells_active sd active.
  Hypothesis Ha : units_apart sd active.

  Lemma is_active_ok u (s : svc W) : is_active sd u s = (Ok (active u (v_w s)), s).
  Proof.
    unfold is_active, is_smth. destruct (Ht u (v_w s)) as (out & E & H). rewrite E. cbn [rbind]. do 2 f_equal.
    rewrite <- strip_active in H. destruct (str_eqb (strip out) (s2l "active")) eqn:E1.
    - apply str_eqb_eq in E1. symmetry. now apply H.
    - destruct (active u (v_w s)); [|reflexivity]. assert (strip out = s2l "active") as E2 by now apply H.
      apply str_eqb_eq in E2. congruence.
  Qed.

  Definition starts (a : str) : bool := str_eqb a (s2l "start") || str_eqb a (s2l "restart").
  Definition other_same (s s' : svc W) : Prop := v_ntp s' = v_ntp s /\ v_timers s' = v_timers s.
  (** what is remembered for a unit *)
  Definition saved (s : svc W) (u : str) : option str := dget str_eqb (v_units s) u.

  (** one unit *)
  Definition one (a : str) (sv : bool) (u : str) : M (svc W) unit :=
    on_system (sd_run sd a u) ;;
    (let! b := is_active sd u in if Bool.eqb b (starts a) then (if sv then save_unit u a else ret tt) else throw EError).

  Lemma run_is us a sv s : run_action sd us a sv s = mfor us (one a sv) s.
  Proof. reflexivity. Qed.

  Lemma one_eq a sv u (s : svc W) : one a sv u s =
    match sd_run sd a u (v_w s) with
    | (Exn e, w) => (Exn e, SVC w (v_units s) (v_ntp s) (v_timers s))
    | (Ok _, w) => if Bool.eqb (active u w) (starts a)
                   then (Ok tt, SVC w (if sv then match saved s u with None => dset str_eqb (v_units s) u a | Some _ => v_units s end else v_units s)
                                    (v_ntp s) (v_timers s))
                   else (Exn EError, SVC w (v_units s) (v_ntp s) (v_timers s))
    end.
  Proof.
    unfold one, mbind, on_system. destruct (sd_run sd a u (v_w s)) as [[[]|e] w]; [|reflexivity].
    rewrite is_active_ok. cbn [v_w]. destruct (Bool.eqb _ _); [|reflexivity]. destruct sv; [|reflexivity].
    unfold save_unit, modify, saved. cbn [v_units]. destruct (dget str_eqb (v_units s) u); reflexivity.
  Qed.

  Lemma one_ok a sv u (s s' : svc W) : one a sv u s = (Ok tt, s') ->
    active u (v_w s') = starts a /\ (forall u', u' <> u -> active u' (v_w s') = active u' (v_w s)) /\ other_same s s' /\
    (forall u', saved s' u' = match saved s u' with
                              | Some b => Some b
                              | None => if sv && str_eqb u' u then Some a else None
                              end) /\
    (NoDup (map fst (v_units s)) -> NoDup (map fst (v_units s'))).
  Proof.
    rewrite one_eq. destruct (sd_run sd a u (v_w s)) as [[[]|e] w] eqn:E; [|discriminate].
    destruct (Bool.eqb (active u w) (starts a)) eqn:E1; [|discriminate]. apply Bool.eqb_prop in E1.
    intros H. injection H as <-. unfold other_same, saved. cbn [v_w v_units v_ntp v_timers]. split; [exact E1|]. split; [now apply (Ha _ _ _ _ _ E)|].
    split; [auto|]. split.
    - intros u'. destruct sv; cbn [andb].
      + destruct (dget str_eqb (v_units s) u) as [b|] eqn:E2.
        * destruct (str_eqb u' u) eqn:E3; [apply str_eqb_eq in E3; subst u'; now rewrite E2|]. now destruct (dget str_eqb (v_units s) u').
        * destruct (str_eqb u' u) eqn:E3.
          -- apply str_eqb_eq in E3. subst u'. rewrite E2. now apply (dget_dset_same _ str_eqb_spec).
          -- rewrite (dget_dset_other _ str_eqb_spec); [now destruct (dget str_eqb (v_units s) u')|]. intros ->.
             assert (str_eqb u u = true) by now apply str_eqb_eq. congruence.
      + now destruct (dget str_eqb (v_units s) u').
    - intros Hn. destruct sv; [|exact Hn]. destruct (dget str_eqb (v_units s) u); [exact Hn|]. now apply (dset_NoDup _ str_eqb_spec).
  Qed.

  Lemma one_bad a sv u (s s' : svc W) e : one a sv u s = (Exn e, s') ->
    (forall u', u' <> u -> active u' (v_w s') = active u' (v_w s)) /\ other_same s s' /\ v_units s' = v_units s /\
    ((exists w', sd_run sd a u (v_w s) = (Exn e, w') /\ v_w s' = w') \/ (e = EError /\ active u (v_w s') = negb (starts a))).
  Proof.
    rewrite one_eq. destruct (sd_run sd a u (v_w s)) as [[[]|e'] w] eqn:E.
    - destruct (Bool.eqb (active u w) (starts a)) eqn:E1; [discriminate|]. intros H. injection H as <- <-.
      unfold other_same. cbn. split; [now apply (Ha _ _ _ _ _ E)|]. split; [auto|]. split; [reflexivity|]. right. split; [reflexivity|].
      destruct (active u w), (starts a); cbn in *; congruence.
    - intros H. injection H as <- <-. unfold other_same. cbn. split; [now apply (Ha _ _ _ _ _ E)|]. split; [auto|]. split; [reflexivity|].
      left. eauto.
  Qed.

  Lemma str_in_dec (u : str) us : In u us \/ ~ In u us.
  Proof.
    induction us as [|x us [IH|IH]]; [now right|left; now right|]. destruct (str_eqb x u) eqn:E.
    - apply str_eqb_eq in E. left. now left.
    - right. intros [->|H]; [|now apply IH]. assert (str_eqb u u = true) by now apply str_eqb_eq. congruence.
  Qed.
  Lemma str_eq_or (x u : str) : x = u \/ x <> u.
  Proof. destruct (str_eqb x u) eqn:E; [left; now apply str_eqb_eq|]. right. intros ->. assert (str_eqb u u = true) by now apply str_eqb_eq. congruence. Qed.
  Lemma eqb_ne (x u : str) : x <> u -> str_eqb x u = false.
  Proof. intros H. destruct (str_eqb x u) eqn:E; [apply str_eqb_eq in E; congruence|reflexivity]. Qed.

  Lemma run_ok a sv : forall us (s s' : svc W), run_action sd us a sv s = (Ok tt, s') ->
    (forall u, In u us -> active u (v_w s') = starts a) /\ (forall u, ~ In u us -> active u (v_w s') = active u (v_w s)) /\ other_same s s' /\
    (forall u, In u us -> sv = true -> saved s' u = match saved s u with Some b => Some b | None => Some a end) /\
    (forall u, ~ (In u us /\ sv = true) -> saved s' u = saved s u) /\
    (NoDup (map fst (v_units s)) -> NoDup (map fst (v_units s'))).
  Proof.
    intros us. induction us as [|x us IH]; intros s s'; rewrite run_is; cbn [mfor].
    - intros H. injection H as <-. cbn. repeat split; tauto.
    - unfold mbind. destruct (one a sv x s) as [[[]|e] s1] eqn:E; [|discriminate]. intros H. rewrite <- run_is in H.
      destruct (one_ok _ _ _ _ _ E) as (A1 & A2 & [A3 A3'] & A4 & A5). destruct (IH _ _ H) as (B1 & B2 & [B3 B3'] & B4 & B5 & B6).
      split; [|split; [|split; [|split; [|split]]]].
      + intros u Hu. destruct (str_in_dec u us) as [Hi|Hi]; [now apply B1|]. destruct Hu as [<-|Hu]; [|contradiction]. now rewrite B2.
      + intros u Hu. rewrite B2 by (intros Hi; apply Hu; now right). apply A2. intros ->. apply Hu. now left.
      + split; congruence.
      + intros u Hu ->. destruct (str_in_dec u us) as [Hi|Hi].
        * rewrite (B4 u Hi eq_refl), A4. destruct (saved s u) as [b|]; [reflexivity|]. now destruct (true && str_eqb u x).
        * destruct Hu as [<-|Hu]; [|contradiction]. rewrite B5 by tauto. rewrite A4. cbn [andb].
          assert (str_eqb x x = true) as -> by now apply str_eqb_eq. reflexivity.
      + intros u Hu. rewrite B5 by (intros [Hi Hv]; apply Hu; split; [now right|exact Hv]). rewrite A4. destruct (saved s u) as [b|]; [reflexivity|].
        destruct sv; [|reflexivity]. cbn [andb]. rewrite eqb_ne; [reflexivity|]. intros ->. apply Hu. split; [now left|reflexivity].
      + auto.
  Qed.

  Lemma run_bad a sv : forall us (s s' : svc W) e, run_action sd us a sv s = (Exn e, s') ->
    exists pre u post s1, us = pre ++ u :: post /\ run_action sd pre a sv s = (Ok tt, s1) /\ one a sv u s1 = (Exn e, s').
  Proof.
    intros us. induction us as [|x us IH]; intros s s' e; rewrite run_is; cbn [mfor]; [discriminate|].
    unfold mbind. destruct (one a sv x s) as [[[]|e'] s1] eqn:E.
    - intros H. rewrite <- run_is in H. destruct (IH _ _ _ H) as (pre & u & post & s2 & -> & H1 & H2).
      exists (x :: pre), u, post, s2. split; [reflexivity|]. split; [|exact H2]. rewrite run_is. cbn [mfor]. unfold mbind. rewrite E. exact H1.
    - intros H. injection H as <- <-. exists [], x, us, s. auto.
  Qed.

  Lemma run_obedient b sv : obedient sd active -> forall us (s : svc W),
    exists s', run_action sd us (if b : bool then s2l "start" else s2l "stop") sv s = (Ok tt, s').
  Proof.
    intros Ho us. induction us as [|x us IH]; intros s; [eexists; reflexivity|]. rewrite run_is. cbn [mfor]. unfold mbind. rewrite one_eq.
    destruct (Ho x (v_w s)) as [(w1 & E1 & H1) (w2 & E2 & H2)].
    destruct b; [rewrite E1, H1|rewrite E2, H2]; cbn [Bool.eqb starts str_eqb orb];
    match goal with |- context [match (if ?c then _ else _) with _ => _ end] => change c with true; cbv iota end;
    match goal with |- context [mfor us _ ?s1] => destruct (IH s1) as [s' E]; rewrite run_is in E; exists s'; exact E end.
  Qed.
End Sys.
