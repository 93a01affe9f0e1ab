(** Lemmas about stopping and restoring the NTP services and the timers. *)
From Coq Require Import Ascii String Lia.
From Verif Require Import Base M_Text M_CFreq M_TpmiSpec M_Systemd S_Systemd L_Base L_Text L_Systemd L_Systemd2.
Open Scope list_scope.
Open Scope Z_scope.

Section Sys.
  Context {W : Type}.
  Variable sd : sysd W.
  Variable active : str -> W -> bool.
  Hypothesis Ht : tells_active sd active.
  Hypothesis Ha : units_apart sd active.
  Notation run_ok := (run_ok sd active Ht Ha).
  Notation one_bad := (one_bad sd active Ht Ha).
  Notation run_bad := (run_bad sd).

  Definition ntp_body (service : str) : M (svc W) unit :=
    let! a := is_active sd service in
    if a then
      stop sd [service] false ;;
      modify (fun s => SVC (v_w s) (v_units s) (Some (match v_ntp s with Some l => l | None => [] end ++ [service])) (v_timers s))
    else ret tt.
  Definition ntp_list (s : svc W) : list str := match v_ntp s with Some l => l | None => [] end.

  (** one service *)
  Lemma body_ok x (s s' : svc W) : ntp_body x s = (Ok tt, s') -> v_ntp s <> None ->
    active x (v_w s') = false /\ (forall u, u <> x -> active u (v_w s') = active u (v_w s)) /\
    v_ntp s' = Some (ntp_list s ++ (if active x (v_w s) then [x] else [])) /\ v_units s' = v_units s /\ v_timers s' = v_timers s.
  Proof.
    unfold ntp_body, mbind. rewrite (is_active_ok sd active Ht). destruct (active x (v_w s)) eqn:Ex.
    - destruct (stop sd [x] false s) as [[[]|e] s1] eqn:E; [|discriminate]. intros H Hn. unfold modify in H. injection H as <-.
      unfold stop in E. destruct (run_ok _ _ _ _ _ E) as (A & B & [C C'] & _).
      assert (v_units s1 = v_units s).
      { rewrite run_is in E. cbn [mfor] in E. unfold mbind in E. rewrite (one_eq sd active Ht) in E.
        destruct (sd_run sd (s2l "stop") x (v_w s)) as [[[]|e] w]; [|discriminate]. destruct (Bool.eqb _ _); [|discriminate].
        injection E as <-. reflexivity. }
      cbn [v_w v_ntp v_units v_timers]. split; [apply (A x); now left|]. split; [intros u Hu; apply B; intros [<-|[]]; congruence|].
      rewrite C. unfold ntp_list. auto.
    - intros H Hn. injection H as <-. split; [exact Ex|]. split; [auto|]. unfold ntp_list. rewrite app_nil_r. destruct (v_ntp s); [auto|congruence].
  Qed.

  Lemma body_bad x (s s' : svc W) e : failing_harmless sd active -> ntp_body x s = (Exn e, s') ->
    (forall u, active u (v_w s') = active u (v_w s)) /\ v_ntp s' = v_ntp s.
  Proof.
    intros Hf. unfold ntp_body, mbind. rewrite (is_active_ok sd active Ht). destruct (active x (v_w s)) eqn:Ex; [|discriminate].
    destruct (stop sd [x] false s) as [[[]|e'] s1] eqn:E; [discriminate|]. intros H. injection H as <- <-. unfold stop in E.
    destruct (run_bad _ _ _ _ _ _ E) as (pre & u & post & s2 & Eu & E1 & E2).
    destruct pre as [|y pre]; [|destruct pre; discriminate]. cbn [app] in Eu. injection Eu as <- <-. cbn in E1. injection E1 as <-.
    destruct (one_bad _ _ _ _ _ _ E2) as (A & [B _] & _ & C). split; [|exact B]. intros u. destruct (str_eq_or u x) as [->|Hne]; [|auto].
    destruct C as [(w' & Er & Ew)|[_ Hx]]; [now rewrite Ew, (Hf _ _ _ _ _ Er)|]. rewrite Hx, Ex. reflexivity.
  Qed.

  Lemma bodies_ok l : NoDup l -> forall (s s' : svc W), mfor l ntp_body s = (Ok tt, s') -> v_ntp s <> None ->
    (forall u, In u l -> active u (v_w s') = false) /\ (forall u, ~ In u l -> active u (v_w s') = active u (v_w s)) /\
    v_ntp s' = Some (ntp_list s ++ filter (fun u => active u (v_w s)) l) /\ v_units s' = v_units s /\ v_timers s' = v_timers s.
  Proof.
    induction l as [|x l IH]; intros Hn s s'; cbn [mfor filter].
    - intros H Hs. injection H as <-. split; [now intros|]. split; [auto|]. unfold ntp_list. rewrite app_nil_r. destruct (v_ntp s); [auto|congruence].
    - unfold mbind. destruct (ntp_body x s) as [[[]|e] s1] eqn:E; [|discriminate]. intros H Hs. apply NoDup_cons_iff in Hn as [Hx Hn].
      destruct (body_ok _ _ _ E Hs) as (A1 & A2 & A3 & A4 & A5). destruct (IH Hn _ _ H) as (B1 & B2 & B3 & B4 & B5); [congruence|].
      split; [|split; [|split; [|split; congruence]]].
      + intros u [<-|Hu]; [now rewrite B2|auto].
      + intros u Hu. rewrite B2 by (intros Hi; apply Hu; now right). apply A2. intros ->. apply Hu. now left.
      + rewrite B3. unfold ntp_list at 1. rewrite A3, <- app_assoc. do 2 f_equal.
        rewrite (filter_ext_in (fun u => active u (v_w s1)) (fun u => active u (v_w s))).
        * now destruct (active x (v_w s)).
        * intros u Hu. apply A2. intros ->. contradiction.
  Qed.

  Lemma stop_ntp_ok (s s' : svc W) l : stop_ntp sd s = (Ok l, s') ->
    l = filter (fun u => active u (v_w s)) ntp_names /\ v_ntp s' = Some l /\ (forall u, In u ntp_names -> active u (v_w s') = false) /\
    (forall u, ~ In u ntp_names -> active u (v_w s') = active u (v_w s)) /\ v_units s' = v_units s /\ v_timers s' = v_timers s.
  Proof.
    unfold stop_ntp, set_ntp, mbind, modify at 1. cbv beta.
    fold ntp_body. set (s0 := SVC (v_w s) (v_units s) (Some []) (v_timers s)).
    change (mfor ntp_services (fun service => ntp_body service)) with (mfor ntp_names ntp_body).
    destruct (mfor ntp_services _ s0) as [[[]|e] s1] eqn:E; [|discriminate].
    change (mfor ntp_names ntp_body s0 = (Ok tt, s1)) in E. unfold gets, ret. intros H.
    destruct (bodies_ok ntp_names) with (s := s0) (s' := s1) as (A & B & C & D & F); [|exact E|discriminate|].
    { repeat constructor; cbn; intuition discriminate. }
    assert (X : s1 = s') by congruence. subst s'. rewrite C in H. cbn [ntp_list v_ntp s0 app v_w] in *. injection H as <-. repeat split; assumption.
  Qed.

  Lemma stop_ntp_works (s : svc W) : obedient sd active -> exists l s', stop_ntp sd s = (Ok l, s').
  Proof.
    intros Ho. unfold stop_ntp, set_ntp, mbind, modify at 1. cbv beta.
    assert (X : forall l (s : svc W), exists s', mfor l ntp_body s = (Ok tt, s')).
    { induction l as [|x l IH]; intros s1; [eexists; reflexivity|]. cbn [mfor]. unfold mbind.
      assert (Y : exists s2, ntp_body x s1 = (Ok tt, s2)).
      { unfold ntp_body, mbind. rewrite (is_active_ok sd active Ht). destruct (active x (v_w s1)); [|eexists; reflexivity].
        destruct (run_obedient sd active Ht false false Ho [x] s1) as [s2 E]. unfold stop. rewrite E. eexists; reflexivity. }
      destruct Y as [s2 Y]. rewrite Y. apply IH. }
    destruct (X ntp_names (SVC (v_w s) (v_units s) (Some []) (v_timers s))) as [s1 E].
    change (mfor ntp_services ntp_body (SVC (v_w s) (v_units s) (Some []) (v_timers s)) = (Ok tt, s1)) in E.
    unfold ntp_body, mbind in E. rewrite E. unfold gets, ret. eauto.
  Qed.

  (** stopped, wholly or in part: the ones remembered were active, and the others are as before *)
  Lemma bodies_any ini l : failing_harmless sd active -> forall (s s' : svc W) r, mfor l ntp_body s = (r, s') -> v_ntp s <> None ->
    (forall u, In u (ntp_list s) -> ini u = true) -> (forall u, ~ In u (ntp_list s) -> active u (v_w s) = ini u) ->
    v_ntp s' <> None /\ (forall u, In u (ntp_list s') -> ini u = true) /\ (forall u, ~ In u (ntp_list s') -> active u (v_w s') = ini u).
  Proof.
    intros Hf. induction l as [|x l IH]; intros s s' r; cbn [mfor].
    - intros H. injection H as <- <-. auto.
    - unfold mbind. destruct (ntp_body x s) as [[[]|e] s1] eqn:E.
      + intros H Hn H1 H2. destruct (body_ok _ _ _ E Hn) as (A1 & A2 & A3 & _). apply (IH _ _ _ H); [congruence| |].
        * unfold ntp_list at 1. rewrite A3. intros u Hu. apply in_app_or in Hu as [Hu|Hu]; [auto|].
          destruct (active x (v_w s)) eqn:Ex; [|contradiction]. destruct Hu as [<-|[]].
          destruct (str_in_dec x (ntp_list s)) as [Hi|Hi]; [auto|]. rewrite <- H2 by exact Hi. exact Ex.
        * unfold ntp_list at 1. rewrite A3. intros u Hu. assert (Hu1 : ~ In u (ntp_list s)) by (intros Hi; apply Hu; apply in_or_app; now left).
          destruct (str_eq_or u x) as [->|Hne]; [|rewrite A2 by exact Hne; auto]. rewrite A1. rewrite <- H2 by exact Hu1.
          destruct (active x (v_w s)); [|reflexivity]. exfalso. apply Hu. apply in_or_app. right. now left.
      + intros H Hn H1 H2. injection H as <- <-. destruct (body_bad _ _ _ _ Hf E) as [A B]. unfold ntp_list in *. rewrite B.
        split; [exact Hn|]. split; [exact H1|]. intros u Hu. rewrite A. auto.
  Qed.

  Lemma ntp_back (s s1 s2 : svc W) r l : failing_harmless sd active -> stop_ntp sd s = (r, s1) -> restore_ntp sd s1 = (Ok l, s2) ->
    forall u, active u (v_w s2) = active u (v_w s).
  Proof.
    intros Hf H1 H2 u.
    assert (X : v_ntp s1 <> None /\ (forall u, In u (ntp_list s1) -> active u (v_w s) = true) /\
                (forall u, ~ In u (ntp_list s1) -> active u (v_w s1) = active u (v_w s))).
    { unfold stop_ntp, set_ntp, mbind, modify at 1 in H1. cbv beta in H1.
      set (s0 := SVC (v_w s) (v_units s) (Some []) (v_timers s)) in H1.
      destruct (mfor ntp_services _ s0) as [r0 sx] eqn:E.
      assert (sx = s1) by (destruct r0; unfold gets, ret in H1; congruence). subst sx.
      change (mfor ntp_services ntp_body s0 = (r0, s1)) in E.
      apply (bodies_any (fun u => active u (v_w s)) _ Hf _ _ _ E); [discriminate|now intros|reflexivity]. }
    destruct X as (Hn & X1 & X2). unfold restore_ntp, mbind, gets in H2. unfold ntp_list in *. destruct (v_ntp s1) as [[|y t]|] eqn:Ev; [| |congruence].
    - unfold set_ntp, modify, ret in H2. injection H2 as _ <-. cbn [v_w]. apply X2. now intros [].
    - destruct (start sd (y :: t) false s1) as [[[]|e] s3] eqn:E; [|discriminate]. unfold set_ntp, modify, ret in H2. injection H2 as _ <-. cbn [v_w].
      unfold start in E. destruct (run_ok _ _ _ _ _ E) as (A & B & _). destruct (str_in_dec u (y :: t)) as [Hi|Hi].
      + rewrite (A u Hi), (X1 u Hi). reflexivity.
      + rewrite (B u Hi). auto.
  Qed.

  Lemma restore_ntp_list (s s' : svc W) l : restore_ntp sd s = (Ok l, s') -> l = v_ntp s /\ v_ntp s' = None.
  Proof.
    unfold restore_ntp, mbind, gets. destruct (v_ntp s) as [[|y t]|].
    - intros H. injection H as <- <-. auto.
    - destruct (start sd (y :: t) false s) as [[[]|e] s3] eqn:E; [|discriminate]. intros H. injection H as <- <-. auto.
    - intros H. injection H as <- <-. auto.
  Qed.
  Lemma restore_ntp_works (s : svc W) : obedient sd active -> exists l s', restore_ntp sd s = (Ok l, s').
  Proof.
    intros Ho. unfold restore_ntp, mbind, gets. destruct (v_ntp s) as [[|y t]|]; [eexists _, _; reflexivity| |eexists _, _; reflexivity].
    destruct (run_obedient sd active Ht true false Ho (y :: t) s) as [s3 E]. unfold start. rewrite E. eexists _, _; reflexivity.
  Qed.

  (** the timers *)
  Lemma stop_timers_ok (s s' : svc W) out ws l l' : sd_timers sd (v_w s) = Ok out -> has_words out ws -> timers_of ws l ->
    stop_timers sd s = (Ok l', s') ->
    l' = l /\ v_timers s' = Some l /\ (forall u, In u l -> active u (v_w s') = false) /\ (forall u, ~ In u l -> active u (v_w s') = active u (v_w s)).
  Proof.
    intros Eo Hw Hl. unfold stop_timers, mbind. rewrite Eo, (words_has _ _ Hw), (timers_filter _ _ Hl). destruct l as [|y t].
    - intros H. injection H as <- <-. cbn. repeat split; now intros.
    - destruct (stop sd (y :: t) false s) as [[[]|e] s3] eqn:E; [|discriminate]. intros H. injection H as <- <-. cbn [v_timers v_w].
      unfold stop in E. destruct (run_ok _ _ _ _ _ E) as (A & B & _). repeat split; auto.
  Qed.
  Lemma stop_timers_works (s : svc W) out : obedient sd active -> sd_timers sd (v_w s) = Ok out -> exists l s', stop_timers sd s = (Ok l, s').
  Proof.
    intros Ho Eo. unfold stop_timers, mbind. rewrite Eo. destruct (filter _ _) as [|y t]; [eexists _, _; reflexivity|].
    destruct (run_obedient sd active Ht false false Ho (y :: t) s) as [s3 E]. unfold stop. rewrite E. eexists _, _; reflexivity.
  Qed.
  Lemma restore_timers_ok (s s' : svc W) l : v_timers s = Some l -> restore_timers sd s = (Ok tt, s') ->
    v_timers s' = None /\ (forall u, In u l -> active u (v_w s') = true) /\ (forall u, ~ In u l -> active u (v_w s') = active u (v_w s)).
  Proof.
    intros El. unfold restore_timers, mbind, gets. rewrite El. destruct l as [|y t].
    - intros H. injection H as <-. cbn. repeat split; now intros.
    - destruct (start sd (y :: t) false s) as [[[]|e] s3] eqn:E; [|discriminate]. intros H. injection H as <-. cbn [v_timers v_w].
      unfold start in E. destruct (run_ok _ _ _ _ _ E) as (A & B & _). repeat split; auto.
  Qed.
  Lemma restore_timers_works (s : svc W) : obedient sd active -> exists s', restore_timers sd s = (Ok tt, s').
  Proof.
    intros Ho. unfold restore_timers, mbind, gets. destruct (v_timers s) as [[|y t]|]; [eexists; reflexivity| |eexists; reflexivity].
    destruct (run_obedient sd active Ht true false Ho (y :: t) s) as [s3 E]. unfold start. rewrite E. eexists; reflexivity.
  Qed.
  Lemma timers_back (s s1 s2 : svc W) out ws l l' : sd_timers sd (v_w s) = Ok out -> has_words out ws -> timers_of ws l ->
    (forall u, In u l -> active u (v_w s) = true) ->
    stop_timers sd s = (Ok l', s1) -> restore_timers sd s1 = (Ok tt, s2) -> forall u, active u (v_w s2) = active u (v_w s).
  Proof.
    intros Eo Hw Hl Hact H1 H2 u. destruct (stop_timers_ok _ _ _ _ _ _ Eo Hw Hl H1) as (_ & Ev & _ & A).
    destruct (restore_timers_ok _ _ _ Ev H2) as (_ & B & C). destruct (str_in_dec u l) as [Hi|Hi].
    - rewrite (B u Hi). symmetry. auto.
    - rewrite (C u Hi). auto.
  Qed.
End Sys.
