(** Lemmas about restoring systemd units. *)
From Coq Require Import Ascii String Lia.
From Verif Require Import Base M_Text M_CFreq M_TpmiSpec M_Systemd S_Systemd L_Base L_Text L_Systemd.
Open Scope list_scope.
Open Scope Z_scope.

Section Sys.
  Context {W : Type}.
  Variable sd : sysd W.
  Variable active : str -> W -> bool.
  Hypothesis Ht : tells_active sd active.
  Hypothesis Ha : units_apart sd active.
  Notation run_ok := (run_ok sd active Ht Ha).
  Notation one_bad := (one_bad sd active Ht Ha).
  Notation run_bad := (run_bad sd).

  Lemma run_effect a sv us (s s' : svc W) r : run_action sd us a sv s = (r, s') -> effect active (starts a) us (v_w s) r (v_w s').
  Proof.
    destruct r as [[]|e]; intros H; unfold effect.
    - destruct (run_ok _ _ _ _ _ H) as (A & B & _). auto.
    - destruct (run_bad _ _ _ _ _ _ H) as (pre & u & post & s1 & -> & H1 & H2). exists pre, u, post. split; [reflexivity|].
      destruct (run_ok _ _ _ _ _ H1) as (A & B & _). destruct (one_bad _ _ _ _ _ _ H2) as (C & _). split.
      + intros u' Hi Hn. rewrite C by exact Hn. now apply A.
      + intros u' Hi Hn. rewrite C by exact Hn. now apply B.
  Qed.

  Definition act_of (o : op) : str := match o with OStart _ _ => s2l "start" | OStop _ _ => s2l "stop" | ORestart _ => s2l "restart" end.
  Definition units_of (o : op) : list str := match o with OStart us _ | OStop us _ | ORestart us => us end.
  Definition sv_of (o : op) : bool := match o with OStart _ sv | OStop _ sv => sv | ORestart _ => false end.
  Lemma does_is o (s : svc W) : does sd o s = run_action sd (units_of o) (act_of o) (sv_of o) s.
  Proof. now destruct o. Qed.
  Lemma starts_act o : starts (act_of o) = makes o.
  Proof. now destruct o. Qed.
  Lemma names_in o u : names o u <-> In u (units_of o).
  Proof. now destruct o. Qed.
  Lemma saves_sv o : saves o <-> sv_of o = true.
  Proof. destruct o; cbn; intuition congruence. Qed.

  (** Operations and what is active *)
  Lemma does_effect o (s s' : svc W) r : does sd o s = (r, s') -> effect active (makes o) (units_of o) (v_w s) r (v_w s').
  Proof. rewrite does_is, <- starts_act. apply run_effect. Qed.

  (** Restoring *)
  Lemma undo_ok (l : list (str * str)) : NoDup (map fst l) -> forall (s s' : svc W),
    mfor l (fun ua => if str_eqb (snd ua) (s2l "stop") then start sd [fst ua] false else stop sd [fst ua] false) s = (Ok tt, s') ->
    (forall u a, In (u, a) l -> active u (v_w s') = str_eqb a (s2l "stop")) /\
    (forall u, ~ In u (map fst l) -> active u (v_w s') = active u (v_w s)).
  Proof.
    induction l as [|[x b] l IH]; intros Hn s s'; cbn [mfor map fst snd].
    - intros H. injection H as <-. split; [now intros|reflexivity].
    - unfold mbind. intros H. cbn [map fst] in Hn. apply NoDup_cons_iff in Hn as [Hx Hn].
      assert (X : exists s1, run_action sd [x] (if str_eqb b (s2l "stop") then s2l "start" else s2l "stop") false s = (Ok tt, s1) /\
                  mfor l (fun ua => if str_eqb (snd ua) (s2l "stop") then start sd [fst ua] false else stop sd [fst ua] false) s1 = (Ok tt, s')).
      { unfold start, stop in H |- *. destruct (str_eqb b (s2l "stop"));
        match type of H with context [run_action sd [x] ?a false s] => destruct (run_action sd [x] a false s) as [[[]|e] s1]; [|discriminate]; eauto end. }
      destruct X as (s1 & E & H1). destruct (run_ok _ _ _ _ _ E) as (A & B & _). destruct (IH Hn _ _ H1) as [C D]. split.
      + intros u a [Hi|Hi]; [|now apply C]. injection Hi as <- <-. rewrite D by exact Hx. rewrite (A x (or_introl eq_refl)).
        now destruct (str_eqb b (s2l "stop")).
      + intros u Hu. rewrite D by (intros Hi; apply Hu; now right). apply B. intros [<-|[]]. apply Hu. now left.
  Qed.

  Lemma restore_ok (s s' : svc W) : NoDup (map fst (v_units s)) -> restore_units sd s = (Ok tt, s') -> forall u,
    active u (v_w s') = match saved s u with Some a => str_eqb a (s2l "stop") | None => active u (v_w s) end.
  Proof.
    unfold restore_units, mbind, gets. intros Hn H u. destruct (undo_ok _ Hn _ _ H) as [A B]. unfold saved.
    destruct (dget str_eqb (v_units s) u) as [a|] eqn:E.
    - apply (dget_In _ str_eqb_spec) in E. now apply A.
    - apply (dget_None _ str_eqb_spec) in E. now apply B.
  Qed.

  Lemma restore_works (s : svc W) : obedient sd active -> exists s', restore_units sd s = (Ok tt, s').
  Proof.
    intros Ho. unfold restore_units, mbind, gets. generalize (v_units s) as l. intros l. revert s. induction l as [|[x b] l IH]; intros s; [eexists; reflexivity|].
    cbn [mfor fst snd]. unfold mbind. unfold start, stop at 1.
    destruct (run_obedient sd active Ht (str_eqb b (s2l "stop")) false Ho [x] s) as [s1 E].
    destruct (str_eqb b (s2l "stop")); unfold start, stop in *; rewrite E; apply IH.
  Qed.

  (** What is remembered *)
  Lemma did_saved ops : forall (s s' : svc W), did sd s ops s' -> NoDup (map fst (v_units s)) ->
    NoDup (map fst (v_units s')) /\
    (forall u a, saved s u = Some a -> saved s' u = Some a) /\
    (forall u o, saved s u = None -> first_saved_for u ops o -> saved s' u = Some (act_of o)) /\
    (forall u, saved s u = None -> (forall o, In o ops -> ~ (names o u /\ saves o)) -> saved s' u = None).
  Proof.
    induction ops as [|x ops IH]; intros s s' H Hn; inversion H; subst.
    - repeat split; auto. intros u o _ (b & a & E & _). now destruct b.
    - match goal with H1 : does sd x s = _ |- _ => rewrite does_is in H1; destruct (run_ok _ _ _ _ _ H1) as (_ & _ & _ & A & B & C) end.
      match goal with H1 : did _ _ ops _ |- _ => destruct (IH _ _ H1 (C Hn)) as (D1 & D2 & D3 & D4) end.
      assert (K : forall u a, saved s u = Some a -> saved s1 u = Some a).
      { intros u a E. destruct (str_in_dec u (units_of x)) as [Hi|Hi].
        - destruct (sv_of x) eqn:Ev; [now rewrite (A u Hi eq_refl), E|]. rewrite B; [exact E|]. intros [_ K]; discriminate.
        - rewrite B; [exact E|tauto]. }
      split; [exact D1|]. split; [|split].
      + intros u a E. apply D2. now apply K.
      + intros u o E (bf & af & E1 & Hnm & Hsv & Hb). destruct bf as [|y bf]; cbn [app] in E1; injection E1 as -> ->.
        * apply D2. apply names_in in Hnm. apply saves_sv in Hsv. rewrite (A u Hnm Hsv), E. reflexivity.
        * apply D3.
          -- rewrite B; [exact E|]. rewrite <- names_in, <- saves_sv. apply Hb. now left.
          -- exists bf, af. split; [reflexivity|]. split; [exact Hnm|]. split; [exact Hsv|]. intros o' Ho'. apply Hb. now right.
      + intros u E Hno. apply D4.
        * rewrite B; [exact E|]. rewrite <- names_in, <- saves_sv. apply Hno. now left.
        * intros o Ho. apply Hno. now right.
  Qed.

  Lemma stop_act o : saves o -> str_eqb (act_of o) (s2l "stop") = negb (makes o).
  Proof. destruct o; cbn [saves]; [reflexivity|reflexivity|tauto]. Qed.

  Lemma did_same ops u : (forall o, In o ops -> ~ names o u) -> forall (s s' : svc W), did sd s ops s' -> active u (v_w s') = active u (v_w s).
  Proof.
    intros H s s' Hd. induction Hd as [s|o ops s s1 s2 E Hd IH]; [reflexivity|]. rewrite IH by (intros o' Ho'; apply H; now right).
    destruct (does_effect _ _ _ _ E) as [_ B]. apply B. rewrite <- names_in. apply H. now left.
  Qed.

  Lemma restored_saved w ops (s s' : svc W) : did sd (svc_new w) ops s -> restore_units sd s = (Ok tt, s') -> forall u,
    (forall o, first_saved_for u ops o -> active u (v_w s') = negb (makes o)) /\
    ((forall o, In o ops -> ~ (names o u /\ saves o)) -> active u (v_w s') = active u (v_w s)).
  Proof.
    intros Hd Hr u. destruct (did_saved _ _ _ Hd (NoDup_nil _)) as (A & _ & B & C). pose proof (restore_ok _ _ A Hr u) as R. split.
    - intros o Ho. rewrite (B u o eq_refl Ho) in R. rewrite R. destruct Ho as (bf & af & _ & _ & Hs & _). now apply stop_act.
    - intros Hno. now rewrite (C u eq_refl Hno) in R.
  Qed.

  Lemma first_first u ops o : first_for u ops o -> saves o -> first_saved_for u ops o.
  Proof.
    intros (bf & af & E & Hn & Hb) Hs. exists bf, af. split; [exact E|]. split; [exact Hn|]. split; [exact Hs|].
    intros o' Ho' [X _]. exact (Hb _ Ho' X).
  Qed.

  Lemma restored_as_before w ops (s s' : svc W) : did sd (svc_new w) ops s -> restore_units sd s = (Ok tt, s') -> forall u,
    ((forall o, In o ops -> ~ names o u) \/ exists o, first_for u ops o /\ saves o /\ makes o = negb (active u w)) ->
    active u (v_w s') = active u w.
  Proof.
    intros Hd Hr u. destruct (restored_saved _ _ _ _ Hd Hr u) as [A B]. intros [Hno|(o & Hf & Hs & Hm)].
    - rewrite B by (intros o Ho [X _]; exact (Hno o Ho X)). now rewrite (did_same ops u Hno _ _ Hd).
    - rewrite (A o (first_first _ _ _ Hf Hs)), Hm. apply Bool.negb_involutive.
  Qed.

  (** Operations that may fail *)
  Lemma tried_inv u (ini : bool) ops : failing_harmless sd active -> (forall o, In o ops -> names o u -> saves o /\ makes o = negb ini) ->
    forall (s s' : svc W), tried sd s ops s' -> NoDup (map fst (v_units s)) ->
    match saved s u with None => active u (v_w s) = ini | Some a => str_eqb a (s2l "stop") = ini end ->
    NoDup (map fst (v_units s')) /\
    match saved s' u with None => active u (v_w s') = ini | Some a => str_eqb a (s2l "stop") = ini end.
  Proof.
    intros Hf Hall s s' H. induction H as [s|o ops s r s1 s2 E H IH]; intros Hn Hs; [auto|].
    specialize (IH (fun o' Ho' => Hall o' (or_intror Ho'))).
    assert (K : forall us' (s0 : svc W), (forall x, In x us' -> In x (units_of o)) -> run_action sd us' (act_of o) (sv_of o) s = (Ok tt, s0) ->
              NoDup (map fst (v_units s0)) /\
              match saved s0 u with None => active u (v_w s0) = ini | Some a => str_eqb a (s2l "stop") = ini end).
    { intros us' s0 Hsub E0. destruct (run_ok _ _ _ _ _ E0) as (A & B & _ & C & D & F). split; [auto|].
      destruct (str_in_dec u us') as [Hi|Hi].
      - destruct (Hall o (or_introl eq_refl)) as [Hsv Hm]; [apply names_in; auto|]. pose proof Hsv as Hsv'. apply saves_sv in Hsv.
        rewrite (C u Hi Hsv). destruct (saved s u); [exact Hs|]. rewrite stop_act by exact Hsv'. rewrite Hm. apply Bool.negb_involutive.
      - rewrite D by tauto. rewrite (B u Hi). exact Hs. }
    rewrite does_is in E. destruct r as [[]|e].
    - destruct (K _ _ (fun x Hx => Hx) E) as [K1 K2]. auto.
    - destruct (run_bad _ _ _ _ _ _ E) as (pre & x & post & s0 & Eu & E1 & E2).
      destruct (K pre s0) as [K1 K2]; [|exact E1|]. { intros y Hy. rewrite Eu. apply in_or_app. now left. }
      destruct (one_bad _ _ _ _ _ _ E2) as (A & _ & B & C). unfold saved in *. apply IH; rewrite ?B; [exact K1|].
      destruct (dget str_eqb (v_units s0) u) eqn:Es; [exact K2|].
      destruct (str_eq_or u x) as [<-|Hne]; [|now rewrite A].
      destruct C as [(w' & Er & Ew)|[_ Hx]].
      + rewrite Ew, (Hf _ _ _ _ _ Er). exact K2.
      + rewrite Hx, starts_act. destruct (Hall o (or_introl eq_refl)) as [_ Hm].
        { apply names_in. rewrite Eu. apply in_or_app. right. now left. }
        rewrite Hm. apply Bool.negb_involutive.
  Qed.

  Lemma restored_anyway w ops (s s' : svc W) : failing_harmless sd active -> tried sd (svc_new w) ops s -> restore_units sd s = (Ok tt, s') ->
    forall u, (forall o, In o ops -> names o u -> saves o /\ makes o = negb (active u w)) -> active u (v_w s') = active u w.
  Proof.
    intros Hf Hd Hr u Hall. destruct (tried_inv u (active u w) ops Hf Hall _ _ Hd (NoDup_nil _) eq_refl) as [A B].
    rewrite (restore_ok _ _ A Hr u). destruct (saved s u); exact B.
  Qed.
End Sys.
