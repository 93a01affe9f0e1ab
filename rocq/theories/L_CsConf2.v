(** The loops of 'cstates config'. *)
From Coq Require Import Ascii String ZifyBool.
From Verif Require Import Base L_Base L_Monad M_CPUInfo S_CPUInfo L_CPUInfo M_Text S_Text L_Text M_Human L_Human M_CPUIdle S_CPUIdle L_CPUIdle L_CPUIdle2 L_CPUIdle3 L_CPUIdle4 L_CPUIdle5 L_CPUIdle6 L_CPUIdle7 M_CsConf S_CsConf L_CsConf.

Section Loops.
  Variables (mc : machine) (nst : Z -> Z) (Hok : idle_ok mc nst) (flags : Z -> Z -> str) (Hf : flags_ok mc nst flags).
  Variables (gov : str) (tick : Z) (rf wf : list bool) (cpus : list Z).
  Notation reaches := (reaches mc flags gov tick rf wf).

  Definition hits (t : str) (c i : Z) : Prop := In c cpus /\ 0 <= i < nst c /\ asked (CsText t) (own_names mc nst c) (cs_name mc c i).

  Lemma set_loop_run L : forall s r s', reaches (cc_idle s) -> set_loop mc cpus L s = (r, s') ->
    reaches (cc_idle s') /\
    (forall c i, (forall o t, In (o, t) L -> ~ toggles mc nst (CsText t) (Some cpus) c i) -> id_flags (cc_idle s') c i = id_flags (cc_idle s) c i) /\
    (exists ev, cc_ev s' = cc_ev s ++ ev /\ forall e, In e ev -> exists csn l, e = EvList csn l) /\
    (r = Ok tt -> (forall o t, In (o, t) L -> is_all (CsText t) -> same_names mc nst cpus) ->
      (forall c i a o t b, L = a ++ (o, t) :: b -> hits t c i -> (forall o' t', In (o', t') b -> ~ hits t' c i) ->
         id_flags (cc_idle s') c i = flag_text (negb (str_eqb o en_name))) /\
      (forall c i, (forall o t, In (o, t) L -> ~ hits t c i) -> id_flags (cc_idle s') c i = id_flags (cc_idle s) c i)).
  Proof.
    induction L as [|(o, t) L IH]; intros s r s' HR.
    - unfold set_loop, mfor, ret. intros H. assert (s' = s) by congruence. subst s'. split; [exact HR|]. split; [reflexivity|].
      split; [exists []; split; [now rewrite app_nil_r|intros e []]|]. intros _ _. split; [|reflexivity]. intros c i [|? ?]; discriminate.
    - change (set_loop mc cpus ((o, t) :: L)) with (set_cstates mc cpus t (str_eqb o en_name) ;; set_loop mc cpus L). unfold mbind.
      destruct (set_cstates mc cpus t (str_eqb o en_name) s) as (r1, s1) eqn:E.
      destruct (set_run mc nst Hok flags Hf gov tick rf wf cpus t _ s r1 s1 HR E) as (A1 & A2 & (ev1 & A3 & A4) & A5).
      destruct r1 as [[]|e].
      + intros H. destruct (IH s1 r s' A1 H) as (B1 & B2 & (ev2 & B3 & B4) & B5).
        split; [exact B1|]. split; [intros c i Hn; rewrite B2 by (intros o' t' Hi; apply (Hn o' t'); now right); apply A2; apply (Hn o t); now left|].
        split.
        * exists (ev1 ++ ev2). split; [rewrite B3, A3, app_assoc; reflexivity|]. intros x Hx. apply in_app_or in Hx. destruct Hx as [Hx|Hx]; [|now apply B4].
          destruct (A4 x Hx) as (l & ->). now exists (CsText t), l.
        * intros Hr Hs. destruct (B5 Hr (fun o' t' Hi => Hs o' t' (or_intror Hi))) as (C1 & C2).
          destruct (A5 eq_refl (Hs o t (or_introl eq_refl))) as (D1 & D2 & _). split.
          -- intros c i a o' t' b E' (Hc & Hi & Ha) Hb. destruct a as [|x a].
             ++ cbn in E'. assert (o' = o) by congruence. assert (t' = t) by congruence. assert (b = L) by congruence. subst o' t' b.
                rewrite C2 by exact Hb. now apply D1.
             ++ cbn in E'. assert (EL : L = a ++ (o', t') :: b) by congruence. now apply (C1 c i a o' t' b EL).
          -- intros c i Hn. rewrite C2 by (intros o' t' Hi; apply (Hn o' t'); now right). apply D2. apply (Hn o t). now left.
      + intros H. assert (r = Exn e) by congruence. assert (s' = s1) by congruence. subst r s'.
        split; [exact A1|]. split; [intros c i Hn; apply A2; apply (Hn o t); now left|]. split; [|discriminate].
        exists ev1. split; [exact A3|]. intros x Hx. destruct (A4 x Hx) as (l & ->). now exists (CsText t), l.
  Qed.

  Lemma list_run l : forall printed s r s', reaches (cc_idle s) -> list_loop mc cpus l printed s = (r, s') ->
    (forall x, In x l -> is_toggle (fst x) = true) ->
    reaches (cc_idle s') /\ (forall c i, id_flags (cc_idle s') c i = id_flags (cc_idle s) c i) /\
    (id_wf (cc_idle s) = [] -> id_wf (cc_idle s') = []) /\
    (exists ev, cc_ev s' = cc_ev s ++ ev /\ forall e, In e ev -> exists csn l, e = EvList csn l) /\
    (forall x, r = Ok x -> x = with_text l).
  Proof.
    induction l as [|(o, v) l IH]; intros printed s r s' HR H Ht.
    - unfold list_loop, ret in H. assert (s' = s) by congruence. assert (r = Ok []) by congruence. subst. split; [exact HR|]. split; [reflexivity|]. split; [auto|].
      split; [exists []; split; [now rewrite app_nil_r|intros e []]|]. intros x E. now injection E as <-.
    - assert (Eo : is_toggle o = true) by (apply (Ht (o, v)); now left).
      assert (Ht' : forall x, In x l -> is_toggle (fst x) = true) by (intros x Hx; apply Ht; now right).
      assert (Case : (exists c w, v = Some (c :: w)) \/ (forall c w, v <> Some (c :: w))).
      { destruct v as [[|c w]|]; [right; discriminate|left; eauto|right; discriminate]. }
      destruct Case as [(c & w & ->)|Hv].
      + cbn [list_loop] in H. unfold mbind in H. destruct (list_loop mc cpus l printed s) as (r1, s1) eqn:E.
        destruct (IH printed s r1 s1 HR E Ht') as (A1 & A2 & A3 & A4 & A5).
        assert (s' = s1) by (destruct r1; unfold ret in H; congruence). subst s'. repeat (split; [assumption|]).
        intros x Ex. destruct r1 as [y|e]; unfold ret in H; [|congruence]. assert (x = (o, c :: w) :: y) by congruence. subst x. rewrite (A5 y eq_refl).
        cbn [with_text flat_map fst snd]. now rewrite Eo.
      + assert (H' : ((if printed then ret tt else print_cstates mc cpus (CsText (s2l "all"%string))) ;; list_loop mc cpus l true) s = (r, s')).
        { destruct v as [[|c w]|]; [exact H|now contradiction (Hv c w)|exact H]. }
        clear H. unfold mbind in H'.
        assert (W : with_text ((o, v) :: l) = with_text l).
        { cbn [with_text flat_map fst snd]. rewrite Eo. destruct v as [[|c w]|]; [reflexivity|now contradiction (Hv c w)|reflexivity]. }
        rewrite W. destruct printed.
        * unfold ret in H'. now apply (IH true s r s' HR).
        * destruct (print_cstates mc cpus (CsText (s2l "all"%string)) s) as (r1, s1) eqn:E.
          destruct (print_run mc nst Hok flags Hf gov tick rf wf cpus _ s r1 s1 HR E) as (A1 & A2 & A3 & A4).
          assert (Hev : exists ev, cc_ev s1 = cc_ev s ++ ev /\ forall e, In e ev -> exists csn l, e = EvList csn l).
          { destruct A4 as [A4|(x & _ & A4 & _)]; [exists []; rewrite app_nil_r; split; [exact A4|intros e []]|].
            exists [EvList (CsText (s2l "all"%string)) x]. split; [exact A4|]. intros e [<- |[]]. eauto. }
          destruct r1 as [[]|e].
          -- destruct (IH true s1 r s' A1 H' Ht') as (B1 & B2 & B3 & (ev2 & B4 & B5) & B6). destruct Hev as (ev1 & V1 & V2).
             split; [exact B1|]. split; [intros c i; now rewrite B2, A2|]. split; [auto|]. split; [|exact B6].
             exists (ev1 ++ ev2). split; [rewrite B4, V1, app_assoc; reflexivity|]. intros x Hx. apply in_app_or in Hx. destruct Hx; auto.
          -- assert (r = Exn e) by congruence. assert (s' = s1) by congruence. subst r s'. repeat (split; [assumption|]). discriminate.
  Qed.

  Lemma enable_toggles o x : In x (enable_opts o) -> is_toggle (fst x) = true.
  Proof. intros H. now apply filter_In in H. Qed.

  Lemma enable_text o : with_text (enable_opts o) = with_text o.
  Proof.
    unfold with_text, enable_opts. induction o as [|(k, v) o IH]; [reflexivity|]. cbn [filter flat_map fst snd].
    destruct (is_toggle k) eqn:E; [cbn [flat_map fst snd]; now rewrite E, IH|exact IH].
  Qed.

  (** The whole command: the state after every part of it. *)
  Lemma config_parts typed s r s' : reaches (cc_idle s) -> typed <> [] -> cstates_config mc cpus typed s = (r, s') ->
    let l := fold_left add_oarg typed [] in
    (exists e, r = Exn e /\ reaches (cc_idle s') /\ (forall c i, id_flags (cc_idle s') c i = id_flags (cc_idle s) c i)) \/
    exists s1 ev1, reaches (cc_idle s1) /\ (forall c i, id_flags (cc_idle s1) c i = id_flags (cc_idle s) c i) /\
      cc_ev s1 = cc_ev s ++ ev1 /\
      (forall x, In (EvSet x) ev1 -> False) /\ (forall x, In (EvPrint x) ev1 <-> x = print_opts l /\ x <> []) /\
      exists r2 s2, set_loop mc cpus (with_text l) s1 = (r2, s2) /\ cc_idle s' = cc_idle s2 /\
        ((exists e, r = Exn e /\ r2 = Exn e) \/
         (r = Ok tt /\ r2 = Ok tt /\ cc_ev s' = cc_ev s2 ++ match set_opts l with [] => [] | x => [EvSet x] end)).
  Proof.
    intros HR Hne. unfold cstates_config, collect. destruct typed as [|x0 typed]; [contradiction|].
    set (l := fold_left add_oarg (x0 :: typed) []). cbn zeta. unfold mbind at 1.
    destruct (list_loop mc cpus (enable_opts l) false s) as (r1, s1) eqn:E.
    destruct (list_run (enable_opts l) false s r1 s1 HR E (enable_toggles l)) as (A1 & A2 & _ & (ev & A3 & A4) & A5).
    destruct r1 as [x|e].
    2: { intros H. left. exists e. assert (r = Exn e) by congruence. assert (s' = s1) by congruence. subst. now repeat split. }
    rewrite (A5 x eq_refl), enable_text. unfold mbind at 1.
    set (m := match print_opts l with [] => ret tt | _ => _ end).
    assert (Em : exists s1', m s1 = (Ok tt, s1') /\ cc_idle s1' = cc_idle s1 /\ exists ev', cc_ev s1' = cc_ev s ++ ev' /\
      (forall x, In (EvSet x) ev' -> False) /\ (forall x, In (EvPrint x) ev' <-> x = print_opts l /\ x <> [])).
    { unfold m. destruct (print_opts l) as [|p ps].
      - exists s1. split; [reflexivity|]. split; [reflexivity|]. exists ev. split; [exact A3|]. split.
        + intros y Hy. destruct (A4 _ Hy) as (? & ? & C). discriminate.
        + intros y. split; [intros Hy; destruct (A4 _ Hy) as (? & ? & C); discriminate|]. intros (-> & C). now contradiction C.
      - exists (CC (cc_idle s1) (cc_ev s1 ++ [EvPrint (p :: ps)])). split; [reflexivity|]. split; [reflexivity|]. exists (ev ++ [EvPrint (p :: ps)]).
        split; [cbn [cc_ev]; rewrite A3, app_assoc; reflexivity|]. split.
        + intros y Hy. apply in_app_or in Hy. destruct Hy as [Hy|[Hy|[]]]; [destruct (A4 _ Hy) as (? & ? & C); discriminate|discriminate].
        + intros y. split.
          * intros Hy. apply in_app_or in Hy. destruct Hy as [Hy|[Hy|[]]]; [destruct (A4 _ Hy) as (? & ? & C); discriminate|].
            injection Hy as <-. split; [reflexivity|discriminate].
          * intros (-> & _). apply in_or_app. right. now left. }
    destruct Em as (s1' & -> & Ei & ev' & V1 & V2 & V3). clear m. unfold mbind.
    destruct (set_loop mc cpus (with_text l) s1') as (r2, s2) eqn:E2.
    intros H. right. exists s1', ev'. rewrite Ei. split; [exact A1|]. split; [exact A2|]. split; [exact V1|]. split; [exact V2|]. split; [exact V3|].
    exists r2, s2. split; [exact E2|]. destruct r2 as [[]|e].
    - destruct (set_opts l) as [|p ps]; unfold ret, emit, modify in H.
      + assert (s' = s2) by congruence. subst s'. split; [reflexivity|]. right. split; [congruence|]. split; [reflexivity|]. now rewrite app_nil_r.
      + assert (s' = CC (cc_idle s2) (cc_ev s2 ++ [EvSet (p :: ps)])) by congruence. subst s'. split; [reflexivity|]. right. split; [congruence|]. now split.
    - assert (s' = s2) by congruence. subst s'. split; [reflexivity|]. left. exists e. split; [congruence|reflexivity].
  Qed.
End Loops.
