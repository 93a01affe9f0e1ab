(** The statements of C66. *)
From Coq Require Import Ascii String ZifyBool.
From Verif Require Import Base L_Base L_Monad M_CPUInfo S_CPUInfo L_CPUInfo M_Text S_Text L_Text M_Human L_Human M_CPUIdle S_CPUIdle L_CPUIdle L_CPUIdle2 L_CPUIdle3 L_CPUIdle4 L_CPUIdle5 L_CPUIdle6 L_CPUIdle7 M_CsConf S_CsConf L_CsConf L_CsConf2.

Lemma kept_ne typed l : kept typed l -> l <> [] -> typed <> [].
Proof. intros (E & _) H ->. apply H. destruct l; [reflexivity|discriminate E]. Qed.

Lemma kept_is typed l : kept typed l -> fold_left add_oarg typed [] = l.
Proof. intros H. apply (kept_unique typed); [apply collect_kept|exact H]. Qed.

Lemma with_text_app a b : with_text (a ++ b) = with_text a ++ with_text b.
Proof. unfold with_text. apply flat_map_app. Qed.

Lemma with_text_toggle x en t : toggle_opt x en t -> with_text [x] = [(if en then s2l "enable"%string else s2l "disable"%string, t)].
Proof.
  intros (Hne & ->). destruct t as [|c t]; [contradiction|]. unfold with_text. cbn [flat_map fst snd]. now destruct en.
Qed.

Lemma config_none mc cpus s : cstates_config mc cpus [] s = (Exn EError, s).
Proof. reflexivity. Qed.

Lemma config_exact mc nst (Hok : idle_ok mc nst) flags (Hf : flags_ok mc nst flags) ops gov tick rf wf cpus typed l s' :
  let s := irun mc ops (idle_init flags gov tick rf wf) in
  kept typed l -> cstates_config mc cpus typed (cc_init s) = (Ok tt, s') -> all_same mc nst cpus l ->
  (forall c i en, decided mc nst cpus l c i en -> id_flags (cc_idle s') c i = flag_text (negb en)) /\
  (forall c i, (forall x en, In x l -> ~ asks mc nst cpus x c i en) -> id_flags (cc_idle s') c i = id_flags s c i).
Proof.
  intros s Hk H Hs. assert (HR : reaches mc flags gov tick rf wf (cc_idle (cc_init s))) by (exists ops; reflexivity).
  destruct typed as [|x0 typed0] eqn:Et; [discriminate H|]. rewrite <- Et in *.
  destruct (config_parts mc nst Hok flags Hf gov tick rf wf cpus typed (cc_init s) (Ok tt) s' HR ltac:(subst; discriminate) H)
    as [(e & C & _)|(s1 & ev1 & A1 & A2 & _ & _ & _ & r2 & s2 & E2 & Ei & [(e & C & _)|(_ & Er & _)])]; [discriminate|discriminate|].
  rewrite (kept_is typed l Hk) in E2. subst r2.
  destruct (set_loop_run mc nst Hok flags Hf gov tick rf wf cpus (with_text l) s1 (Ok tt) s2 A1 E2) as (_ & _ & _ & B).
  assert (Hsame : forall o t, In (o, t) (with_text l) -> is_all (CsText t) -> same_names mc nst cpus).
  { intros o t Hi Ha. apply Hs. exists o. apply with_text_In in Hi as (en & Hi & _). unfold is_all in Ha. injection Ha as ->. exact Hi. }
  assert (Hh : forall k o t c i, In (o, t) (with_text k) -> hits mc nst cpus t c i -> exists x en, In x k /\ asks mc nst cpus x c i en).
  { intros k o t c i Hi (Hc & Hn & Ha). apply with_text_In in Hi as (en & Hi & Ht). exists (o, Some t), en. split; [exact Hi|]. exists t. auto. }
  destruct (B eq_refl Hsame) as (B1 & B2). rewrite Ei. split.
  - intros c i en (a & x & b & -> & (t & Ht & Hc & Hi & Ha) & Hb).
    rewrite (B1 c i (with_text a) (if en then s2l "enable"%string else s2l "disable"%string) t (with_text b)).
    + destruct en; reflexivity.
    + rewrite with_text_app. f_equal. change (x :: b) with ([x] ++ b). rewrite with_text_app, (with_text_toggle x en t Ht). reflexivity.
    + split; [exact Hc|]. now split.
    + intros o' t' Hi' Hh'. destruct (Hh b o' t' c i Hi' Hh') as (y & en' & Hy & Hask). exact (Hb y en' Hy Hask).
  - intros c i Hn. rewrite B2; [apply A2|]. intros o t Hi Hh'. destruct (Hh l o t c i Hi Hh') as (y & en' & Hy & Hask). exact (Hn y en' Hy Hask).
Qed.

Lemma config_frame mc nst (Hok : idle_ok mc nst) flags (Hf : flags_ok mc nst flags) ops gov tick rf wf cpus typed l c i :
  let s := irun mc ops (idle_init flags gov tick rf wf) in kept typed l ->
  (forall x en t, In x l -> toggle_opt x en t -> ~ toggles mc nst (CsText t) (Some cpus) c i) ->
  id_flags (cc_idle (snd (cstates_config mc cpus typed (cc_init s)))) c i = id_flags s c i.
Proof.
  intros s Hk Hn. assert (HR : reaches mc flags gov tick rf wf (cc_idle (cc_init s))) by (exists ops; reflexivity).
  destruct typed as [|x0 typed0] eqn:Et; [reflexivity|]. rewrite <- Et in *.
  destruct (cstates_config mc cpus typed (cc_init s)) as (r, s') eqn:H. cbn [snd].
  destruct (config_parts mc nst Hok flags Hf gov tick rf wf cpus typed (cc_init s) r s' HR ltac:(subst; discriminate) H)
    as [(e & _ & _ & C)|(s1 & ev1 & A1 & A2 & _ & _ & _ & r2 & s2 & E2 & Ei & _)]; [apply C|].
  rewrite (kept_is typed l Hk) in E2. rewrite Ei.
  destruct (set_loop_run mc nst Hok flags Hf gov tick rf wf cpus (with_text l) s1 r2 s2 A1 E2) as (_ & B & _).
  rewrite B; [apply A2|]. intros o t Hi. apply with_text_In in Hi as (en & Hi & Ht). now apply (Hn (o, Some t) en t).
Qed.

Lemma config_events mc nst (Hok : idle_ok mc nst) flags (Hf : flags_ok mc nst flags) ops gov tick rf wf cpus typed l s' sets asks0 :
  let s := irun mc ops (idle_init flags gov tick rf wf) in kept typed l ->
  cstates_config mc cpus typed (cc_init s) = (Ok tt, s') -> picks setting l sets -> picks question l asks0 ->
  (forall x, In (EvSet x) (cc_ev s') <-> x = sets /\ x <> []) /\ (forall x, In (EvPrint x) (cc_ev s') <-> x = asks0 /\ x <> []) /\
  (forall x a b, cc_ev s' = a ++ EvSet x :: b -> b = []).
Proof.
  intros s Hk H Hsets Hasks. assert (HR : reaches mc flags gov tick rf wf (cc_idle (cc_init s))) by (exists ops; reflexivity).
  destruct typed as [|x0 typed0] eqn:Et; [discriminate H|]. rewrite <- Et in *.
  destruct (config_parts mc nst Hok flags Hf gov tick rf wf cpus typed (cc_init s) (Ok tt) s' HR ltac:(subst; discriminate) H)
    as [(e & C & _)|(s1 & ev1 & A1 & _ & A3 & A4 & A5 & r2 & s2 & E2 & Ei & [(e & C & _)|(_ & Er & Ev)])]; [discriminate|discriminate|].
  rewrite (kept_is typed l Hk) in *. subst r2.
  destruct (set_loop_run mc nst Hok flags Hf gov tick rf wf cpus (with_text l) s1 (Ok tt) s2 A1 E2) as (_ & _ & (ev2 & B1 & B2) & _).
  assert (E1 : sets = set_opts l).
  { apply (picks_fun setting) with (l := l); [|exact Hsets|apply set_opts_picks]. intros x (p, q) (p', q') (_ & P) (_ & Q). cbn in P, Q. congruence. }
  assert (E3 : asks0 = print_opts l).
  { apply (picks_fun question) with (l := l); [|exact Hasks|apply print_opts_picks]. intros x y y' (_ & P) (_ & Q). congruence. }
  subst sets asks0. rewrite Ev, B1, A3. cbn [cc_ev cc_init app]. set (tl := match set_opts l with [] => [] | _ => _ end).
  assert (Htl : forall x, In x tl <-> x = EvSet (set_opts l) /\ set_opts l <> []).
  { intros x. unfold tl. destruct (set_opts l) as [|p ps]; [split; [intros []|intros (_ & C); now contradiction C]|].
    split; [intros [<- |[]]; split; [reflexivity|discriminate]|]. intros (-> & _). now left. }
  assert (Hno : forall x, ~ In (EvSet x) (ev1 ++ ev2)).
  { intros x Hi. apply in_app_or in Hi. destruct Hi as [Hi|Hi]; [now apply (A4 x)|]. destruct (B2 _ Hi) as (? & ? & C). discriminate. }
  split; [|split].
  - intros x. split.
    + intros Hi. apply in_app_or in Hi. destruct Hi as [Hi|Hi]; [now contradiction (Hno x)|]. apply Htl in Hi as (E & Hne). injection E as ->. now split.
    + intros (-> & Hne). apply in_or_app. right. apply Htl. now split.
  - intros x. rewrite <- A5. split.
    + intros Hi. apply in_app_or in Hi. destruct Hi as [Hi|Hi]; [|apply Htl in Hi as (E & _); discriminate].
      apply in_app_or in Hi. destruct Hi as [Hi|Hi]; [exact Hi|]. destruct (B2 _ Hi) as (? & ? & C). discriminate.
    + intros Hi. apply in_or_app. left. apply in_or_app. now left.
  - intros x a b E. destruct b as [|y b] using rev_ind; [reflexivity|]. exfalso. clear IHb.
    assert (Ht : tl = [] \/ exists z, tl = [z]) by (unfold tl; destruct (set_opts l); [now left|right; eauto]).
    destruct Ht as [Ht|(z & Ht)]; rewrite Ht in E.
    + rewrite app_nil_r in E. apply (Hno x). rewrite E. apply in_or_app. right. now left.
    + rewrite app_comm_cons, app_assoc in E. apply app_inj_tail in E as (E & _). apply (Hno x). rewrite E. apply in_or_app. right. now left.
Qed.

(** What is printed after the last change is what the kernel says. *)
Lemma set_loop_snoc mc cpus L o t s s' : set_loop mc cpus (L ++ [(o, t)]) s = (Ok tt, s') ->
  exists s1, set_loop mc cpus L s = (Ok tt, s1) /\ set_cstates mc cpus t (str_eqb o en_name) s1 = (Ok tt, s').
Proof.
  revert s. induction L as [|(o', t') L IH]; intros s H.
  - exists s. split; [reflexivity|]. cbn [app] in H. unfold set_loop, mfor, mbind in H. cbn [fst snd] in H.
    destruct (set_cstates mc cpus t (str_eqb o en_name) s) as ([[]|e], s1); [exact H|discriminate].
  - cbn [app] in H. change (set_loop mc cpus ((o', t') :: L ++ [(o, t)])) with (set_cstates mc cpus t' (str_eqb o' en_name) ;; set_loop mc cpus (L ++ [(o, t)])) in H.
    change (set_loop mc cpus ((o', t') :: L)) with (set_cstates mc cpus t' (str_eqb o' en_name) ;; set_loop mc cpus L). unfold mbind in *.
    destruct (set_cstates mc cpus t' (str_eqb o' en_name) s) as ([[]|e], s1); [|discriminate]. now apply IH.
Qed.

Lemma told_one mc nst (Hok : idle_ok mc nst) flags (Hf : flags_ok mc nst flags) gov tick wf cpus csn s r s' :
  reaches mc flags gov tick [] wf (cc_idle s) -> print_cstates mc cpus csn s = (r, s') ->
  incl cpus (ci_online (mc_ci mc)) -> (is_all csn -> same_names mc nst cpus) ->
  (forall c n, In c cpus -> asked csn (own_names mc nst c) n -> In n (own_names mc nst c)) ->
  r = Ok tt /\ exists x, cc_ev s' = cc_ev s ++ [EvList csn x] /\ NoDup (map fst x) /\ (forall c, In c cpus <-> In c (map fst x)) /\
    forall c info, In (c, info) x -> tells mc nst (id_flags (cc_idle s')) c (asked csn (own_names mc nst c)) info.
Proof.
  intros HR H Hc Hs Hn. destruct HR as (ops & HR).
  destruct (info_succeeds mc nst Hok flags Hf ops gov tick wf (Some cpus) csn Hc Hs Hn) as (x & E).
  rewrite <- HR in E. unfold print_cstates, on_idle in H.
  destruct (get_cstates_info mc (Some cpus) csn (cc_idle s)) as (r1, s1) eqn:E1. cbn [fst] in E. subst r1.
  unfold emit, modify in H. assert (r = Ok tt) by congruence. split; [assumption|]. exists x.
  assert (s' = CC s1 (cc_ev s ++ [EvList csn x])) by (cbn [cc_idle cc_ev] in H; congruence). subst s'. cbn [cc_ev cc_idle]. split; [reflexivity|].
  rewrite HR in E1. exact (info_exact mc nst Hok flags Hf ops gov tick wf (Some cpus) csn x s1 E1 Hs).
Qed.

Lemma config_told mc nst (Hok : idle_ok mc nst) flags (Hf : flags_ok mc nst flags) ops gov tick wf cpus typed a x b en t s' :
  let s := irun mc ops (idle_init flags gov tick [] wf) in
  kept typed (a ++ x :: b) -> toggle_opt x en t -> (forall y en' t', In y b -> ~ toggle_opt y en' t') ->
  cstates_config mc cpus typed (cc_init s) = (Ok tt, s') -> (is_all (CsText t) -> same_names mc nst cpus) ->
  exists r, In (EvList (CsText t) r) (cc_ev s') /\ NoDup (map fst r) /\ (forall c, In c cpus <-> In c (map fst r)) /\
    forall c info, In (c, info) r -> tells mc nst (id_flags (cc_idle s')) c (asked (CsText t) (own_names mc nst c)) info.
Proof.
  intros s Hk Ht Hb H Hs. assert (HR : reaches mc flags gov tick [] wf (cc_idle (cc_init s))) by (exists ops; reflexivity).
  assert (Hne : typed <> []) by (apply (kept_ne typed _ Hk); now destruct a).
  destruct (config_parts mc nst Hok flags Hf gov tick [] wf cpus typed (cc_init s) (Ok tt) s' HR Hne H)
    as [(e & C & _)|(s1 & ev1 & A1 & _ & A3 & A4 & A5 & r2 & s2 & E2 & Ei & [(e & C & _)|(_ & Er & Ev)])]; [discriminate|discriminate|].
  rewrite (kept_is typed _ Hk) in *. subst r2.
  assert (Wb : with_text b = []).
  { destruct (with_text b) as [|(o, w) rest] eqn:E; [reflexivity|]. exfalso.
    assert (Hi : In (o, w) (with_text b)) by (rewrite E; now left). apply with_text_In in Hi as (en' & Hi & Ht'). exact (Hb _ _ _ Hi Ht'). }
  assert (W : with_text (a ++ x :: b) = with_text a ++ [(if en then s2l "enable"%string else s2l "disable"%string, t)]).
  { change (x :: b) with ([x] ++ b). now rewrite !with_text_app, Wb, (with_text_toggle x en t Ht). }
  rewrite W in E2. apply set_loop_snoc in E2 as (s3 & E3 & E4).
  destruct (set_loop_run mc nst Hok flags Hf gov tick [] wf cpus _ s1 (Ok tt) s3 A1 E3) as (R3 & _).
  destruct (set_run mc nst Hok flags Hf gov tick [] wf cpus t _ s3 (Ok tt) s2 R3 E4) as (_ & _ & _ & B).
  destruct (B eq_refl Hs) as (_ & _ & Hc & Hn).
  unfold set_cstates, mbind, on_idle at 1 in E4. assert (R4 := reach_step mc flags gov tick [] wf (IToggle (CsText t) (Some cpus) (str_eqb (if en then s2l "enable"%string else s2l "disable"%string) en_name)) _ R3). cbn [istep] in R4.
  destruct (toggle_cstates mc (CsText t) (Some cpus) _ (cc_idle s3)) as ([ts|e], s4); [|discriminate]. cbn [snd] in R4.
  destruct (told_one mc nst Hok flags Hf gov tick wf cpus (CsText t) (CC s4 (cc_ev s3)) (Ok tt) s2 R4 E4 Hc Hs Hn) as (_ & r & V1 & V2 & V3 & V4).
  exists r. rewrite Ev, V1, Ei. split; [apply in_or_app; left; apply in_or_app; right; now left|]. split; [exact V2|]. now split.
Qed.

(** '--enable' or '--disable' alone lists the C-states. *)
Lemma config_lists mc nst (Hok : idle_ok mc nst) flags (Hf : flags_ok mc nst flags) ops gov tick wf cpus o s' :
  let s := irun mc ops (idle_init flags gov tick [] wf) in
  o = s2l "enable"%string \/ o = s2l "disable"%string -> incl cpus (ci_online (mc_ci mc)) -> same_names mc nst cpus ->
  cstates_config mc cpus [(o, None)] (cc_init s) = (Ok tt, s') ->
  exists r, cc_ev s' = [EvList (CsText (s2l "all"%string)) r] /\ NoDup (map fst r) /\ (forall c, In c cpus <-> In c (map fst r)) /\
    forall c info, In (c, info) r -> tells mc nst (id_flags (cc_idle s')) c (fun n => In n (own_names mc nst c)) info.
Proof.
  intros s Ho Hc Hs H. assert (HR : reaches mc flags gov tick [] wf (cc_idle (cc_init s))) by (exists ops; reflexivity).
  destruct (print_cstates mc cpus (CsText (s2l "all"%string)) (cc_init s)) as (r1, s1) eqn:E.
  destruct (told_one mc nst Hok flags Hf gov tick wf cpus _ _ r1 s1 HR E Hc (fun _ => Hs) ltac:(cbn; auto)) as (-> & x & V1 & V2 & V3 & V4).
  assert (s' = s1).
  { unfold cstates_config, collect in H. cbn [fold_left] in H. unfold add_oarg in H. cbn [dset fst snd] in H.
    assert (Eo : is_toggle o = true) by now apply is_toggle_iff.
    unfold enable_opts, print_opts, set_opts in H. cbn [filter flat_map fst snd] in H. rewrite Eo in H. cbn [app list_loop] in H.
    unfold mbind, ret, set_loop in H. rewrite E in H. cbn [mfor] in H. unfold ret in H. congruence. }
  subst s'. exists x. split; [exact V1|]. split; [exact V2|]. split; [exact V3|exact V4].
Qed.
