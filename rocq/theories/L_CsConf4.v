(** 'cstates config' succeeds; what it refuses. *)
From Coq Require Import Ascii String ZifyBool.
From Verif Require Import Base L_Base L_Monad M_CPUInfo S_CPUInfo L_CPUInfo M_Text S_Text L_Text M_Human L_Human M_CPUIdle S_CPUIdle L_CPUIdle L_CPUIdle2 L_CPUIdle3 L_CPUIdle4 L_CPUIdle5 L_CPUIdle6 L_CPUIdle7 M_CsConf S_CsConf L_CsConf L_CsConf2 L_CsConf3.

Section Live.
  Variables (mc : machine) (nst : Z -> Z) (Hok : idle_ok mc nst) (Hob : obeys mc nst) (flags : Z -> Z -> str) (Hf : flags_ok mc nst flags).
  Variables (gov : str) (tick : Z) (wf : list bool) (cpus : list Z) (Hc : incl cpus (ci_online (mc_ci mc))).
  Notation reaches := (reaches mc flags gov tick [] wf).

  Definition possible (t : str) : Prop :=
    (is_all (CsText t) -> same_names mc nst cpus) /\
    forall c n, In c cpus -> asked (CsText t) (own_names mc nst c) n -> In n (own_names mc nst c).

  Lemma set_live t en s : reaches (cc_idle s) -> id_wf (cc_idle s) = [] -> possible t ->
    exists s', set_cstates mc cpus t en s = (Ok tt, s') /\ reaches (cc_idle s') /\ id_wf (cc_idle s') = [].
  Proof.
    intros HR Hw (Hs & Hn). assert (R1 := reach_step mc flags gov tick [] wf (IToggle (CsText t) (Some cpus) en) _ HR). cbn [istep] in R1.
    assert (T : exists ts, fst (toggle_cstates mc (CsText t) (Some cpus) en (cc_idle s)) = Ok ts).
    { destruct HR as (ops & E). rewrite E in *. apply (toggle_succeeds mc nst Hok Hob flags Hf); try assumption.
      destruct (reach mc nst true flags gov tick [] wf ops Hok Hf ltac:(reflexivity)) as ((_ & _ & _ & K) & _). now apply K. }
    assert (W : id_wf (snd (toggle_cstates mc (CsText t) (Some cpus) en (cc_idle s))) = []).
    { destruct HR as (ops & E). rewrite E in *. destruct (reach mc nst true flags gov tick [] wf ops Hok Hf ltac:(reflexivity)) as (HI & _).
      assert (P := toggle_post mc nst Hok true (CsText t) (Some cpus) en _ HI). unfold post in P.
      destruct (toggle_cstates mc (CsText t) (Some cpus) en (irun mc ops (idle_init flags gov tick [] wf))) as ([ts|e], s1); cbn [snd];
        destruct P as (_ & (_ & _ & _ & _ & A & _) & _); now apply A. }
    unfold set_cstates, mbind, on_idle at 1. destruct T as (ts & T).
    destruct (toggle_cstates mc (CsText t) (Some cpus) en (cc_idle s)) as (r1, s1). cbn [fst snd] in *. subst r1.
    destruct (print_cstates mc cpus (CsText t) (CC s1 (cc_ev s))) as (r2, s2) eqn:E2.
    destruct (told_one mc nst Hok flags Hf gov tick wf cpus (CsText t) (CC s1 (cc_ev s)) r2 s2 R1 E2 Hc Hs Hn) as (-> & _).
    destruct (print_run mc nst Hok flags Hf gov tick [] wf cpus (CsText t) (CC s1 (cc_ev s)) (Ok tt) s2 R1 E2) as (P1 & _ & P2 & _).
    exists s2. split; [reflexivity|]. split; [exact P1|now apply P2].
  Qed.

  Lemma set_loop_live L : (forall o t, In (o, t) L -> possible t) -> forall s, reaches (cc_idle s) -> id_wf (cc_idle s) = [] ->
    exists s', set_loop mc cpus L s = (Ok tt, s').
  Proof.
    induction L as [|(o, t) L IH]; intros HL s HR Hw; [now exists s|].
    change (set_loop mc cpus ((o, t) :: L)) with (set_cstates mc cpus t (str_eqb o en_name) ;; set_loop mc cpus L). unfold mbind.
    destruct (set_live t (str_eqb o en_name) s HR Hw (HL o t (or_introl eq_refl))) as (s1 & -> & R1 & W1).
    apply IH; [|exact R1|exact W1]. intros o' t' Hi. apply (HL o' t'). now right.
  Qed.

  Lemma list_live l : (forall x, In x l -> is_toggle (fst x) = true) ->
    ((exists o v, In (o, v) l /\ (v = None \/ v = Some [])) -> same_names mc nst cpus) ->
    forall printed s, reaches (cc_idle s) -> id_wf (cc_idle s) = [] ->
    exists x s', list_loop mc cpus l printed s = (Ok x, s') /\ reaches (cc_idle s') /\ id_wf (cc_idle s') = [].
  Proof.
    induction l as [|(o, v) l IH]; intros Ht Hs printed s HR Hw; [exists [], s; now split|].
    assert (Ht' : forall x, In x l -> is_toggle (fst x) = true) by (intros x Hx; apply Ht; now right).
    assert (Hs' : (exists o v, In (o, v) l /\ (v = None \/ v = Some [])) -> same_names mc nst cpus).
    { intros (o' & v' & Hi & Hv). apply Hs. exists o', v'. split; [now right|exact Hv]. }
    assert (Case : (exists c w, v = Some (c :: w)) \/ (v = None \/ v = Some [])).
    { destruct v as [[|c w]|]; [right; now right|left; eauto|right; now left]. }
    destruct Case as [(c & w & ->)|Hv].
    - cbn [list_loop]. unfold mbind. destruct (IH Ht' Hs' printed s HR Hw) as (x & s' & -> & R1 & W1). eexists _, s'. split; [reflexivity|now split].
    - assert (E : list_loop mc cpus ((o, v) :: l) printed = ((if printed then ret tt else print_cstates mc cpus (CsText (s2l "all"%string))) ;; list_loop mc cpus l true)).
      { destruct Hv as [-> | ->]; reflexivity. }
      rewrite E. unfold mbind. destruct printed; [now apply IH|].
      assert (Hsame : same_names mc nst cpus) by (apply Hs; exists o, v; split; [now left|exact Hv]).
      destruct (print_cstates mc cpus (CsText (s2l "all"%string)) s) as (r2, s2) eqn:E2.
      destruct (told_one mc nst Hok flags Hf gov tick wf cpus _ s r2 s2 HR E2 Hc (fun _ => Hsame) ltac:(cbn; auto)) as (-> & _).
      destruct (print_run mc nst Hok flags Hf gov tick [] wf cpus _ s (Ok tt) s2 HR E2) as (P1 & _ & P2 & _).
      apply IH; [exact Ht'|exact Hs'|exact P1|now apply P2].
  Qed.
End Live.

Lemma config_succeeds mc nst (Hok : idle_ok mc nst) (Hob : obeys mc nst) flags (Hf : flags_ok mc nst flags) ops gov tick wf cpus typed l :
  let s := irun mc ops (idle_init flags gov tick [] wf) in
  id_wf s = [] -> typed <> [] -> kept typed l -> incl cpus (ci_online (mc_ci mc)) -> all_same mc nst cpus l ->
  (forall o, In (o, None) l \/ In (o, Some []) l -> o = s2l "enable"%string \/ o = s2l "disable"%string -> same_names mc nst cpus) ->
  (forall x en t c n, In x l -> toggle_opt x en t -> In c cpus -> asked (CsText t) (own_names mc nst c) n -> In n (own_names mc nst c)) ->
  exists s', cstates_config mc cpus typed (cc_init s) = (Ok tt, s').
Proof.
  intros s Hw Hne Hk Hc Hs Hl Hn. assert (HR : reaches mc flags gov tick [] wf (cc_idle (cc_init s))) by (exists ops; reflexivity).
  unfold cstates_config, collect. destruct typed as [|x0 typed0] eqn:Et; [contradiction|]. rewrite <- Et in *.
  rewrite (kept_is typed l Hk). unfold mbind at 1.
  destruct (list_live mc nst Hok flags Hf gov tick wf cpus Hc (enable_opts l) (enable_toggles l)) with (printed := false) (s := cc_init s)
    as (x & s1 & E & R1 & W1); [|exact HR|exact Hw|].
  { intros (o & v & Hi & Hv). apply filter_In in Hi as (Hi & Ho). cbn [fst] in Ho. apply is_toggle_iff in Ho.
    apply (Hl o); [|exact Ho]. destruct Hv as [-> | ->]; auto. }
  rewrite E. destruct (list_run mc nst Hok flags Hf gov tick [] wf cpus _ _ _ _ _ HR E (enable_toggles l)) as (_ & _ & _ & _ & A5).
  rewrite (A5 x eq_refl), enable_text. unfold mbind at 1.
  set (m := match print_opts l with [] => ret tt | _ => _ end).
  assert (Em : exists s1', m s1 = (Ok tt, s1') /\ cc_idle s1' = cc_idle s1) by (unfold m; destruct (print_opts l); eexists; split; reflexivity).
  destruct Em as (s1' & -> & Ei). unfold mbind.
  destruct (set_loop_live mc nst Hok Hob flags Hf gov tick wf cpus Hc (with_text l)) with (s := s1') as (s2 & ->); [|now rewrite Ei|now rewrite Ei|].
  - intros o t Hi. apply with_text_In in Hi as (en & Hi & Ht). split; [|intros c n; now apply (Hn (o, Some t) en t)].
    intros Ha. apply Hs. exists o. unfold is_all in Ha. injection Ha as ->. exact Hi.
  - destruct (set_opts l); eexists; reflexivity.
Qed.

(** An option that cannot be obeyed: the command fails. *)
Lemma set_loop_all mc cpus L s s' o t : set_loop mc cpus L s = (Ok tt, s') -> In (o, t) L ->
  exists a b s1 s2, L = a ++ (o, t) :: b /\ set_loop mc cpus a s = (Ok tt, s1) /\ set_cstates mc cpus t (str_eqb o en_name) s1 = (Ok tt, s2).
Proof.
  revert s. induction L as [|(o', t') L IH]; intros s H Hi; [contradiction|].
  change (set_loop mc cpus ((o', t') :: L)) with (set_cstates mc cpus t' (str_eqb o' en_name) ;; set_loop mc cpus L) in H. unfold mbind in H.
  destruct (set_cstates mc cpus t' (str_eqb o' en_name) s) as ([[]|e], s1) eqn:E; [|discriminate]. destruct Hi as [Hi|Hi].
  - injection Hi as -> ->. exists [], L, s, s1. now split.
  - destruct (IH s1 H Hi) as (a & b & s2 & s3 & -> & E2 & E3). exists ((o', t') :: a), b, s2, s3. split; [reflexivity|]. split; [|exact E3].
    change (set_loop mc cpus ((o', t') :: a)) with (set_cstates mc cpus t' (str_eqb o' en_name) ;; set_loop mc cpus a). unfold mbind. now rewrite E.
Qed.

Lemma config_refused mc nst (Hok : idle_ok mc nst) flags (Hf : flags_ok mc nst flags) ops gov tick rf wf cpus typed l x en t s' :
  let s := irun mc ops (idle_init flags gov tick rf wf) in
  kept typed l -> In x l -> toggle_opt x en t ->
  (exists c n, In c cpus /\ t <> s2l "all"%string /\ asked (CsText t) (own_names mc nst c) n /\ ~ In n (own_names mc nst c)) \/
  (exists c, In c cpus /\ ~ In c (ci_online (mc_ci mc))) ->
  cstates_config mc cpus typed (cc_init s) <> (Ok tt, s').
Proof.
  intros s Hk Hx Ht Hbad H. assert (HR : reaches mc flags gov tick rf wf (cc_idle (cc_init s))) by (exists ops; reflexivity).
  assert (Hne : typed <> []) by (apply (kept_ne typed _ Hk); now destruct l).
  destruct (config_parts mc nst Hok flags Hf gov tick rf wf cpus typed (cc_init s) (Ok tt) s' HR Hne H)
    as [(e & C & _)|(s1 & ev1 & A1 & _ & _ & _ & _ & r2 & s2 & E2 & _ & [(e & C & _)|(_ & Er & _)])]; [discriminate|discriminate|].
  rewrite (kept_is typed _ Hk) in *. subst r2.
  assert (Hi : In (if en then s2l "enable"%string else s2l "disable"%string, t) (with_text l)).
  { apply with_text_In. exists en. assert (Ht' := Ht). destruct Ht' as (_ & E). rewrite <- E. now split. }
  destruct (set_loop_all _ _ _ _ _ _ _ E2 Hi) as (a & b & s3 & s4 & _ & E3 & E4).
  destruct (set_loop_run mc nst Hok flags Hf gov tick rf wf cpus a s1 (Ok tt) s3 A1 E3) as ((ops3 & R3) & _).
  unfold set_cstates, mbind, on_idle at 1 in E4. rewrite R3 in E4.
  set (e0 := str_eqb _ _) in E4.
  destruct (toggle_cstates mc (CsText t) (Some cpus) e0 (irun mc ops3 (idle_init flags gov tick rf wf))) as ([ts|e], s5) eqn:E5; [|discriminate].
  assert (Q : forall c n, (In c (cs_targets mc (Some cpus)) /\ ~ is_all (CsText t) /\ asked (CsText t) (own_names mc nst c) n /\ ~ In n (own_names mc nst c)) \/
     (In c (cs_targets mc (Some cpus)) /\ ~ In c (ci_online (mc_ci mc))) -> False).
  { intros c n B. destruct (unknown_refused mc nst Hok flags Hf ops3 gov tick rf wf (CsText t) (Some cpus) e0 c n B) as (_ & K). apply (K ts). now rewrite E5. }
  destruct Hbad as [(c & n & B1 & B2 & B3 & B4)|(c & B1 & B2)].
  - apply (Q c n). left. split; [exact B1|]. split; [|now split]. unfold is_all. intros C. apply B2. congruence.
  - apply (Q c []). right. now split.
Qed.
