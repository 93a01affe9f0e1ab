(** Lemmas about restoring a setting that a file has for "all" CPUs. *)
From Coq Require Import Ascii String ZifyBool Permutation Sorted.
From Verif Require Import Base M_CPUInfo S_CPUInfo M_Text S_Text M_Human M_CPUIdle S_CPUIdle M_CSave S_CSave
  L_Base L_Monad L_CPUInfo L_Text L_FMSR2 L_OpTarget L_CPUIdle3 L_CPUIdle4 L_CPUIdle5 L_CPUIdle6 L_CPUIdle7 L_CSave L_CSave2 L_CSave3.

Section All.
  Variable mc : machine.
  Variable nst : Z -> Z.
  Hypothesis Hok : idle_ok mc nst.
  Notation online := (ci_online (mc_ci mc)).
  Notation Inv := (Inv mc nst).
  Notation evolve := (evolve mc).
  Notation touched := (touched mc nst).

  Lemma item_all c0 i0 (off : bool) s : Inv false s -> cs_name mc c0 i0 <> [] -> ~ In ","%char (cs_name mc c0 i0) ->
    let n := cs_name mc c0 i0 in
    post (restore_item mc n (s2l "value"%string, CStr (s2l (if off then "off" else "on")%string), s2l "all"%string)) s
      (fun _ s' => Inv false s' /\ evolve (touched online n) s s' /\ forall c i, touched online n c i -> id_flags s' c i = flag_text off)
      (fun _ s' => evolve (touched online n) s s').
  Proof.
    intros HI Hne Hco n. unfold restore_item.
    apply post_bind. unfold post at 1, lift. change (parse_cpus_string (s2l "all"%string)) with (Ok (None : nums_t)).
    assert (Hask : forall own m, asked (CsText n) own m <-> m = n) by (intros; now apply asked_plain).
    assert (Htog : forall c i, toggles mc nst (CsText n) None c i -> touched online n c i).
    { intros c i (Hc & Hi & c1 & _ & Ha). apply Hask in Ha. split; [exact Hc|]. now split. }
    apply post_bind.
    assert (Hbody : forall en, post (toggle_cstates mc (CsText n) None en) s
      (fun _ s' => Inv false s' /\ evolve (touched online n) s s' /\ forall c i, touched online n c i -> id_flags s' c i = flag_text (negb en))
      (fun _ s' => evolve (touched online n) s s')).
    { intros en. eapply post_conseq; [apply (toggle_post mc nst Hok false (CsText n) None en s HI)| |]; cbn beta.
      - intros ts s' (J1 & J2 & _ & l' & ns & Hl' & Hns & _ & Hfl & _). split; [exact J1|]. split; [now apply (evolve_weak mc _ _ s s' Htog)|].
        intros c i (Hc & Hi & En). destruct (norm_cpus mc nst Hok None l' Hl') as (_ & _ & N3). cbn [cs_targets] in N3. apply N3 in Hc.
        apply Hfl; [exact Hc|exact Hi|]. destruct (hd_of l' c Hc) as (c1 & H1 & _). apply (Hns c1 H1), Hask. now symmetry.
      - intros e s' (J1 & J2 & J3). now apply (evolve_weak mc _ _ s s' Htog). }
    assert (Hval : post (if cval_eqb (CStr (s2l (if off then "off" else "on")%string)) (CStr (s2l "on"%string)) then let! _ := enable_cstates mc (CsText n) None in ret tt
      else if cval_eqb (CStr (s2l (if off then "off" else "on")%string)) (CStr (s2l "off"%string)) then let! _ := disable_cstates mc (CsText n) None in ret tt else throw EError) s
      (fun _ s' => Inv false s' /\ evolve (touched online n) s s' /\ forall c i, touched online n c i -> id_flags s' c i = flag_text off)
      (fun _ s' => evolve (touched online n) s s')).
    { destruct off.
      - change (cval_eqb (CStr (s2l "off"%string)) (CStr (s2l "on"%string))) with false. change (cval_eqb (CStr (s2l "off"%string)) (CStr (s2l "off"%string))) with true. cbn iota.
        apply post_bind. unfold disable_cstates. eapply post_conseq; [apply (Hbody false)| |auto]. cbn beta. intros _ s1 H. now apply post_ret.
      - change (cval_eqb (CStr (s2l "on"%string)) (CStr (s2l "on"%string))) with true. cbn iota.
        apply post_bind. unfold enable_cstates. eapply post_conseq; [apply (Hbody true)| |auto]. cbn beta. intros _ s1 H. now apply post_ret. }
    eapply post_conseq; [exact Hval| |auto]. cbn beta. intros _ s1 (J1 & J2 & J3).
    apply post_bind. unfold aggr_cstates, post at 1.
    assert (H := info_post mc nst Hok (fun _ _ => False) false None (CsList [n]) s1 J1). unfold post in H.
    destruct (get_cstates_info mc None (CsList [n]) s1) as ([it|e], s2).
    - destruct H as (K1 & K2 & _). apply post_ret. split; [exact K1|].
      split; [apply (evolve_trans mc _ s s1 s2 J2); now apply (evolve_weak mc (fun _ _ => False) _ s1 s2)|].
      intros c i Hc. rewrite (proj1 K2) by tauto. now apply J3.
    - destruct H as (K1 & K2 & K3).
      assert (Ev : evolve (touched online n) s s2) by (apply (evolve_trans mc _ s s1 s2 J2); now apply (evolve_weak mc (fun _ _ => False) _ s1 s2)).
      destruct e; try exact Ev.
      apply post_ret. split; [exact K1|]. split; [exact Ev|]. intros c i Hc. rewrite (proj1 K2) by tauto. now apply J3.
  Qed.

  Lemma restore_all_post pnames c0 i0 (off : bool) s : plain_names mc nst pnames -> In c0 online -> 0 <= i0 < nst c0 -> Inv false s ->
    let n := cs_name mc c0 i0 in
    post (restore mc pnames [(n, [(s2l "value"%string, CStr (s2l (if off then "off" else "on")%string), s2l "all"%string)])]) s
      (fun _ s' => evolve (touched online n) s s' /\ forall c i, touched online n c i -> id_flags s' c i = flag_text off)
      (fun _ s' => evolve (touched online n) s s').
  Proof.
    intros Hp Hc0 Hi0 HI n. destruct (Hp c0 i0 Hc0 Hi0) as (P1 & P2 & P3). unfold restore. apply post_bind. unfold post at 1.
    assert (H := info_post mc nst Hok (fun _ _ => False) false None (CsText (s2l "all"%string)) s HI). unfold post in H.
    assert (HN := info_nens mc nst Hok None (CsText (s2l "all"%string)) s (proj1 (proj2 (proj2 HI)))).
    destruct (get_cstates_info mc None (CsText (s2l "all"%string)) s) as ([r|e], s1).
    2: { specialize (HN e s1 eq_refl). destruct H as (J1 & J2 & J3).
         assert (J2' : evolve (touched online n) s s1) by (now apply (evolve_weak mc (fun _ _ => False) _ s s1)).
         destruct e; try exact J2'. contradiction. }
    destruct H as (J1 & J2 & _). assert (J2' : evolve (touched online n) s s1) by (now apply (evolve_weak mc (fun _ _ => False) _ s s1)).
    set (csn := flat_map (fun it : Z * csinfo => map fst (snd it)) r). apply post_bind. apply post_lift; [|intros e _; exact J2'].
    intros u Hv. unfold validate in Hv. cbn [rmap fst snd] in Hv.
    match type of Hv with context [if ?b then _ else _] => destruct b eqn:Ek end; [|discriminate Hv].
    assert (Ec : existsb (str_eqb n) csn = true).
    { apply inkeys in Ek. apply inkeys. apply in_app_iff in Ek as [Hx|Hx]; [contradiction|exact Hx]. }
    cbn [filter fst]. match goal with |- context [if ?b then _ else _] => replace b with true by (symmetry; exact Ec) end. unfold restore_cstates. cbn [mfor fst snd]. apply post_bind. cbn [mfor]. apply post_bind.
    eapply post_conseq; [apply (item_all c0 i0 off s1 J1 P1 P2)| |]; cbn beta.
    - intros _ s2 (K1 & K2 & K3). apply post_ret. apply post_ret. split; [now apply (evolve_trans mc _ s s1 s2)|exact K3].
    - intros e s2 K2. now apply (evolve_trans mc _ s s1 s2).
  Qed.
End All.

Lemma restore_all : forall mc nst pnames, idle_ok mc nst -> plain_names mc nst pnames ->
  forall flags gov tick rf wf ops s2, flags_ok mc nst flags ->
  let s := irun mc ops (idle_init flags gov tick rf wf) in
  forall c0 i0 (off : bool), In c0 (ci_online (mc_ci mc)) -> 0 <= i0 < nst c0 ->
  restore mc pnames [(cs_name mc c0 i0, [(s2l "value"%string, CStr (s2l (if off then "off" else "on")%string), s2l "all"%string)])] s = (Ok tt, s2) ->
  forall c i, let chosen := In c (ci_online (mc_ci mc)) /\ 0 <= i < nst c /\ cs_name mc c i = cs_name mc c0 i0 in
    (chosen -> id_flags s2 c i = flag_text off) /\ (~ chosen -> id_flags s2 c i = id_flags s c i).
Proof.
  intros mc nst pnames Hok Hp flags gov tick rf wf ops s2 Hf s c0 i0 off Hc0 Hi0 E c i chosen.
  destruct (reach mc nst false flags gov tick rf wf ops Hok Hf ltac:(discriminate)) as (HI & _). fold s in HI.
  assert (H := post_run _ _ _ _ _ _ (restore_all_post mc nst Hok pnames c0 i0 off s Hp Hc0 Hi0 HI) E). cbn beta iota in H. destruct H as (Hev & Hfl).
  split.
  - intros (Hc & Hi & En). apply Hfl. split; [exact Hc|]. split; [exact Hi|now symmetry].
  - intros Hn. apply Hev. intros (Hc & Hi & En). apply Hn. split; [exact Hc|]. split; [exact Hi|now symmetry].
Qed.
