(** Lemmas about the HWP request registers: writing single features; package control. *)
From Coq Require Import Ascii String ZifyBool.
From Verif Require Import Base L_Base L_Monad M_CPUInfo S_CPUInfo L_CPUInfo L_CPUInfo2
  M_Text M_MSR S_MSR L_Bits L_MSR L_MSR2 L_MSR3 L_MSR4 L_MSR5 M_FMSR S_FMSR L_Text L_FMSR L_FMSR2 L_FMSR3 L_FMSR4 X_FMSR
  M_HWP S_HWP L_Quiet L_OpTarget L_HWP.

Section Post.
  Variable env : menv.
  Notation dom := (me_dom env).
  Notation ci := (me_ci env).
  Notation online := (ci_online (me_ci env)).
  Variable rep : Z -> Z -> Z.
  Variable sc : Z -> scope.
  Notation Coh := (Coh env rep sc).
  Notation view := (view env).
  Notation keeps := (keeps env rep sc).
  Hypothesis Hwf : wf_ci ci.
  Hypothesis Hsc : forall a, scope_right env a (sc a).
  Hypothesis Hfaith : faithful env.
  Variable x : hwp.
  Hypothesis Hx : hwp_ok env sc x.
  Notation Inv := (Inv env rep sc).
  Notation same_view := (same_view env rep sc).
  Notation own := (own_register env sc Hsc x Hx).

  Lemma keeps_refl s : Inv s -> keeps s s.
  Proof. intros H. apply (cache_only_keeps env rep sc); [apply cache_only_refl|apply H]. Qed.
  Lemma same_refl s : Inv s -> same_view s s.
  Proof. intros H. split; [reflexivity|now apply keeps_refl]. Qed.
  Lemma same_trans a b c : same_view a b -> same_view b c -> same_view a c.
  Proof. intros (H1 & K1) (H2 & K2). split; [intros; now rewrite H2|]. eapply keeps_trans; eauto. Qed.

  (** Requests for CPUs that are online address the right registers. *)
  Lemma first_own cpus s : Inv s -> (forall c, In c cpus -> In c online) ->
    ms_intr s = true -> first_is env rep REQ (Some cpus).
  Proof.
    intros (_ & H) Ho Hi c Hc. cbn [targets ordered_targets] in *. rewrite (H Hi c (Ho c Hc)).
    clear H Hi. assert (G : forall l, (forall y, In y l -> In y online) -> In c l ->
      find (fun y => dom REQ y =? dom REQ c) l = Some c); [|apply G; auto].
    induction l as [|y t IH]; intros Hl Hin; [destruct Hin|]. cbn [find].
    destruct (dom REQ y =? dom REQ c) eqn:E.
    - apply Z.eqb_eq in E. f_equal. apply own; auto. apply Hl. now left.
    - destruct Hin as [->|Hin]; [lia|]. apply IH; [|exact Hin]. intros z Hz. apply Hl. now right.
  Qed.

  Variable fr : freg.
  Hypothesis Hfr : hw_req x = Ok fr.
  Notation fr_addr_eq := (fr_addr_eq env sc x Hx fr Hfr).

  (** What a write of a feature does. *)
  Definition frame_but (cpus : list Z) (s s' : mstate) : Prop :=
    (forall a d, a <> REQ -> view s' a d = view s a d) /\
    (forall c, In c online -> ~ In c cpus -> view s' REQ (dom REQ c) = view s REQ (dom REQ c)).

  Lemma frame_targets cpus s s' : (forall c, In c cpus -> In c online) ->
    (forall a d, ~ (a = REQ /\ targeted env REQ (Some cpus) d) -> view s' a d = view s a d) -> frame_but cpus s s'.
  Proof.
    intros Ho H. split; [intros a d Ha; apply H; tauto|]. intros c Hc Hn. apply H. intros (_ & c' & Hc' & E).
    cbn [targets] in Hc'. apply own in E; auto. congruence.
  Qed.

  Lemma write_post n fe cpus v s : dget str_eqb hwp_request_feats n = Some fe -> feature_ok fe -> fe_ios fe = Some SCPU ->
    (fe_vals fe = None -> not_negative v) -> Inv s ->
    post (write_feature env fr n v (Some cpus)) s
      (fun _ s' => keeps s s' /\ Inv s' /\ frame_but cpus s s' /\
         forall c, In c cpus -> In c online /\ has fr n c = true /\ exists code, means fe v code /\ fits (fe_bits fe) code /\
           is_set (fe_bits fe) code (view s REQ (dom REQ c)) (view s' REQ (dom REQ c)))
      (fun e s' => keeps s s' /\ Inv s' /\ frame_but cpus s s' /\
         (forall c, In c online -> view s' REQ (dom REQ c) = view s REQ (dom REQ c) \/ (In c cpus /\ exists code, means fe v code /\ fits (fe_bits fe) code /\
           is_set (fe_bits fe) code (view s REQ (dom REQ c)) (view s' REQ (dom REQ c)))) /\
         (e = ENotSupported -> s' = s /\ exists c, In c cpus /\ has fr n c = false)).
  Proof.
    intros Hg Hok Hios Hnn HI.
    assert (R : keeps s s /\ Inv s /\ frame_but cpus s s /\ forall c, In c online -> view s REQ (dom REQ c) = view s REQ (dom REQ c) \/ (In c cpus /\ exists code, means fe v code /\ fits (fe_bits fe) code /\
           is_set (fe_bits fe) code (view s REQ (dom REQ c)) (view s REQ (dom REQ c)))).
    { split; [now apply keeps_refl|]. split; [exact HI|]. split; [split; reflexivity|now left]. }
    destruct (validate_feature_supported env fr n (Some cpus)) as [[]|e] eqn:Ev.
    2:{ unfold post, write_feature, mbind at 1, lift at 1. rewrite Ev. destruct R as (R1 & R2 & R3 & R4). repeat (split; [assumption|]).
        intros ->. split; [reflexivity|]. apply validate_ns in Ev. destruct Ev as (c & Hc & _ & E). exists c. auto. }
    pose proof (validate_ok env fr n (Some cpus) Ev) as Hv. cbn [targets] in Hv.
    pose proof (write_feature_mix env rep sc Hwf Hsc Hfaith fr n fe (fr_get env sc x Hx fr Hfr n fe Hg) Hok
      (scpu env sc x Hx fr Hfr fe Hios) (Some cpus) v s (proj1 HI)) as P. rewrite fr_addr_eq in P.
    specialize (P (first_own cpus s HI (fun c Hc => proj1 (Hv c Hc))) Hnn).
    unfold post in *. destruct (write_feature env fr n v (Some cpus) s) as [[[]|e] s'] eqn:E.
    - destruct P as (K & code & Hc & Eff). split; [exact K|]. split; [exact (Inv_keeps env rep sc s s' HI K)|].
      cbn [targets op_effect value_of] in *.
      split; [apply frame_targets; [apply Hv|intros a d; apply Eff]|].
      intros c Hin. destruct (Hv c Hin) as (Ho & Hh). split; [exact Ho|]. split; [exact Hh|].
      exists code. destruct (Hc c Hin) as (Hm & Hf). split; [exact Hm|]. split; [exact Hf|]. apply Eff. split; [reflexivity|].
      exists c. auto.
    - destruct P as (K & Fr & Mix). split; [exact K|]. split; [exact (Inv_keeps env rep sc s s' HI K)|].
      split; [apply frame_targets; [apply Hv|exact Fr]|]. split.
      + intros c Hc. destruct (in_dec Z.eq_dec c cpus) as [Hin|Hin].
        * destruct (Mix (dom REQ c)) as [M|M]; [now left|]. right. auto.
        * left. apply Fr. intros (_ & c' & Hc' & Ed). cbn [targets] in Hc'. apply own in Ed; auto; [congruence|]. apply Hv. exact Hc'.
      + intros ->. apply write_feature_ns in E. congruence.
  Qed.

  (** Who decides. *)
  Lemma has_pkg_eq c : has_pkg_control x c = has fr (s2l "pkg_control"%string) c.
  Proof. unfold has_pkg_control. now rewrite Hfr. Qed.

  Lemma pkg_decides_view s s' k c : (forall a d, view s' a d = view s a d) -> pkg_decides env x (view s') k c = pkg_decides env x (view s) k c.
  Proof. intros H. unfold pkg_decides. now rewrite !H. Qed.

  Lemma controlled_post k c s : Inv s ->
    post (is_pkg_controlled env fr k c) s
      (fun b s' => same_view s s' /\ Inv s' /\ In c online /\ b = pkg_decides env x (view s) k c)
      (fun e s' => same_view s s' /\ Inv s' /\ (e = ENotSupported -> has fr (hvalid k) c = false)).
  Proof.
    intros HI. pose proof (cpu_enabled_post env rep sc Hwf Hsc x Hx fr Hfr _ pkg_bit c s pkgctl_is_bit HI) as P.
    unfold post, is_pkg_controlled in *. destruct (is_cpu_enabled env fr (s2l "pkg_control"%string) c s) as [[[]|e] s1].
    - destruct P as (S1 & I1 & Hc & Hh & Hb).
      pose proof (cpu_enabled_post env rep sc Hwf Hsc x Hx fr Hfr _ _ c s1 (valid_is_bit k) I1) as P2.
      unfold post, mbind in *. destruct (is_cpu_enabled env fr (hvalid k) c s1) as [[v|e] s2]; unfold ret.
      + destruct P2 as (S2 & I2 & _ & _ & Hv). split; [eapply same_trans; eauto|]. split; [exact I2|]. split; [exact Hc|].
        unfold pkg_decides. rewrite has_pkg_eq, Hh, <- Hb. cbn [andb]. rewrite Hv, (proj1 S1). reflexivity.
      + destruct P2 as (S2 & I2 & Hn). split; [eapply same_trans; eauto|]. split; [exact I2|]. intros E. apply (Hn E).
    - destruct P as (S1 & I1 & Hc & Hh & Hb). split; [exact S1|]. split; [exact I1|]. split; [exact Hc|].
      unfold pkg_decides. rewrite <- Hb, andb_false_r. reflexivity.
    - destruct P as (S1 & I1 & Hn). assert (D : e = ENotSupported \/ e <> ENotSupported) by (destruct e; auto; right; discriminate).
      destruct D as [->|D].
      + destruct (Hn eq_refl) as (Hc & Hh). split; [exact S1|]. split; [exact I1|]. split; [exact Hc|].
        unfold pkg_decides. now rewrite has_pkg_eq, Hh.
      + destruct e; try congruence; (split; [exact S1|]; split; [exact I1|congruence]).
  Qed.
End Post.
