(** Lemmas about EPP and EPB: the texts, the MSR mechanism, the kernel. *)
From Coq Require Import Ascii String QArith ZifyBool.
From Verif Require Import Base L_Base L_Monad M_CPUInfo S_CPUInfo L_CPUInfo L_CPUInfo2
  M_Text S_Text M_MSR S_MSR L_Bits L_MSR L_MSR2 L_MSR3 L_MSR4 L_MSR5 M_FMSR S_FMSR L_Text L_FMSR L_FMSR2 L_FMSR3 L_FMSR4 X_FMSR
  M_HWP S_HWP L_Quiet L_OpTarget L_HWP L_HWP2 L_HWP3 L_HWP4 L_HWP5 M_Human S_Human L_Human L_Uncore3 M_EP S_EP.
Open Scope Z_scope.

Lemma py_int_dec n : 0 <= n -> py_int (dec n) = Some n.
Proof.
  intros H. destruct (dec_numeral n H) as (H1 & H2 & H3 & _). apply py_int_text.
  pose proof (Integer [] [] 1 (dec n) [] (Forall_nil _) (Forall_nil _) ltac:(constructor) H1 H2) as X.
  cbn [app] in X. rewrite app_nil_r, H3, Z.mul_1_l in X. exact X.
Qed.

Lemma is_int_dec n : 0 <= n -> is_int (dec n) = true.
Proof. intros H. unfold is_int. rewrite (py_int_dec n H). now destruct (py_int0 (dec n)). Qed.

Definition no_rep : Z -> Z -> Z := fun _ _ => 0.

Section EP.
  Variable env : menv.
  Notation dom := (me_dom env).
  Notation ci := (me_ci env).
  Notation online := (ci_online (me_ci env)).
  Variable sc : Z -> scope.
  Notation Coh := (Coh env no_rep sc).
  Notation view := (view env).
  Hypothesis Hwf : wf_ci ci.
  Hypothesis Hsc : forall a, scope_right env a (sc a).
  Hypothesis Hfaith : faithful env.
  Variable kind : epkind.
  Variable x : hwp.
  Variable epb : res freg.
  Hypothesis Hok : ep_ok env sc x epb.
  Notation Hx := (eo_hwp _ _ _ _ Hok).
  Notation ADDR := (ep_addr kind).
  Notation Inv := (Inv env no_rep sc).

  (** No transaction is going on, and the MSR object knows the registers. *)
  Definition calm (m : mstate) : Prop := Coh m /\ ms_intr m = false.
  Definition hw_same (m m' : mstate) : Prop := forall a d, ms_hw m' a d = ms_hw m a d.
  (** Only the register of CPU [c] may have changed. *)
  Definition hw_but (c : Z) (m m' : mstate) : Prop :=
    (forall a d, a <> ADDR -> ms_hw m' a d = ms_hw m a d) /\
    (forall c', In c' online -> dom ADDR c' <> dom ADDR c -> ms_hw m' ADDR (dom ADDR c') = ms_hw m ADDR (dom ADDR c')).

  Lemma calm_inv m : calm m -> Inv m.
  Proof. intros (H & Hi). split; [exact H|]. congruence. Qed.
  Lemma calm_view m a d : calm m -> view m a d = ms_hw m a d.
  Proof. intros (H & Hi). apply view_nobuf. apply (c_buf _ _ _ _ _ H). exact Hi. Qed.
  Lemma calm_keeps m m' : calm m -> keeps env no_rep sc m m' -> calm m'.
  Proof. intros (H & Hi) K. split; [apply K|]. now rewrite (k_intr _ _ _ _ _ K). Qed.
  Lemma calm_init hw faults : calm (msr_init hw faults).
  Proof. split; [apply Coh_init|reflexivity]. Qed.

  Lemma calm_kernel m h : me_cache env = false -> calm m -> calm (set_hw h m).
  Proof.
    intros Hn (H & Hi). split; [|exact Hi]. pose proof (c_buf _ _ _ _ _ H) as B. split.
    - destruct B as [B1 B2 B3 B4 B5 B6 B7]. split; [exact B1|exact B2|exact B3|exact B4|exact B5|exact B6|exact B7].
    - intros a c v _ E. unfold cache_get in E. now rewrite Hn in E.
    - intros a c t y E. unfold tentry in E. cbn [set_hw ms_tbuf] in E. rewrite (b_tr _ _ _ _ B Hi) in E. discriminate.
  Qed.

  Lemma same_view_hw m m' : calm m -> same_view env no_rep sc m m' -> calm m' /\ hw_same m m'.
  Proof.
    intros Hc (V & K). pose proof (calm_keeps m m' Hc K) as Hc'. split; [exact Hc'|]. intros a d.
    rewrite <- (calm_view m a d Hc), <- (calm_view m' a d Hc'). apply V.
  Qed.

  Lemma pkg_decides_ext L L' k c : L' REQ (dom REQ c) = L REQ (dom REQ c) -> pkg_decides env x L' k c = pkg_decides env x L k c.
  Proof. unfold pkg_decides. now intros ->. Qed.

  Lemma epb_get fr : epb = Ok fr -> get_feature fr (s2l "epb"%string) = Ok (fint 3 0 (Some (sc 432)) true).
  Proof. intros E. destruct (eo_epb _ _ _ _ Hok fr E) as (_ & F). unfold get_feature. now rewrite F. Qed.
  Lemma epb_feature_ok ios : feature_ok (fint 3 0 ios true).
  Proof. apply feature_okb_sound. reflexivity. Qed.

  (** Reading a MSR. *)
  Definition mech_read (c : Z) : M mstate (option Z) :=
    match kind with EPP => epp_read_msr env x c | EPB => epb_read_msr env epb c end.
  Definition mech_write (n c : Z) : M mstate unit :=
    match kind with EPP => epp_write_msr env x n c | EPB => epb_write_msr env epb n c end.

  Lemma mech_read_post c m : calm m ->
    post (mech_read c) m
      (fun r m' => calm m' /\ hw_same m m' /\
         forall v, r = Some v -> In c online /\ (own_value env kind x (ms_hw m) c -> ep_value env kind (ms_hw m) c v))
      (fun _ m' => calm m' /\ hw_same m m').
  Proof.
    intros Hc. unfold mech_read, own_value, ep_value. pose proof (calm_inv m Hc) as HI. destruct kind; cbn [ep_addr ep_bits].
    - eapply post_conseq; [apply (epp_read_post env no_rep sc Hwf Hsc x Hx c m HI)| |].
      + intros r m' (S & _ & Hr & _). destruct (same_view_hw m m' Hc S) as (C' & E). split; [exact C'|]. split; [exact E|].
        intros v ->. destruct (Hr v eq_refl) as (Ho & Hv). split; [exact Ho|]. intros Hd. specialize (Hd eq_refl).
        unfold setting in Hv. rewrite (pkg_decides_ext (ms_hw m)) in Hv by (apply calm_view; exact Hc). rewrite Hd in Hv.
        rewrite (calm_view m _ _ Hc) in Hv. exact Hv.
      + intros e m' (S & _). exact (same_view_hw m m' Hc S).
    - unfold epb_read_msr.
      assert (D : (exists fr, epb = Ok fr) \/ exists e, epb = Exn e) by (destruct epb; eauto).
      destruct D as [(fr & Efr)|(e & Efr)]; rewrite Efr.
      + destruct (eo_epb _ _ _ _ Hok fr Efr) as (Fa & _).
        pose proof (read_num_post env no_rep sc Hwf Hsc fr _ _ c m (epb_get fr Efr) (epb_feature_ok _) ltac:(now rewrite Fa) HI) as P.
        unfold post in *. unfold lift, mbind at 1. destruct (read_num env fr (s2l "epb"%string) c m) as [[n|e] m'].
        * destruct P as (S & _ & Ho & _ & code & Hf & Hn). destruct (same_view_hw m m' Hc S) as (C' & E).
          split; [exact C'|]. split; [exact E|]. intros v [= <-]. split; [exact Ho|]. intros _. unfold named_as in Hn. cbn in Hn. injection Hn as <-.
          rewrite Fa, (calm_view m _ _ Hc) in Hf. exact Hf.
        * destruct P as (S & _). destruct (same_view_hw m m' Hc S) as (C' & E). destruct e; try (split; [exact C'|exact E]).
          split; [exact C'|]. split; [exact E|]. discriminate.
      + unfold post, lift, mbind. destruct e; try (split; [exact Hc|intros ? ?; reflexivity]).
        split; [exact Hc|]. split; [intros ? ?; reflexivity|]. discriminate.
  Qed.

  Lemma mech_write_post n c m : 0 <= n -> calm m ->
    post (mech_write n c) m
      (fun _ m' => calm m' /\ hw_but c m m' /\ In c online /\ own_value env kind x (ms_hw m') c /\ ep_value env kind (ms_hw m') c n)
      (fun _ m' => calm m' /\ hw_but c m m').
  Proof.
    intros Hn Hc. unfold mech_write, own_value, ep_value, hw_but. pose proof (calm_inv m Hc) as HI. destruct kind; cbn [ep_addr ep_bits].
    - assert (G : forall m', tidy env no_rep sc HEpp (fun c' => c' = c) m m' ->
        (forall c', In c' online -> c' <> c -> view m' REQ (dom REQ c') = view m REQ (dom REQ c')) ->
        calm m' /\ (forall a d, a <> REQ -> ms_hw m' a d = ms_hw m a d) /\
        (forall c', In c' online -> dom REQ c' <> dom REQ c -> ms_hw m' REQ (dom REQ c') = ms_hw m REQ (dom REQ c'))).
      { intros m' (K & _ & F & _) R. pose proof (calm_keeps m m' Hc K) as C'. split; [exact C'|]. split.
        - intros a d Ha. rewrite <- (calm_view m a d Hc), <- (calm_view m' a d C'). now apply F.
        - intros c' Ho Hd. rewrite <- (calm_view m _ _ Hc), <- (calm_view m' _ _ C'). apply R; [exact Ho|]. congruence. }
      eapply post_conseq; [apply (epp_write_post env no_rep sc Hwf Hsc Hfaith x Hx n c m Hn HI)| |].
      + intros [] m' (T & R & Ho & Hd & Hf & _). destruct (G m' T R) as (C' & F1 & F2). split; [exact C'|]. split; [split; assumption|].
        split; [exact Ho|]. split; [|rewrite <- (calm_view m' _ _ C'); exact Hf].
        intros _. rewrite <- Hd. apply pkg_decides_ext. symmetry. now apply calm_view.
      + intros e m' (T & R & _). destruct (G m' T R) as (C' & F1 & F2). split; [exact C'|]. split; assumption.
    - unfold epb_write_msr. apply post_bind, post_lift; [|intros; split; [exact Hc|split; reflexivity]]. intros fr Efr.
      destruct (eo_epb _ _ _ _ Hok fr Efr) as (Fa & Ff). pose proof (epb_get fr Efr) as Hg.
      pose proof (write_feature_mix env no_rep sc Hwf Hsc Hfaith fr _ _ Hg (epb_feature_ok _) ltac:(now rewrite Fa) (Some [c]) (VInt n) m (proj1 Hc)) as P.
      specialize (P ltac:(intros Hi; destruct Hc; congruence) ltac:(intros _; exact Hn)). rewrite Fa in P.
      assert (G : forall m', keeps env no_rep sc m m' ->
        (forall a d, ~ (a = 432 /\ targeted env 432 (Some [c]) d) -> view m' a d = view m a d) ->
        calm m' /\ (forall a d, a <> 432 -> ms_hw m' a d = ms_hw m a d) /\
        (forall c', In c' online -> dom 432 c' <> dom 432 c -> ms_hw m' 432 (dom 432 c') = ms_hw m 432 (dom 432 c'))).
      { intros m' K F. pose proof (calm_keeps m m' Hc K) as C'. split; [exact C'|]. split.
        - intros a d Ha. rewrite <- (calm_view m a d Hc), <- (calm_view m' a d C'). apply F. tauto.
        - intros c' Ho Hd. rewrite <- (calm_view m _ _ Hc), <- (calm_view m' _ _ C'). apply F. intros (_ & y & [<-|[]] & E). congruence. }
      destruct (validate_feature_supported env fr (s2l "epb"%string) (Some [c])) as [[]|e] eqn:Ev.
      2:{ unfold post, write_feature, mbind at 1, lift at 1. rewrite Ev. split; [exact Hc|]. split; reflexivity. }
      pose proof (validate_ok env fr _ (Some [c]) Ev c ltac:(now left)) as (Ho & _).
      eapply post_conseq; [exact P| |].
      + intros [] m' (K & code & Hm & Eff). cbn [op_effect value_of] in Eff.
        destruct (G m' K ltac:(intros a d; apply Eff)) as (C' & F1 & F2).
        split; [exact C'|]. split; [split; assumption|]. split; [exact Ho|]. split; [discriminate|].
        destruct (Hm c ltac:(now left)) as (M & Fi).
        apply means_int in M. subst code.
        destruct (Eff 432 (dom 432 c)) as (E1 & _). specialize (E1 ltac:(split; [reflexivity|exists c; split; [now left|reflexivity]])).
        rewrite <- (calm_view m' _ _ C'). eapply is_set_field; [|exact Fi|exact E1]. unfold field_ok; cbn; lia.
      + intros e m' (K & F & _). destruct (G m' K F) as (C' & F1 & F2). split; [exact C'|]. split; assumption.
  Qed.

  (** Other calls of the MSR object. *)
  Lemma msr_step_post o m : calm m -> op_scoped sc o -> o <> OStart ->
    calm (snd (mstep env o m)) /\ forall a d, ~ op_touches env o a d -> ms_hw (snd (mstep env o m)) a d = ms_hw m a d.
  Proof.
    intros Hc Hs Hne. assert (Hro : ms_intr m = true -> op_rep env no_rep o) by (destruct Hc; congruence).
    pose proof (mstep_post env no_rep sc Hwf Hsc Hfaith o m (proj1 Hc) Hs Hro) as P.
    pose proof (mstep_intr env no_rep sc Hwf Hsc Hfaith o m (proj1 Hc) Hs Hro Hne (proj2 Hc)) as Pi.
    assert (HC : calm (snd (mstep env o m))).
    { split; [|exact Pi]. unfold post in P. destruct (mstep env o m) as [[r|e] s']; apply P. }
    split; [exact HC|]. intros a d Ht. rewrite <- (calm_view _ a d HC), <- (calm_view m a d Hc).
    apply (mrun_view env no_rep sc Hwf Hsc Hfaith [o] a d m (proj1 Hc)).
    - intros o' [<-|[]]; exact Hs.
    - left. split; [apply Hc|]. intros [E|[]]. now apply Hne.
    - intros o' [<-|[]]; exact Ht.
  Qed.
End EP.
