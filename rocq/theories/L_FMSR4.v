(** Lemmas about failing writes of MSR features: every register is as it was, or as it was to be. *)
From Coq Require Import Ascii String ZifyBool.
From Verif Require Import Base L_Base L_Monad M_CPUInfo S_CPUInfo L_CPUInfo M_Text M_MSR S_MSR L_Bits
  L_MSR L_MSR2 L_MSR3 L_MSR4 M_Osa S_Osa L_Osa M_FMSR S_FMSR L_Text L_FMSR L_FMSR2 L_FMSR3.

Section Post.
  Variable env : menv.
  Notation dom := (me_dom env).
  Notation ci := (me_ci env).
  Notation online := (ci_online (me_ci env)).
  Variable rep : Z -> Z -> Z.
  Variable sc : Z -> scope.
  Notation Coh := (Coh env rep sc).
  Notation view := (view env).
  Notation keeps := (keeps env rep sc).
  Hypothesis Hwf : wf_ci ci.
  Hypothesis Hsc : forall a, scope_right env a (sc a).
  Hypothesis Hfaith : faithful env.
  Variables (fr : freg) (fname : str) (fe : feature).
  Hypothesis Hget : get_feature fr fname = Ok fe.
  Hypothesis Hok : feature_ok fe.
  Hypothesis Hios : fe_ios fe = Some (sc (fr_addr fr)).
  Notation a := (fr_addr fr).

  Lemma write_bits_ios_mix cpus v w s : Coh s -> (ms_intr s = true -> first_is env rep a cpus) ->
    (forall code, w = VInt code -> 0 <= code) ->
    (forall code, w = VInt code \/ (exists b, w = VBool b /\ code = Z.b2z b) -> means fe v code) ->
    post (write_bits_ios env a (fe_bits fe) w cpus (fe_ios fe) false) s
      (fun _ s' => keeps s s' /\ exists code,
         (forall c, In c (targets env cpus) -> means fe v code /\ fits (fe_bits fe) code) /\
         op_effect env (OWriteBits a (fe_bits fe) (Some code) cpus (sc a) false) (view s) (view s'))
      (fun _ s' => keeps s s' /\
         (forall a' d, ~ (a' = a /\ targeted env a cpus d) -> view s' a' d = view s a' d) /\
         forall d, view s' a d = view s a d \/ exists code, means fe v code /\ fits (fe_bits fe) code /\
           is_set (fe_bits fe) code (view s a d) (view s' a d)).
  Proof.
    intros H Hr Hnn Hm. rewrite Hios.
    assert (W : forall n, 0 <= n -> (means fe v n) ->
      post (write_bits env a (fe_bits fe) (Some n) cpus (sc a) false) s
      (fun _ s' => keeps s s' /\ exists code,
         (forall c, In c (targets env cpus) -> means fe v code /\ fits (fe_bits fe) code) /\
         op_effect env (OWriteBits a (fe_bits fe) (Some code) cpus (sc a) false) (view s) (view s'))
      (fun _ s' => keeps s s' /\
         (forall a' d, ~ (a' = a /\ targeted env a cpus d) -> view s' a' d = view s a' d) /\
         forall d, view s' a d = view s a d \/ exists code, means fe v code /\ fits (fe_bits fe) code /\
           is_set (fe_bits fe) code (view s a d) (view s' a d))).
    { intros n Hn Hmn. pose proof (write_bits_post_mix env rep sc Hwf Hsc Hfaith a (fe_bits fe) (Some n) cpus false s H Hr (fo_field fe Hok) Hn) as P.
      unfold post in *. destruct (write_bits env a (fe_bits fe) (Some n) cpus (sc a) false s) as [[[]|e] s'] eqn:E; [|destruct P as (K & F & G); split; [exact K|split; [exact F|]]; intros d; destruct (G d) as [G1|G1]; [now left|right]; exists n; split; [exact Hmn|]; exact (set_bits_is_set_some _ _ _ _ (fo_field fe Hok) Hn G1)].
      destruct P as (K & Eff). split; [exact K|]. exists n. split; [|exact Eff].
      intros c Hc. split; [exact Hmn|].
      destruct (normalize_cpus ci cpus false) as [[|c0 t]|e] eqn:El.
      - apply (normalized_targets env cpus [] El) in Hc. destruct Hc.
      - exact (write_bits_fits env a _ n cpus _ false s s' c0 t (fo_field fe Hok) Hn El E).
      - unfold write_bits in E. rewrite (lbind_exn _ _ s e El) in E. discriminate. }
    destruct w as [t|b|n]; cbn [write_bits_ios].
    - apply post_bind, post_lift.
      2:{ intros e _. split; [|split; [reflexivity|now left]]. apply (cache_only_keeps env rep sc); [apply cache_only_refl|exact H]. }
      intros l El. destruct l as [|c l].
      + apply post_ret. split; [apply (cache_only_keeps env rep sc); [apply cache_only_refl|exact H]|].
        exists 0. split; [intros c Hc; apply (normalized_targets env cpus [] El) in Hc; destruct Hc|].
        intros a' d. split; [|reflexivity]. intros (_ & c & Hc & _). apply (normalized_targets env cpus [] El) in Hc. destruct Hc.
      + apply post_bind. eapply post_conseq; [apply (read_one_post env rep sc Hwf Hsc a c s)| |].
        * apply (normalized_online env cpus _ El). now left.
        * exact H.
        * intros cv s1 (_ & C & H1). apply post_throw.
          split; [apply (cache_only_keeps env rep sc); auto|]. split; [intros a' d _|intros d; left]; apply (cache_only_view env _ _ _ _ C).
        * intros e s1 (C & H1).
          split; [apply (cache_only_keeps env rep sc); auto|]. split; [intros a' d _|intros d; left]; apply (cache_only_view env _ _ _ _ C).
    - apply W; [destruct b; cbn; lia|]. apply Hm. right. eauto.
    - apply W; [now apply Hnn|]. apply Hm. now left.
  Qed.

  Lemma write_feature_mix cpus v s : Coh s -> (ms_intr s = true -> first_is env rep a cpus) ->
    (fe_vals fe = None -> not_negative v) ->
    post (write_feature env fr fname v cpus) s
      (fun _ s' => keeps s s' /\ exists code,
         (forall c, In c (targets env cpus) -> means fe v code /\ fits (fe_bits fe) code) /\
         op_effect env (OWriteBits a (fe_bits fe) (Some code) cpus (sc a) false) (view s) (view s'))
      (fun _ s' => keeps s s' /\
         (forall a' d, ~ (a' = a /\ targeted env a cpus d) -> view s' a' d = view s a' d) /\
         forall d, view s' a d = view s a d \/ exists code, means fe v code /\ fits (fe_bits fe) code /\
           is_set (fe_bits fe) code (view s a d) (view s' a d)).
  Proof.
    intros H Hr Hnn.
    assert (R : keeps s s /\ (forall a' d, ~ (a' = a /\ targeted env a cpus d) -> view s a' d = view s a' d) /\
      forall d, view s a d = view s a d \/ exists code, means fe v code /\ fits (fe_bits fe) code /\ is_set (fe_bits fe) code (view s a d) (view s a d)).
    { split; [|split; [reflexivity|now left]]. apply (cache_only_keeps env rep sc); [apply cache_only_refl|exact H]. }
    unfold write_feature. apply post_bind, post_lift; [|intros; exact R].
    intros _ _. apply post_bind, post_lift; [|intros; exact R].
    intros f Ef. rewrite Hget in Ef. injection Ef as <-.
    apply post_bind, post_lift; [|intros; exact R]. intros w Ew.
    destruct (negb (fe_writable fe)); [apply post_throw; exact R|].
    apply write_bits_ios_mix; auto; destruct (fe_vals fe) as [vals|] eqn:Ev.
    - intros code ->. pose proof (normalize_spec fe Hok v vals Ev) as N. rewrite Ew in N.
      destruct N as (c & [= ->] & N). assert (F : fits (fe_bits fe) c) by (eapply means_fits; eauto; congruence).
      unfold fits in F. lia.
    - unfold normalize_feature_value in Ew. rewrite Ev in Ew. injection Ew as <-. intros code ->. exact (Hnn eq_refl).
    - intros code Hc. pose proof (normalize_spec fe Hok v vals Ev) as N. rewrite Ew in N.
      destruct N as (c & -> & N). destruct Hc as [[= ->]|(b & [=] & _)]. exact N.
    - unfold normalize_feature_value in Ew. rewrite Ev in Ew. injection Ew as <-.
      intros code Hc. unfold means. rewrite Ev. exact Hc.
  Qed.

End Post.
