(** The enable and clamp switches of the power limits. *)
From Coq Require Import Ascii String QArith ZifyBool Sorted.
From Verif Require Import Base L_Base L_Monad M_CPUInfo S_CPUInfo L_CPUInfo M_Text M_MSR S_MSR L_Bits
  L_MSR L_MSR2 L_MSR3 L_MSR4 L_MSR5 M_Osa S_Osa L_Osa M_FMSR S_FMSR L_Text L_FMSR L_FMSR2 L_FMSR3 X_FMSR M_Power S_Power L_Power L_Power2 L_Power3.

Lemma on_off_normalized frl two k fe v on : fr_feats frl = ppl_feats -> get_feature frl (n_switch two k) = Ok fe ->
  on_off v on -> normalize_feature_value fe v = Ok (VInt (if on then 1 else 0)).
Proof.
  intros Hf E Hv. unfold get_feature in E. rewrite Hf in E.
  destruct two, k; injection E as <-; destruct Hv as [-> | ->], on; reflexivity.
Qed.

Lemma C29_switch_l env sc : wf_ci (me_ci env) -> (forall a, scope_right env a (sc a)) -> faithful env ->
  forall fru frl fri, power_regs fru frl fri -> power_scopes sc ->
  forall ops hw faults two k v on cpus, pdisciplined env sc (ops ++ [PSwitch two k v cpus]) -> on_off v on ->
  let p := prun env fru frl fri ops (power_init hw faults) in
  forall p', set_switch env frl two k v cpus p = (Ok tt, p') ->
  (forall d, targeted env a_limit cpus d ->
     is_set (switch_field two k) (if on then 1 else 0) (view env (pw_ms p) a_limit d) (view env (pw_ms p') a_limit d)) /\
  (forall a d, ~ (a = a_limit /\ targeted env a_limit cpus d) -> view env (pw_ms p') a d = view env (pw_ms p) a d).
Proof.
  intros Hwf Hsc Hfaith fru frl fri Hregs Hscopes ops hw faults two k v on cpus Hd Hv p p' E.
  destruct (reachedp env sc Hwf Hsc Hfaith fru frl fri Hregs Hscopes ops _ hw faults Hd) as (rep & H & Hr).
  cbn [pop_rep] in Hr. fold p in H, Hr. clearbody p.
  set (Q := fun q' : pwstate => (forall d, targeted env a_limit cpus d ->
     is_set (switch_field two k) (if on then 1 else 0) (view env (pw_ms p) a_limit d) (view env (pw_ms q') a_limit d)) /\
  (forall a d, ~ (a = a_limit /\ targeted env a_limit cpus d) -> view env (pw_ms q') a d = view env (pw_ms p) a d)).
  cut (post (set_switch env frl two k v cpus) p (fun _ q => Q q) (fun _ _ => True)).
  { intros P. unfold post in P. rewrite E in P. exact P. }
  clear E p'. unfold set_switch. destruct (Hlim sc fru frl fri Hregs Hscopes) as (Sl & Al).
  apply post_bind, post_lift; [|auto]. intros _ _.
  apply post_bind, post_lift; [|auto]. intros fe Ef.
  assert (Hff : fr_feats frl = ppl_feats) by apply Hregs.
  pose proof (on_off_normalized frl two k fe v on Hff Ef Hv) as En.
  destruct (get_switch fru frl fri Hregs two k fe Ef) as (Eb & _).
  apply post_bind, post_lift; [|auto]. intros w Ew. rewrite En in Ew. injection Ew as <-.
  destruct (negb (fe_writable fe)); [now apply post_throw|].
  assert (FL : forall q, PI env rep sc q -> post (on_ms (flush_transaction env)) q
       (fun _ q' => PI env rep sc q' /\ ms_intr (pw_ms q') = ms_intr (pw_ms q) /\
          forall a d, view env (pw_ms q') a d = view env (pw_ms q) a d) (fun _ _ => True)).
  { intros q Hq. apply post_on_ms. eapply post_conseq; [apply (flush_post env rep sc Hwf Hsc Hfaith _ (p_coh _ _ _ _ Hq))| |auto].
    intros b s' (H' & Ei & V & _). cbn [pw_ms]. split; [|split; [exact Ei|exact V]].
    apply (PI_ms env rep sc q); auto. }
  apply post_bind. eapply post_conseq; [apply (FL p H)| |auto].
  intros _ p1 (H1 & I1 & V1). rewrite Al in Sl |- *. rewrite Eb. apply post_bind, post_on_ms.
  assert (Hr1 : ms_intr (pw_ms p1) = true -> first_is env rep a_limit cpus) by (rewrite I1; exact Hr).
  assert (Hc : 0 <= (if on then 1 else 0)) by (destruct on; lia).
  pose proof (write_bits_post_mix env rep sc Hwf Hsc Hfaith a_limit (switch_bits two k) (Some (if on then 1 else 0)) cpus true
    (pw_ms p1) (p_coh _ _ _ _ H1) Hr1 (switch_field_ok two k) Hc) as P. rewrite Sl in P.
  eapply post_conseq; [exact P| |auto].
  intros u s' (K & Eff). cbn beta. apply post_bind.
  assert (H2 : PI env rep sc (PW s' (pw_lim p1) (pw_info p1))).
  { apply (PI_ms env rep sc p1); [exact H1|apply K|]. intros d. apply Eff. intros (X & _). discriminate. }
  eapply post_conseq; [apply (FL _ H2)| |auto].
  intros _ p3 (_ & _ & V3). apply post_ret. cbn [pw_ms] in V3. split.
  - intros d Ht. rewrite V3, <- V1. apply Eff. auto.
  - intros a d Ht. rewrite V3, <- V1. now apply Eff.
Qed.
