(** Setting and reading the package C-state limit succeed when nothing is locked and I/O works (C30). *)
From Coq Require Import Ascii String ZifyBool.
From Verif Require Import Base L_Base L_Monad M_CPUInfo S_CPUInfo L_CPUInfo L_CPUInfo2
  M_Text M_MSR S_MSR L_Bits L_MSR L_MSR2 L_MSR3 L_MSR4 L_MSR5 M_FMSR S_FMSR L_Text L_FMSR L_FMSR2 L_FMSR3 L_FMSR4 X_FMSR
  M_HWP S_HWP L_HWP L_FMSR5 L_FMSR6 M_PCState S_PCState L_PCState.

Section Live.
  Variable env : menv.
  Notation dom := (me_dom env).
  Notation ci := (me_ci env).
  Notation online := (ci_online (me_ci env)).
  Variable rep : Z -> Z -> Z.
  Variable sc : Z -> scope.
  Notation Coh := (Coh env rep sc).
  Notation view := (view env).
  Hypothesis Hwf : wf_ci ci.
  Hypothesis Hsc : forall a, scope_right env a (sc a).
  Hypothesis Hfaith : faithful env.

  (** When no register is locked, the loop is the one of an ordinary write. *)
  Lemma group_locked_free a k b code : 0 <= k <= 63 -> forall l acc s,
    (forall c, In c l -> In c online) -> Coh s -> io_works s ->
    (forall c, In c l -> ~ is_locked env s a k c) ->
    group_locked env a (k, k) b code (sc a) l acc s = group_writes env a b (Some code) (sc a) l acc s.
  Proof.
    intros Hk. induction l as [|c l IH]; intros acc s Hl H W Hu; [reflexivity|].
    cbn [group_locked group_writes]. unfold mbind at 1. unfold mbind at 3.
    assert (Hc : In c online) by (apply Hl; now left).
    pose proof (read_one_post env rep sc Hwf Hsc a c s Hc H) as P.
    pose proof (read_one_live env sc Hwf Hsc a c s Hc W) as L. unfold live, post in P, L.
    destruct (read_one env a (sc a) c s) as [[[c' old]|e] s1]; [|destruct L].
    destruct P as ([= -> ->] & C1 & H1).
    assert (Hf : field_ok (k, k)) by (unfold field_ok; cbn; lia).
    assert (Ex : exists x, get_bits (view s a (dom a c)) (k, k) = Ok x).
    { eexists. apply (get_bits_is_field _ _ _ Hf). apply field_val_spec. exact Hf. }
    destruct Ex as (x & Ex). unfold mbind at 1, lift at 1. rewrite Ex.
    assert (Hx : x = 0).
    { apply (lock_bit _ _ _ Hk Ex). specialize (Hu c (or_introl eq_refl)). unfold is_locked in Hu.
      destruct (Z.testbit (view s a (dom a c)) k); congruence. }
    subst x. cbn [Z.eqb negb].
    assert (Hrec : forall acc', group_locked env a (k, k) b code (sc a) l acc' s1 = group_writes env a b (Some code) (sc a) l acc' s1).
    { intros acc'. apply IH; [intros; apply Hl; now right|exact H1|exact L|].
      intros c0 Hc0. specialize (Hu c0 (or_intror Hc0)). unfold is_locked in *. now rewrite (cache_only_view env _ _ a (dom a c0) C1). }
    unfold mbind, lift. destruct (set_bits (view s a (dom a c)) b (Some code)) as [new|e]; [|reflexivity].
    destruct (view s a (dom a c) =? new); apply Hrec.
  Qed.

  Variables (fr : freg) (fe : feature) (k : Z).
  Notation a := (fr_addr fr).
  Hypothesis Hreg : limit_reg fr fe k.
  Hypothesis Hios : fe_ios fe = Some (sc a).

  Lemma write_limit_live cpus v s : Coh s -> io_works s -> (ms_intr s = true -> first_is env rep a cpus) ->
    fe_writable fe = true -> (exists code, means fe v code) -> (forall d, 0 <= view s a d < 2 ^ 64) ->
    (forall c, In c (targets env cpus) -> In c online /\ has fr n_limit c = true) ->
    (forall c, In c (targets env cpus) -> ~ is_locked env s a k c) ->
    live (write_limit env fr v cpus) s.
  Proof.
    intros H W Hr Hw (code & Hm) H64 Ht Hu. destruct Hreg as (Hget & Hok & Hvals & lock & Hlock & Hlb & Hk).
    assert (Hg : get_feature fr n_limit = Ok fe) by (unfold get_feature, n_limit; now rewrite Hget).
    unfold live, post, write_limit.
    rewrite (lbind_ok _ _ s tt (validate_has env fr n_limit fe cpus Hg Ht)), (lbind_ok _ _ s fe Hg).
    destruct (fe_vals fe) as [vals|] eqn:Ev; [|congruence].
    pose proof (normalize_spec fe Hok v vals Ev) as N. destruct (normalize_feature_value fe v) as [w|e]; [|now elim (N code)].
    destruct N as (code' & -> & Hm'). assert (code' = code) by (eapply means_unique; eauto). subst code'.
    assert (Hfit : fits (fe_bits fe) code) by (eapply means_fits; eauto; congruence).
    rewrite (lbind_ok _ _ s _ eq_refl), Hw. cbn [negb]. unfold n_lock. rewrite Hlock, (lbind_ok _ _ s lock eq_refl).
    unfold set_limit. rewrite Hios, Hlb.
    destruct (proj2 (normalize_ok_iff env cpus) (fun c Hc => proj1 (Ht c Hc))) as (l & El).
    pose proof (write_bits_live env rep sc Hwf Hsc Hfaith a (fe_bits fe) (Some code) cpus false s H Hr (fo_field fe Hok) Hfit W H64
                  (ex_intro _ l El)) as L.
    unfold live, post, write_bits in L. rewrite (lbind_ok _ _ s l El) in L. rewrite (lbind_ok _ _ s l El).
    unfold mbind in L |- *. rewrite (group_locked_free a k (fe_bits fe) code Hk l [] s); [exact L| |exact H|exact W|].
    - exact (normalized_online env cpus l El).
    - intros c Hc. apply Hu. now apply (normalized_targets env cpus l El).
  Qed.

  Lemma read_limit_live cpus s : Coh s -> io_works s ->
    (forall c, In c (targets env cpus) -> In c online /\ has fr n_limit c = true) ->
    live (read_limit env fr cpus) s.
  Proof.
    intros H W Ht. destruct Hreg as (Hget & Hok & Hvals & _).
    assert (Hg : get_feature fr n_limit = Ok fe) by (unfold get_feature, n_limit; now rewrite Hget).
    unfold live, post, read_limit.
    rewrite (lbind_ok _ _ s tt (validate_has env fr n_limit fe cpus Hg Ht)), (lbind_ok _ _ s fe Hg).
    unfold get_limit. rewrite Hios. cbn [read_bits_ios]. unfold mbind.
    rewrite (read_bits_eq env a (fe_bits fe) cpus (sc a) s (fo_field fe Hok)).
    assert (L : live (read env a cpus (sc a)) s).
    { unfold read. destruct (proj2 (normalize_ok_iff env cpus) (fun c Hc => proj1 (Ht c Hc))) as (l & El).
      apply post_bind, post_lift; [|intros e E; congruence]. intros l' El'.
      apply (read_cpus_live env sc Hwf Hsc a l' s); [|exact W]. exact (normalized_online env cpus l' El'). }
    unfold live, post in L. destruct (read env a cpus (sc a) s) as [[r|e] s1]; [exact L|destruct L].
  Qed.
End Live.

Section Final.
  Variable env : menv.
  Variable sc : Z -> scope.
  Hypothesis Hwf : wf_ci (me_ci env).
  Hypothesis Hsc : forall a, scope_right env a (sc a).
  Hypothesis Hfaith : faithful env.
  Variables (model : Z) (flags : Z -> list str) (off : list Z) (a : Z) (feats : list (str * feature)) (fr : freg).
  Hypothesis Hinit : init_reg (me_ci env) model flags off a feats = Ok fr.
  Hypothesis Hnd : NoDup (map fst feats).
  Variables (fe : feature) (k : Z).
  Hypothesis Hreg : limit_reg fr fe k.
  Hypothesis Hios : fe_ios fe = Some (sc a).

  Lemma limit_in : In (n_limit, fe) feats.
  Proof.
    destruct Hreg as (Hget & _). rewrite (proj2 (init_fields env model flags off a feats fr Hinit)) in Hget.
    apply (dget_In str_eqb str_eqb_eq). exact Hget.
  Qed.

  Lemma limit_write_succeeds_l ops hw faults cpus v code : disciplined_for env sc ops a cpus ->
    let s := mrun env ops (msr_init hw faults) in
    io_works s -> (forall d, 0 <= view env s a d < 2 ^ 64) -> fe_writable fe = true -> means fe v code ->
    (forall c, In c (targets env cpus) ->
       In c (ci_online (me_ci env)) /\ cpu_supports model flags off fe c /\ ~ is_locked env s a k c) ->
    exists s', write_limit env fr v cpus s = (Ok tt, s').
  Proof.
    intros Hd s W H64 Hw Hm Ht. destruct (reached_for env sc Hwf Hsc Hfaith ops hw faults a cpus Hd) as (rep & H & Hr). fold s in H, Hr.
    destruct (init_fields env model flags off a feats fr Hinit) as (Ea & _).
    assert (L : live (write_limit env fr v cpus) s).
    { apply (write_limit_live env rep sc Hwf Hsc Hfaith fr fe k Hreg); try (rewrite Ea); eauto.
      - apply (supported_has env model flags off a feats fr Hinit Hnd n_limit fe limit_in).
        intros c Hc. destruct (Ht c Hc) as (A & B & _). auto.
      - intros c Hc. apply Ht, Hc. }
    unfold live, post in L. destruct (write_limit env fr v cpus s) as [[[]|e] s']; [eauto|destruct L].
  Qed.

  Lemma limit_read_succeeds_l ops hw faults cpus : disciplined env sc ops ->
    let s := mrun env ops (msr_init hw faults) in
    io_works s ->
    (forall c, In c (targets env cpus) -> In c (ci_online (me_ci env)) /\ cpu_supports model flags off fe c) ->
    exists r s', read_limit env fr cpus s = (Ok r, s').
  Proof.
    intros Hd s W Ht. destruct (reached env sc Hwf Hsc ops hw faults Hfaith Hd) as (rep & H & _). fold s in H.
    destruct (init_fields env model flags off a feats fr Hinit) as (Ea & _).
    assert (L : live (read_limit env fr cpus) s).
    { apply (read_limit_live env rep sc Hwf Hsc fr fe k Hreg); try (rewrite Ea); eauto.
      exact (supported_has env model flags off a feats fr Hinit Hnd n_limit fe limit_in cpus Ht). }
    unfold live, post in L. destruct (read_limit env fr cpus s) as [[r|e] s']; [eauto|destruct L].
  Qed.
End Final.

(** C14: selecting siblings *)
Lemma select_core_fails_l ci cpus indexes :
  (exists e, select_core_siblings ci cpus indexes = Exn e) <-> exists c, In c cpus /\ ~ In c (ci_all ci).
Proof.
  pose proof (normalize_cpus_fails_l ci cpus true) as N. unfold available in N. cbn in N. rewrite <- N.
  unfold select_core_siblings, normalize_cpus. destruct (normalize_in (ci_all ci) cpus) as [l|e]; cbn [rbind]; split; intros (e' & E); eauto; discriminate.
Qed.
Lemma select_module_fails_l ci cpus indexes :
  (exists e, select_module_siblings ci cpus indexes = Exn e) <-> exists c, In c cpus /\ ~ In c (ci_all ci).
Proof.
  pose proof (normalize_cpus_fails_l ci cpus true) as N. unfold available in N. cbn in N. rewrite <- N.
  unfold select_module_siblings, normalize_cpus. destruct (normalize_in (ci_all ci) cpus) as [l|e]; cbn [rbind]; split; intros (e' & E); eauto; discriminate.
Qed.
