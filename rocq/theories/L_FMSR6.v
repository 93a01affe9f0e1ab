(** When I/O works, accesses to MSR features succeed: after any history. *)
From Coq Require Import Ascii String ZifyBool.
From Verif Require Import Base L_Base L_Monad M_CPUInfo S_CPUInfo L_CPUInfo L_CPUInfo2
  M_Text M_MSR S_MSR L_Bits L_MSR L_MSR2 L_MSR3 L_MSR4 L_MSR5 M_FMSR S_FMSR L_Text L_FMSR L_FMSR2 L_FMSR3 L_FMSR4 X_FMSR
  M_HWP S_HWP L_HWP L_FMSR5.

Section Succeeds.
  Variable env : menv.
  Variable sc : Z -> scope.
  Hypothesis Hwf : wf_ci (me_ci env).
  Hypothesis Hsc : forall a, scope_right env a (sc a).
  Hypothesis Hfaith : faithful env.
  Variables (model : Z) (flags : Z -> list str) (off : list Z) (a : Z) (feats : list (str * feature)) (fr : freg).
  Hypothesis Hinit : init_reg (me_ci env) model flags off a feats = Ok fr.
  Hypothesis Hnd : NoDup (map fst feats).
  Variables (fname : str) (fe : feature).
  Hypothesis Hin : In (fname, fe) feats.
  Hypothesis Hok : feature_ok fe.
  Hypothesis Hios : fe_ios fe = Some (sc a).

  Lemma init_fields : fr_addr fr = a /\ fr_feats fr = feats.
  Proof.
    pose proof Hinit as H. unfold init_reg in H. destruct (existsb _ _); [|discriminate]. injection H as <-. split; reflexivity.
  Qed.
  Lemma init_get : dget str_eqb (fr_feats fr) fname = Some fe.
  Proof.
    rewrite (proj2 init_fields). clear - Hnd Hin. induction feats as [|[n f] t IH]; [destruct Hin|]. cbn [dget].
    destruct (str_eqb fname n) eqn:E.
    - apply str_eqb_eq in E. subst n. destruct Hin as [E|Hin']; [congruence|]. cbn [map fst] in Hnd. inversion Hnd as [|? ? Hn _]; subst.
      elim Hn. apply in_map_iff. exists (fname, fe). auto.
    - destruct Hin as [E'|Hin']; [|apply IH; [cbn [map fst] in Hnd; now inversion Hnd|exact Hin']].
      injection E' as -> ->. rewrite (proj2 (str_eqb_eq fname fname) eq_refl) in E. discriminate.
  Qed.
  Lemma init_get' : get_feature fr fname = Ok fe.
  Proof. unfold get_feature. now rewrite init_get. Qed.

  Lemma supported_has cpus : (forall c, In c (targets env cpus) -> In c (ci_online (me_ci env)) /\ cpu_supports model flags off fe c) ->
    forall c, In c (targets env cpus) -> In c (ci_online (me_ci env)) /\ has fr fname c = true.
  Proof.
    intros H. apply (validate_ok env fr fname cpus).
    apply (validate_iff env model flags off a feats fr Hinit Hnd fname cpus). exists fe. split; [exact Hin|].
    split; intros c Hc; apply H, Hc.
  Qed.

  Lemma read_succeeds_l ops hw faults cpus : disciplined env sc ops ->
    let s := mrun env ops (msr_init hw faults) in
    io_works s ->
    (forall c, In c (targets env cpus) -> In c (ci_online (me_ci env)) /\ cpu_supports model flags off fe c) ->
    (forall c, In c (targets env cpus) -> exists code x, is_field (fe_bits fe) (view env s a (me_dom env a c)) code /\ named_as fe code x) ->
    exists r s', read_feature env fr fname cpus s = (Ok r, s').
  Proof.
    intros Hd s W Ht Hn. destruct (reached env sc Hwf Hsc ops hw faults Hfaith Hd) as (rep & H & _). fold s in H.
    destruct init_fields as (Ea & _).
    assert (L : live (read_feature env fr fname cpus) s).
    { apply (read_feature_live env rep sc Hwf Hsc fr fname fe init_get' Hok); [now rewrite Ea|exact H|exact W|now apply supported_has|now rewrite Ea]. }
    unfold live, post in L. destruct (read_feature env fr fname cpus s) as [[r|e] s']; [eauto|destruct L].
  Qed.

  Lemma write_succeeds_l ops hw faults cpus v code : disciplined_for env sc ops a cpus ->
    let s := mrun env ops (msr_init hw faults) in
    io_works s -> (forall d, 0 <= view env s a d < 2 ^ 64) -> fe_writable fe = true ->
    means fe v code -> fits (fe_bits fe) code ->
    (forall c, In c (targets env cpus) -> In c (ci_online (me_ci env)) /\ cpu_supports model flags off fe c) ->
    exists s', write_feature env fr fname v cpus s = (Ok tt, s').
  Proof.
    intros Hd s W Hreg Hw Hm Hf Ht. destruct (reached_for env sc Hwf Hsc Hfaith ops hw faults a cpus Hd) as (rep & H & Hr). fold s in H, Hr.
    destruct init_fields as (Ea & _).
    assert (L : live (write_feature env fr fname v cpus) s).
    { apply (write_feature_live env rep sc Hwf Hsc Hfaith fr fname fe init_get' Hok); try (rewrite Ea); eauto. now apply supported_has. }
    unfold live, post in L. destruct (write_feature env fr fname v cpus s) as [[[]|e] s']; [eauto|destruct L].
  Qed.
End Succeeds.
