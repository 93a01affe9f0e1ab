(** When I/O works, accesses to MSR features succeed. *)
From Coq Require Import Ascii String ZifyBool.
From Verif Require Import Base L_Base L_Monad M_CPUInfo S_CPUInfo L_CPUInfo L_CPUInfo2
  M_Text M_MSR S_MSR L_Bits L_MSR L_MSR2 L_MSR3 L_MSR4 L_MSR5 M_FMSR S_FMSR L_Text L_FMSR L_FMSR2 L_FMSR3 L_FMSR4 X_FMSR
  M_HWP S_HWP L_HWP.

Section Live.
  Variable env : menv.
  Notation dom := (me_dom env).
  Notation ci := (me_ci env).
  Notation online := (ci_online (me_ci env)).
  Variable rep : Z -> Z -> Z.
  Variable sc : Z -> scope.
  Notation Coh := (Coh env rep sc).
  Notation view := (view env).
  Hypothesis Hwf : wf_ci ci.
  Hypothesis Hsc : forall a, scope_right env a (sc a).
  Hypothesis Hfaith : faithful env.

  Lemma validate_has fr n fe cpus : get_feature fr n = Ok fe ->
    (forall c, In c (targets env cpus) -> In c online /\ has fr n c = true) ->
    validate_feature_supported env fr n cpus = Ok tt.
  Proof.
    intros Hg Ht. unfold validate_feature_supported. rewrite Hg. cbn [rbind].
    destruct (proj2 (normalize_ok_iff env cpus) (fun c Hc => proj1 (Ht c Hc))) as (l & El). rewrite El. cbn [rbind].
    pose proof (normalized_targets env _ _ El) as Hl.
    rewrite (rmap_all l _ (fun _ => true)).
    - cbn [rbind]. replace (forallb (fun b => b) (map (fun _ : Z => true) l)) with true; [reflexivity|].
      symmetry. apply forallb_forall. intros b Hb. apply in_map_iff in Hb as (? & <- & _). reflexivity.
    - intros c Hc. apply Hl in Hc. destruct (Ht c Hc) as (_ & Hh). unfold has in Hh.
      destruct (dget str_eqb (fr_supp fr) n) as [d|]; [|discriminate]. destruct (dget Z.eqb d c) as [b|]; congruence.
  Qed.

  Variables (fr : freg) (n : str) (fe : feature).
  Hypothesis Hget : get_feature fr n = Ok fe.
  Hypothesis Hok : feature_ok fe.
  Hypothesis Hios : fe_ios fe = Some (sc (fr_addr fr)).
  Notation a := (fr_addr fr).

  Lemma read_feature_live cpus s : Coh s -> io_works s ->
    (forall c, In c (targets env cpus) -> In c online /\ has fr n c = true) ->
    (forall c, In c (targets env cpus) -> exists code w, is_field (fe_bits fe) (view s a (dom a c)) code /\ named_as fe code w) ->
    live (read_feature env fr n cpus) s.
  Proof.
    intros H W Ht Hn. unfold live, post, read_feature.
    rewrite (lbind_ok _ _ s tt (validate_has fr n fe cpus Hget Ht)), (lbind_ok _ _ s fe Hget). rewrite Hios. cbn [read_bits_ios].
    unfold mbind. rewrite (read_bits_eq env a (fe_bits fe) cpus (sc a) s (fo_field fe Hok)).
    destruct (proj2 (normalize_ok_iff env cpus) (fun c Hc => proj1 (Ht c Hc))) as (l & El).
    pose proof (normalized_targets env _ _ El) as Hl.
    assert (L : live (read env a cpus (sc a)) s).
    { unfold read. apply post_bind, post_lift; [|intros e E; congruence]. intros l' El'.
      apply (read_cpus_live env sc Hwf Hsc a l' s); [|exact W]. exact (normalized_online env cpus l' El'). }
    pose proof (read_post env rep sc Hwf Hsc a cpus s H) as P. unfold live, post in *.
    destruct (read env a cpus (sc a) s) as [[r|e] s1]; [|destruct L]. cbv beta iota. destruct P as ((l' & El' & ->) & C & H1).
    rewrite El in El'. injection El' as <-. unfold lift. rewrite map_map.
    cbn [fst snd].
    match goal with |- context [rmap ?l0 ?f] => assert (G : exists ys, rmap l0 f = Ok ys) end.
    2:{ destruct G as (ys & ->). exact L. }
    assert (Hn' : forall c, In c l -> exists code w, is_field (fe_bits fe) (view s a (dom a c)) code /\ named_as fe code w)
      by (intros c Hc; apply Hn, Hl, Hc).
    clear - Hn' Hok. induction l as [|c t IH]; cbn [map rmap]; [eauto|].
    destruct (Hn' c (or_introl eq_refl)) as (code & w & Hf & Hw). cbn [fst snd].
    assert (Ef : field_val (fe_bits fe) (view s a (dom a c)) = code).
    { eapply is_field_functional; [apply fo_field, Hok|apply field_val_spec, fo_field, Hok|exact Hf]. }
    rewrite Ef, (proj2 (decode_spec fe Hok code w) Hw). cbn [rbind].
    destruct IH as (ys & ->); [intros c' Hc'; apply Hn'; now right|]. cbn [rbind]. eauto.
  Qed.

  Lemma read_num_live c s : Inv env rep sc s -> io_works s -> In c online -> has fr n c = true ->
    (exists code v, is_field (fe_bits fe) (view s a (dom a c)) code /\ named_as fe code (VInt v)) ->
    live (read_num env fr n c) s.
  Proof.
    intros HI W Hc Hh (code & v & Hf & Hw).
    assert (L : live (read_feature env fr n (Some [c])) s).
    { apply read_feature_live; [apply HI|exact W| |]; intros c' [<-|[]]; eauto. }
    pose proof (read_feature_post env rep sc Hwf Hsc fr n fe Hget Hok Hios (Some [c]) s (proj1 HI)) as P.
    unfold live, post, read_num, mbind in *. destruct (read_feature env fr n (Some [c]) s) as [[r|e] s1]; [|destruct L].
    destruct P as (C & H1 & l & El & F). destruct (normalize_one env c l El) as (-> & _).
    destruct r as [|[c' u] r']; [inversion F|].
    assert (Hd : c' = c /\ named_as fe (field_val (fe_bits fe) (view s a (dom a c))) u) by (inversion F; assumption).
    destruct Hd as (_ & Hn).
    assert (Ef : field_val (fe_bits fe) (view s a (dom a c)) = code).
    { eapply is_field_functional; [apply fo_field, Hok|apply field_val_spec, fo_field, Hok|exact Hf]. }
    rewrite Ef in Hn. apply (decode_spec fe Hok) in Hn. apply (decode_spec fe Hok) in Hw. rewrite Hw in Hn. injection Hn as <-.
    exact L.
  Qed.

  Lemma enabled_live cpus s : Coh s -> io_works s -> fe_type fe = FBool ->
    (forall c, In c (targets env cpus) -> In c online /\ has fr n c = true) ->
    (forall c, In c (targets env cpus) -> exists code w, is_field (fe_bits fe) (view s a (dom a c)) code /\ named_as fe code w) ->
    live (is_feature_enabled env fr n cpus) s.
  Proof.
    intros H W Hb Ht Hn. unfold live, post, is_feature_enabled.
    rewrite (lbind_ok _ _ s tt (validate_has fr n fe cpus Hget Ht)), (lbind_ok _ _ s fe Hget). rewrite Hb. cbn [ftype_eqb negb].
    pose proof (read_feature_live cpus s H W Ht Hn) as L. unfold live, post, mbind in *.
    destruct (read_feature env fr n cpus s) as [[r|e] s1]; [exact L|destruct L].
  Qed.

  Lemma write_feature_live cpus v s : Coh s -> io_works s -> (ms_intr s = true -> first_is env rep a cpus) ->
    fe_writable fe = true -> (exists code, means fe v code /\ fits (fe_bits fe) code) ->
    (forall d, 0 <= view s a d < 2 ^ 64) ->
    (forall c, In c (targets env cpus) -> In c online /\ has fr n c = true) ->
    live (write_feature env fr n v cpus) s.
  Proof.
    intros H W Hr Hw (code & Hm & Hfit) Hreg Ht. unfold live, post, write_feature.
    rewrite (lbind_ok _ _ s tt (validate_has fr n fe cpus Hget Ht)), (lbind_ok _ _ s fe Hget).
    assert (Hnorm : exists w, normalize_feature_value fe v = Ok w /\ (w = VInt code \/ exists b, w = VBool b /\ code = Z.b2z b)).
    { destruct (fe_vals fe) as [vals|] eqn:Ev.
      - pose proof (normalize_spec fe Hok v vals Ev) as N. destruct (normalize_feature_value fe v) as [w|e]; [|now elim (N code)].
        destruct N as (code' & -> & Hm'). exists (VInt code'). split; [reflexivity|]. left. f_equal. eapply means_unique; eauto.
      - unfold normalize_feature_value, means in *. rewrite Ev in *. exists v. split; [reflexivity|]. exact Hm. }
    destruct Hnorm as (w & Ew & Hc). rewrite (lbind_ok _ _ s w Ew), Hw. cbn [negb]. rewrite Hios.
    pose proof (proj2 (normalize_ok_iff env cpus) (fun c Hc => proj1 (Ht c Hc))) as El.
    pose proof (write_bits_live env rep sc Hwf Hsc Hfaith a (fe_bits fe) (Some code) cpus false s H Hr (fo_field fe Hok) Hfit W Hreg El) as L.
    unfold live, post in L. destruct Hc as [->|(b & -> & ->)]; exact L.
  Qed.
End Live.
