(** Lemmas about EPP and EPB: histories in which the sysfs files are the only way to write. *)
From Coq Require Import Ascii String QArith ZifyBool.
From Verif Require Import Base L_Base L_Monad M_CPUInfo S_CPUInfo L_CPUInfo L_CPUInfo2
  M_Text S_Text M_MSR S_MSR L_Bits L_MSR L_MSR2 L_MSR3 L_MSR4 L_MSR5 M_FMSR S_FMSR L_Text L_FMSR L_FMSR2 L_FMSR3 L_FMSR4 X_FMSR
  L_Sysfs M_HWP S_HWP L_Quiet L_OpTarget L_HWP L_HWP2 L_HWP3 L_HWP4 L_HWP5 M_Human S_Human L_Human L_Uncore3 L_Pure M_EP S_EP L_EP L_EP2.
Open Scope Z_scope.

Section EP.
  Variable env : menv.
  Notation dom := (me_dom env).
  Notation ci := (me_ci env).
  Notation online := (ci_online (me_ci env)).
  Variable kind : epkind.
  Variable x : hwp.
  Variable epb : res freg.
  Variable kn : kern.
  Variable shown : Z -> str.
  Variable knows : Z -> str -> Z.
  Hypothesis Hk : kernel_ok env kind kn shown knows.
  Variable names : list str.
  Notation ADDR := (ep_addr kind).
  Hypothesis Hdom : forall c c', In c online -> In c' online -> dom ADDR c = dom ADDR c' -> c = c'.
  Hypothesis Huni : forall c c' v, In c online -> In c' online -> knows c v = knows c' v.
  Notation hw s := (ms_hw (es_m s)).
  Notation value := (ep_value env kind).
  Notation run := (erun env kind kn x epb names).

  Definition entry_ok (h : Z -> Z -> Z) (c : Z) (o : option epval) : Prop :=
    match o with Some v => exists n, value h c n /\ v = reading kind shown m_sysfs n | None => kn_exists kn c = false end.
  (** What is remembered is true. *)
  Record Known (s : epstate) : Prop := {
    kn_val : forall c o, In c online -> me_cache env = true -> dget Z.eqb (es_cache s) c = Some o -> entry_ok (hw s) c o;
    kn_alias : forall v t, kind = EPP -> dget str_eqb (es_alias s) v = Some t -> forall c, In c online -> t = shown (knows c v);
    kn_pol : forall v n, dget str_eqb (es_pol s) v = Some n -> forall c, In c online -> n = knows c v }.

  Lemma Known_init h faults : Known (ep_init h faults).
  Proof. split; cbn; discriminate. Qed.

  Lemma Known_ext s s' : (forall a d, hw s' a d = hw s a d) -> es_cache s' = es_cache s -> es_alias s' = es_alias s -> es_pol s' = es_pol s ->
    Known s -> Known s'.
  Proof.
    intros E Ec Ea Ep [K1 K2 K3]. split; rewrite ?Ec, ?Ea, ?Ep; auto. intros c o Hc Hm Hg. specialize (K1 c o Hc Hm Hg).
    destruct o as [v|]; cbn [entry_ok] in *; [|exact K1]. destruct K1 as (n & V & Ev). exists n. split; [|exact Ev].
    eapply value_ext; [|exact V]. apply E.
  Qed.

  Lemma Known_add c v s : In c online -> Known s -> entry_ok (hw s) c v ->
    Known (snd (ep_cache_add env c v s)) /\ es_m (snd (ep_cache_add env c v s)) = es_m s.
  Proof.
    intros Hc K He. split; [|apply cache_add_m]. unfold ep_cache_add. destruct (me_cache env) eqn:Em; [|exact K]. destruct K as [K1 K2 K3].
    unfold mbind, lift, modify. destruct (get_cpu_siblings ci c SCPU); cbn [snd]; split; cbn [es_cache es_alias es_pol es_m es_set_cache]; auto.
    intros c' o Hc' Hm Hg. destruct (Z.eq_dec c' c) as [->|Hn].
    - rewrite (dget_dset_same _ Zeqb_spec) in Hg. congruence.
    - rewrite (dget_dset_other _ Zeqb_spec) in Hg by exact Hn. auto.
  Qed.

  Lemma Known_remove c s : Known s ->
    let s' := snd (ep_cache_remove env c s) in
    Known s' /\ es_m s' = es_m s /\ (fst (ep_cache_remove env c s) = Ok tt -> me_cache env = true -> dget Z.eqb (es_cache s') c = None).
  Proof.
    intros K. cbn zeta. split; [|split; [apply cache_remove_m|]].
    - unfold ep_cache_remove. destruct (me_cache env) eqn:Em; [|exact K]. destruct K as [K1 K2 K3].
      unfold mbind, lift, modify. destruct (get_cpu_siblings ci c SCPU); cbn [snd]; split; cbn [es_cache es_alias es_pol es_m es_set_cache]; auto.
      intros c' o Hc' Hm Hg. destruct (Z.eq_dec c' c) as [->|Hn].
      + rewrite dget_ddel_same in Hg. discriminate.
      + rewrite dget_ddel_other in Hg by (exact Zeqb_spec || exact Hn). auto.
    - unfold ep_cache_remove. destruct (me_cache env) eqn:Em; [|discriminate].
      unfold mbind, lift, modify. destruct (get_cpu_siblings ci c SCPU); cbn [fst snd]; [|discriminate]. intros _ _.
      cbn [es_cache es_set_cache]. apply dget_ddel_same.
  Qed.

  Lemma Known_store c val h' s : In c online -> Known s -> (me_cache env = true -> dget Z.eqb (es_cache s) c = None) ->
    kn_store kn (hw s) c val = Some h' -> Known (es_set_m (set_hw h' (es_m s)) s).
  Proof.
    intros Hc [K1 K2 K3] Hn E. destruct (stored env kind x kn shown knows Hk _ _ _ _ E) as (_ & _ & Ho).
    split; cbn [es_cache es_alias es_pol es_m es_set_m set_hw ms_hw]; auto. intros c' o Hc' Hm Hg.
    destruct (Z.eq_dec c' c) as [->|Hne]; [rewrite (Hn Hm) in Hg; discriminate|]. specialize (K1 c' o Hc' Hm Hg).
    destruct o as [v|]; cbn [entry_ok] in *; [|exact K1]. destruct K1 as (n & V & Ev). exists n. split; [|exact Ev].
    eapply value_ext; [|exact V]. apply Ho. right. intros Ed. apply Hne. now apply Hdom.
  Qed.

  Lemma Known_alias val t c s : In c online -> Known s -> t = shown (knows c val) -> Known (es_set_alias (dset str_eqb (es_alias s) val t) s).
  Proof.
    intros Hc [K1 K2 K3] ->. split; cbn [es_cache es_alias es_pol es_m es_set_alias]; auto. intros v u Ek Hg c' Hc'.
    destruct (list_eq_dec ascii_dec v val) as [->|Hn].
    - rewrite (dget_dset_same _ str_eqb_spec) in Hg. injection Hg as <-. f_equal. now apply Huni.
    - rewrite (dget_dset_other _ str_eqb_spec) in Hg by exact Hn. eauto.
  Qed.

  Lemma Known_pol val n c s : In c online -> Known s -> n = knows c val -> Known (es_set_pol (dset str_eqb (es_pol s) val n) s).
  Proof.
    intros Hc [K1 K2 K3] ->. split; cbn [es_cache es_alias es_pol es_m es_set_pol]; auto. intros v u Hg c' Hc'.
    destruct (list_eq_dec ascii_dec v val) as [->|Hn].
    - rewrite (dget_dset_same _ str_eqb_spec) in Hg. injection Hg as <-. now apply Huni.
    - rewrite (dget_dset_other _ str_eqb_spec) in Hg by exact Hn. eauto.
  Qed.

  Lemma read_known c s : In c online -> Known s ->
    post (ep_read_sysfs env kind kn c) s
      (fun r s' => Known s' /\ es_m s' = es_m s /\ forall v, r = Some v -> exists n, value (hw s) c n /\ v = reading kind shown m_sysfs n)
      (fun _ s' => Known s' /\ es_m s' = es_m s).
  Proof.
    intros Hc K. unfold ep_read_sysfs. apply post_bind, post_gets.
    assert (G : forall v s0, Known s0 -> es_m s0 = es_m s -> entry_ok (hw s) c v ->
      post (ep_cache_add env c v ;; ret v) s0
      (fun r s' => Known s' /\ es_m s' = es_m s /\ forall v, r = Some v -> exists n, value (hw s) c n /\ v = reading kind shown m_sysfs n)
      (fun _ s' => Known s' /\ es_m s' = es_m s)).
    { intros v s0 K0 E0 He. assert (He' : entry_ok (hw s0) c v) by now rewrite E0. destruct (Known_add c v s0 Hc K0 He') as (K1 & E1).
      unfold post, mbind. destruct (ep_cache_add env c v s0) as [[r|e] s1]; cbn [snd] in *; unfold ret; [|split; [exact K1|congruence]].
      split; [exact K1|]. split; [congruence|]. intros w ->. exact He. }
    destruct (if me_cache env then dget Z.eqb (es_cache s) c else None) as [o|] eqn:Eo.
    - destruct (me_cache env) eqn:Em; [|discriminate]. apply post_ret. split; [exact K|]. split; [reflexivity|].
      intros v ->. exact (kn_val _ K c _ Hc Em Eo).
    - apply post_bind. destruct (kn_exists kn c) eqn:Ee.
      + apply post_bind. unfold ep_show. apply post_bind, post_gets. destruct (kn_show kn (hw s) c) as [t|] eqn:Et; [|apply post_throw; auto].
        apply post_ret. destruct (shown_value env kind kn shown knows Hk _ _ _ Et) as (n & Hv & _ & Hp). apply post_bind, post_lift; [|auto].
        rewrite Hp. intros w [= <-]. apply post_ret. apply G; [exact K|reflexivity|]. exists n. auto.
      + apply post_ret. apply G; [exact K|reflexivity|]. exact Ee.
  Qed.

  (** Only the registers of [cpus] may have changed. *)
  Definition but (cpus : list Z) (h h' : Z -> Z -> Z) : Prop :=
    forall a d, a <> ADDR \/ (forall c, In c cpus -> d <> dom ADDR c) -> h' a d = h a d.
  Lemma but_refl l h : but l h h.
  Proof. intros a d _. reflexivity. Qed.

  Variable val : str.
  Hypothesis Hplain : is_int val = true -> exists n, 0 <= n /\ val = dec n.

  Lemma write_known c s : In c online -> Known s ->
    post (ep_write_sysfs env kind kn val c) s
      (fun _ s' => Known s' /\ but [c] (hw s) (hw s') /\ value (hw s') c (knows c val))
      (fun _ s' => Known s' /\ but [c] (hw s) (hw s')).
  Proof.
    intros Hc K.
    assert (Fin : forall v s0, Known s0 -> but [c] (hw s) (hw s0) -> value (hw s0) c (knows c val) -> entry_ok (hw s0) c v ->
      post (ep_cache_add env c v) s0
      (fun _ s' => Known s' /\ but [c] (hw s) (hw s') /\ value (hw s') c (knows c val)) (fun _ s' => Known s' /\ but [c] (hw s) (hw s'))).
    { intros v s0 K0 B0 V0 He. destruct (Known_add c v s0 Hc K0 He) as (K1 & E1). unfold post.
      destruct (ep_cache_add env c v s0) as [[r|e] s1]; cbn [snd] in *; rewrite E1; auto. }
    assert (St : forall s0 h', Known s0 -> es_m s0 = es_m s -> (me_cache env = true -> dget Z.eqb (es_cache s0) c = None) ->
      kn_store kn (hw s0) c val = Some h' ->
      let s1 := es_set_m (set_hw h' (es_m s0)) s0 in Known s1 /\ but [c] (hw s) (hw s1) /\ value (hw s1) c (knows c val)).
    { intros s0 h' K0 E0 Hn Es. cbn zeta. split; [now apply (Known_store c val)|]. cbn [es_m es_set_m set_hw ms_hw].
      destruct (stored env kind x kn shown knows Hk _ _ _ _ Es) as (V & _ & Ho). split; [|exact V].
      intros a d D. rewrite Ho; [now rewrite E0|]. destruct D as [D|D]; [now left|]. right. apply D. now left. }
    assert (D : kind = EPP /\ ep_write_sysfs env kind kn val c = epp_write_sysfs env kn val c \/ kind = EPB /\ ep_write_sysfs env kind kn val c = epb_write_sysfs env kind kn val c)
      by (clear; unfold ep_write_sysfs; destruct kind; auto).
    destruct (Known_remove c s K) as (K0 & E0 & N0). cbn zeta in *.
    destruct D as [(Ek & ->) | (Ek & ->)]; unfold epp_write_sysfs, epb_write_sysfs; apply post_bind; unfold post at 1;
      destruct (ep_cache_remove env c s) as [[[]|e] s0]; cbn [fst snd] in *; try (split; [exact K0|rewrite E0; apply but_refl]);
      specialize (N0 eq_refl); assert (R0 : Known s0 /\ but [c] (hw s) (hw s0)) by (split; [exact K0|rewrite E0; apply but_refl]).
    - destruct (negb (kn_exists kn c)); [apply post_throw; exact R0|]. apply post_bind, post_gets, post_bind.
      destruct (kn_store kn (hw s0) c val) as [h'|] eqn:Es.
      + destruct (St s0 h' K0 E0 N0 Es) as (K1 & B1 & V1). cbn zeta in *. apply post_bind, post_modify, post_bind, post_gets.
        set (s1 := es_set_m (set_hw h' (es_m s0)) s0) in *. clearbody s1.
        assert (Hr : reading kind shown m_sysfs (knows c val) = EText (shown (knows c val))) by now rewrite Ek.
        destruct (dget str_eqb (es_alias s1) val) as [v1|] eqn:Ea.
        * apply post_ret. apply Fin; auto. exists (knows c val). split; [exact V1|]. rewrite Hr. f_equal. exact (kn_alias _ K1 _ _ Ek Ea c Hc).
        * apply post_bind. unfold ep_show. apply post_bind, post_gets. destruct (kn_show kn (hw s1) c) as [t|] eqn:Et; [|apply post_throw; auto].
          apply post_ret. destruct (shown_value env kind kn shown knows Hk _ _ _ Et) as (n & Hv & Hs & _).
          assert (n = knows c val) as -> by (eapply value_fun; eassumption). apply post_bind, post_modify, post_ret. rewrite Hs.
          apply Fin; [now apply (Known_alias val _ c)|exact B1|exact V1|]. exists (knows c val). split; [exact V1|]. now rewrite Hr.
      + apply post_bind. unfold ep_show. apply post_bind, post_gets. destruct (kn_show kn (hw s0) c) as [t|] eqn:Et; [|apply post_throw; exact R0].
        apply post_ret. destruct (str_eqb val (strip t)) eqn:Ev; cbn [negb]; [|apply post_throw; exact R0].
        apply str_eqb_eq in Ev. destruct (shown_value env kind kn shown knows Hk _ _ _ Et) as (n & Hv & Hs & _). rewrite Hs in Ev |- *.
        assert (Hn : knows c val = n) by (rewrite Ev; apply (ko_shown _ _ _ _ _ Hk); eapply value_nonneg; exact Hv).
        apply post_bind, post_modify, post_ret. apply Fin.
        * apply (Known_alias val _ c); [exact Hc|exact K0|congruence].
        * apply R0.
        * cbn [es_m es_set_alias]. now rewrite Hn.
        * exists n. split; [exact Hv|]. now rewrite Ek.
    - apply post_bind. destruct (negb (kn_exists kn c)); [apply post_throw; exact R0|]. apply post_bind, post_gets.
      destruct (kn_store kn (hw s0) c val) as [h'|] eqn:Es; [|apply post_throw; exact R0].
      destruct (St s0 h' K0 E0 N0 Es) as (K1 & B1 & V1). cbn zeta in *. apply post_modify.
      set (s1 := es_set_m (set_hw h' (es_m s0)) s0) in *. clearbody s1.
      assert (Hr : forall n, reading kind shown m_sysfs n = ENum n) by (intros; now rewrite Ek).
      destruct (is_int val) eqn:Ei; cbn [negb].
      + destruct (Hplain eq_refl) as (n & Hp & ->). rewrite (py_int_dec n Hp). apply Fin; auto. exists n. split; [|now rewrite Hr].
        rewrite (ko_num _ _ _ _ _ Hk c n Hp) in V1. exact V1.
      + apply post_bind, post_gets, post_bind.
        assert (Lk : post (let! v := ep_read_sysfs env kind kn c in
                match v with Some (ENum n) => modify (fun s0 => es_set_pol (dset str_eqb (es_pol s0) val n) s0) ;; ret n | _ => throw EValue end) s1
             (fun n s' => Known s' /\ es_m s' = es_m s1 /\ n = knows c val) (fun _ s' => Known s' /\ es_m s' = es_m s1)).
        { apply post_bind. eapply post_conseq; [apply (read_known c s1 Hc K1)| |auto]. cbn beta. intros [[t|n]|] s2 (K2 & E2 & V2).
          - apply post_throw. auto.
          - destruct (V2 _ eq_refl) as (n' & V' & E'). rewrite Hr in E'. injection E' as ->. assert (n' = knows c val) as -> by (eapply value_fun; eassumption).
            apply post_bind, post_modify, post_ret. split; [now apply (Known_pol val _ c)|]. split; [exact E2|reflexivity].
          - apply post_throw. auto. }
        assert (Fin2 : forall n s2, Known s2 /\ es_m s2 = es_m s1 /\ n = knows c val -> post (ep_cache_add env c (Some (ENum n))) s2
           (fun _ s' => Known s' /\ but [c] (hw s) (hw s') /\ value (hw s') c (knows c val)) (fun _ s' => Known s' /\ but [c] (hw s) (hw s'))).
        { intros n s2 (K2 & E2 & ->). apply Fin; rewrite ?E2; auto. exists (knows c val). split; [exact V1|]. now rewrite Hr. }
        assert (Bad : forall (e : exc) s2, Known s2 /\ es_m s2 = es_m s1 -> Known s2 /\ but [c] (hw s) (hw s2)).
        { intros _ s2 (K2 & E2). rewrite E2. auto. }
        destruct (dget str_eqb (es_pol s1) val) as [[|p|p]|] eqn:Ep.
        * eapply post_conseq; [exact Lk|exact Fin2|exact Bad].
        * apply post_ret. apply Fin2. split; [exact K1|]. split; [reflexivity|]. exact (kn_pol _ K1 _ _ Ep c Hc).
        * apply post_ret. apply Fin2. split; [exact K1|]. split; [reflexivity|]. exact (kn_pol _ K1 _ _ Ep c Hc).
        * eapply post_conseq; [exact Lk|exact Fin2|exact Bad].
  Qed.
End EP.
