(** Lemmas about EPP and EPB: histories in which the MSR object always knows the registers. *)
From Coq Require Import Ascii String QArith ZifyBool.
From Verif Require Import Base L_Base L_Monad M_CPUInfo S_CPUInfo L_CPUInfo L_CPUInfo2
  M_Text S_Text M_MSR S_MSR L_Bits L_MSR L_MSR2 L_MSR3 L_MSR4 L_MSR5 M_FMSR S_FMSR L_Text L_FMSR L_FMSR2 L_FMSR3 L_FMSR4 X_FMSR
  M_HWP S_HWP L_Quiet L_OpTarget L_HWP L_HWP2 L_HWP3 L_HWP4 L_HWP5 M_Human S_Human L_Human L_Uncore3 M_EP S_EP L_EP.
Open Scope Z_scope.

Lemma sysfs_msr : str_eqb m_msr m_sysfs = false.
Proof. reflexivity. Qed.

Lemma mname_cases mnames ms m : ep_normalize_mnames mnames = Ok ms -> In m ms ->
  (m = m_sysfs \/ m = m_msr) /\ match mnames with None => True | Some l => In m l end.
Proof.
  unfold ep_normalize_mnames. destruct mnames as [l|].
  - destruct (forallb _ l) eqn:F; [|discriminate]. intros [= <-] Hin. rewrite !(list_dedup_In _ str_eqb_spec) in Hin.
    split; [|exact Hin]. rewrite forallb_forall in F. specialize (F m Hin). unfold ep_mnames in F. cbn [existsb] in F.
    destruct (str_eqb m m_sysfs) eqn:E1; [apply str_eqb_eq in E1; now left|]. destruct (str_eqb m m_msr) eqn:E2; [apply str_eqb_eq in E2; now right|discriminate].
  - intros [= <-] Hin. split; [|exact I]. destruct Hin as [<-|[<-|[]]]; auto.
Qed.

Section EP.
  Variable env : menv.
  Notation dom := (me_dom env).
  Notation ci := (me_ci env).
  Notation online := (ci_online (me_ci env)).
  Variable sc : Z -> scope.
  Hypothesis Hwf : wf_ci ci.
  Hypothesis Hsc : forall a, scope_right env a (sc a).
  Hypothesis Hfaith : faithful env.
  Variable kind : epkind.
  Variable x : hwp.
  Variable epb : res freg.
  Hypothesis Hok : ep_ok env sc x epb.
  Variable kn : kern.
  Variable shown : Z -> str.
  Variable knows : Z -> str -> Z.
  Hypothesis Hk : kernel_ok env kind kn shown knows.
  Variable names : list str.
  Notation ADDR := (ep_addr kind).
  Notation calm := (calm env sc).
  Notation hw_but := (hw_but env kind).
  Notation hw s := (ms_hw (es_m s)).
  Notation value := (ep_value env kind).
  Notation own := (own_value env kind x).

  Lemma field_ok_bits : field_ok (ep_bits kind).
  Proof. clear. destruct kind; unfold field_ok; cbn; lia. Qed.

  Lemma value_nonneg h c n : value h c n -> 0 <= n.
  Proof. intros ((H & _) & _). exact H. Qed.

  Lemma value_fun h c n n' : value h c n -> value h c n' -> n = n'.
  Proof. apply is_field_functional, field_ok_bits. Qed.

  Lemma value_ext h h' c c' n : h' ADDR (dom ADDR c') = h ADDR (dom ADDR c) -> value h c n -> value h' c' n.
  Proof. unfold ep_value. now intros ->. Qed.

  Lemma own_ext h h' c : h' ADDR (dom ADDR c) = h ADDR (dom ADDR c) -> own h c -> own h' c.
  Proof.
    unfold own_value. intros E H Ek. rewrite <- (H Ek). apply pkg_decides_ext. rewrite Ek in E. exact E.
  Qed.

  Lemma shown_value h c t : kn_show kn h c = Some t ->
    exists n, value h c n /\ strip t = shown n /\ ep_parse kind t = Ok (reading kind shown m_sysfs n).
  Proof.
    intros E. destruct (ko_show _ _ _ _ _ Hk h c t E) as (n & Hv & Hs). exists n. split; [exact Hv|]. split; [exact Hs|].
    pose proof (value_nonneg _ _ _ Hv). unfold ep_parse, reading. destruct kind.
    - now rewrite Hs.
    - rewrite Hs, (ko_epb _ _ _ _ _ Hk eq_refl n H), (py_int_dec n H). reflexivity.
  Qed.

  Lemma stored h c v h' : kn_store kn h c v = Some h' ->
    value h' c (knows c v) /\ (own h c -> own h' c) /\ (forall a d, a <> ADDR \/ d <> dom ADDR c -> h' a d = h a d).
  Proof.
    intros E. destruct (ko_store _ _ _ _ _ Hk h c v h' E) as (Hf & Hs & Ho). split; [|split; [|exact Ho]].
    - eapply is_set_field; eauto. apply field_ok_bits.
    - unfold own_value, pkg_decides. intros H Ek. specialize (H Ek). rewrite <- H. rewrite Ek in Hs. cbn [ep_addr ep_bits] in Hs.
      destruct (Hs pkg_bit ltac:(unfold pkg_bit; lia)) as (_ & E1). rewrite E1 by (unfold in_field, pkg_bit; cbn [fst snd]; lia).
      destruct (Hs (valid_bit HEpp) ltac:(cbn [valid_bit]; lia)) as (_ & E2). rewrite E2 by (unfold in_field; cbn [fst snd valid_bit]; lia). reflexivity.
  Qed.

  (** ** Reading *)
  Definition good_value (h : Z -> Z -> Z) (m : str) (c : Z) (v : epval) : Prop :=
    (m = m_msr -> own h c -> exists n, value h c n /\ v = ENum n) /\
    (m = m_sysfs -> me_cache env = false -> exists n, value h c n /\ v = reading kind shown m_sysfs n).

  Lemma good_same h h' m c v : (forall a d, h' a d = h a d) -> good_value h m c v -> good_value h' m c v.
  Proof.
    intros E (G1 & G2). split.
    - intros Em Ho. destruct (G1 Em) as (n & Hv & ->); [eapply own_ext; [|exact Ho]; symmetry; apply E|].
      exists n. split; [|reflexivity]. eapply value_ext; [|exact Hv]. apply E.
    - intros Em Ec. destruct (G2 Em Ec) as (n & Hv & ->). exists n. split; [|reflexivity]. eapply value_ext; [|exact Hv]. apply E.
  Qed.

  Lemma cache_add_m c v s : es_m (snd (ep_cache_add env c v s)) = es_m s.
  Proof. unfold ep_cache_add. destruct (me_cache env); [|reflexivity]. unfold mbind, lift. now destruct (get_cpu_siblings ci c SCPU). Qed.
  Lemma cache_remove_m c s : es_m (snd (ep_cache_remove env c s)) = es_m s.
  Proof. unfold ep_cache_remove. destruct (me_cache env); [|reflexivity]. unfold mbind, lift. now destruct (get_cpu_siblings ci c SCPU). Qed.

  Lemma read_sysfs_post c s :
    post (ep_read_sysfs env kind kn c) s
      (fun r s' => es_m s' = es_m s /\ forall v, r = Some v -> me_cache env = false -> exists n, value (hw s) c n /\ v = reading kind shown m_sysfs n)
      (fun _ s' => es_m s' = es_m s).
  Proof.
    unfold ep_read_sysfs. apply post_bind, post_gets. destruct (me_cache env) eqn:Ec.
    - destruct (dget Z.eqb (es_cache s) c) as [v|]; [apply post_ret; split; [reflexivity|discriminate]|].
      assert (G : forall m, post m s (fun _ s' => es_m s' = es_m s) (fun _ s' => es_m s' = es_m s) ->
        post (let! v := m in ep_cache_add env c v ;; ret v) s (fun r s' => es_m s' = es_m s /\ forall v : epval, r = Some v -> true = false -> exists n, value (hw s) c n /\ v = reading kind shown m_sysfs n) (fun _ s' => es_m s' = es_m s)).
      { intros m P. apply post_bind. eapply post_conseq; [exact P| |auto]. cbn beta. intros v s1 E1.
        pose proof (cache_add_m c v s1) as E2. unfold post, mbind. destruct (ep_cache_add env c v s1) as [[r|e] s2]; cbn [snd] in E2; unfold ret; [split; [congruence|discriminate]|congruence]. }
      apply G. destruct (kn_exists kn c); [|apply post_ret; reflexivity].
      apply post_bind. unfold ep_show. apply post_bind, post_gets. destruct (kn_show kn (hw s) c); [|apply post_throw; reflexivity].
      apply post_ret, post_bind, post_lift; [|reflexivity]. intros; apply post_ret; reflexivity.
    - apply post_bind. destruct (kn_exists kn c).
      + apply post_bind. unfold ep_show. apply post_bind, post_gets. destruct (kn_show kn (hw s) c) as [t|] eqn:Et; [|apply post_throw; reflexivity].
        apply post_ret. destruct (shown_value _ _ _ Et) as (n & Hv & _ & Hp). apply post_bind, post_lift; [|reflexivity].
        rewrite Hp. intros w [= <-]. apply post_ret. apply post_bind. unfold ep_cache_add. rewrite Ec. apply post_ret. apply post_ret.
        split; [reflexivity|]. intros v [= <-] _. eauto.
      + apply post_ret. apply post_bind. unfold ep_cache_add. rewrite Ec. apply post_ret. apply post_ret.
        split; [reflexivity|]. discriminate.
  Qed.

  Lemma read_post m c s : m = m_sysfs \/ m = m_msr -> calm (es_m s) ->
    post (ep_read env kind kn x epb m c) s
      (fun r s' => calm (es_m s') /\ hw_same (es_m s) (es_m s') /\ forall v, r = Some v -> good_value (hw s) m c v)
      (fun _ s' => calm (es_m s') /\ hw_same (es_m s) (es_m s')).
  Proof.
    intros Hm Hc. unfold ep_read. destruct Hm as [-> | ->].
    - change (str_eqb m_sysfs m_sysfs) with true. cbn iota. eapply post_conseq; [apply read_sysfs_post| |].
      + intros r s' (E & Hv). rewrite E. split; [exact Hc|]. split; [intros ? ?; reflexivity|]. intros v ->. split; [discriminate|].
        intros _ Ec. now apply Hv.
      + intros e s' E. rewrite E. split; [exact Hc|]. intros ? ?; reflexivity.
    - rewrite sysfs_msr. unfold ep_read_msr. apply post_bind.
      pose proof (mech_read_post env sc Hwf Hsc kind x epb Hok c (es_m s) Hc) as P. fold (mech_read env kind x epb c).
      unfold post, on_msr in *. destruct (mech_read env kind x epb c (es_m s)) as [[r|e] m'] eqn:E; cbn [es_m es_set_m].
      + destruct P as (C' & S & Hv). unfold ret. cbn [es_m es_set_m]. split; [exact C'|]. split; [exact S|].
        intros v Er. split; [|discriminate]. intros _ Ho. destruct r as [n|]; [|discriminate]. injection Er as <-.
        destruct (Hv n eq_refl) as (_ & V). exists n. auto.
      + exact P.
  Qed.

  Lemma get_cpus_post m cpus : m = m_sysfs \/ m = m_msr -> forall s, calm (es_m s) ->
    post (ep_get_cpus env kind kn x epb m cpus) s
      (fun r s' => calm (es_m s') /\ hw_same (es_m s) (es_m s') /\ forall c v m', In (c, v, m') (fst r) -> m' = m /\ good_value (hw s) m c v)
      (fun _ s' => calm (es_m s') /\ hw_same (es_m s) (es_m s')).
  Proof.
    intros Hm. induction cpus as [|c t IH]; intros s Hc; cbn [ep_get_cpus].
    - apply post_ret. split; [exact Hc|]. split; [intros ? ?; reflexivity|]. intros ? ? ? [].
    - apply post_bind. eapply post_conseq; [apply (read_post m c s Hm Hc)| |auto].
      intros [v|] s1 (C1 & S1 & V1).
      + apply post_bind. eapply post_conseq; [apply (IH s1 C1)| |].
        * intros [l b] s2 (C2 & S2 & V2). cbn [fst] in V2. apply post_ret. split; [exact C2|].
          split; [intros a d; now rewrite S2|]. intros c' v' m' [E|Hin].
          -- injection E as <- <- <-. auto.
          -- destruct (V2 _ _ _ Hin) as (-> & G). split; [reflexivity|]. eapply good_same; [|exact G]. intros a d. symmetry. apply S1.
        * intros e s2 (C2 & S2). split; [exact C2|]. intros a d. now rewrite S2.
      + apply post_ret. split; [exact C1|]. split; [exact S1|]. intros ? ? ? [].
  Qed.

  Lemma get_loop_post cpus ms : (forall m, In m ms -> m = m_sysfs \/ m = m_msr) -> forall s, calm (es_m s) ->
    post (ep_get_loop env kind kn x epb ms cpus) s
      (fun r s' => calm (es_m s') /\ hw_same (es_m s) (es_m s') /\ forall c v m, In (c, v, m) r -> In m ms /\ good_value (hw s) m c v)
      (fun _ s' => calm (es_m s') /\ hw_same (es_m s) (es_m s')).
  Proof.
    induction ms as [|m ms IH]; intros Hms s Hc; cbn [ep_get_loop].
    - apply post_throw. split; [exact Hc|]. intros ? ?; reflexivity.
    - apply post_bind. eapply post_conseq; [apply (get_cpus_post m cpus (Hms m ltac:(now left)) s Hc)| |auto].
      intros [l b] s1 (C1 & S1 & V1). cbn [fst] in V1.
      assert (V1' : forall c v m', In (c, v, m') l -> In m' (m :: ms) /\ good_value (hw s) m' c v).
      { intros c v m' Hin. destruct (V1 _ _ _ Hin) as (-> & G). split; [now left|exact G]. }
      destruct cpus as [|c0 cpus']; [apply post_throw; auto|]. destruct b; [|apply post_ret; auto].
      apply post_bind. eapply post_conseq; [apply (IH ltac:(intros; apply Hms; now right) s1 C1)| |].
      + intros l2 s2 (C2 & S2 & V2). apply post_ret. split; [exact C2|]. split; [intros a d; now rewrite S2|].
        intros c v m' Hin. apply in_app_iff in Hin. destruct Hin as [Hin|Hin]; [auto|].
        destruct (V2 _ _ _ Hin) as (Hm & G). split; [now right|]. eapply good_same; [|exact G]. intros a d. symmetry. apply S1.
      + intros e s2 (C2 & S2). split; [exact C2|]. intros a d. now rewrite S2.
  Qed.

  Lemma get_vals_post cpus mnames s : calm (es_m s) ->
    post (ep_get_vals env kind kn x epb cpus mnames) s
      (fun r s' => calm (es_m s') /\ hw_same (es_m s) (es_m s') /\ forall c v m, In (c, v, m) r -> (m = m_sysfs \/ m = m_msr) /\ good_value (hw s) m c v)
      (fun _ s' => calm (es_m s') /\ hw_same (es_m s) (es_m s')).
  Proof.
    intros Hc. unfold ep_get_vals. assert (R : calm (es_m s) /\ hw_same (es_m s) (es_m s)) by (split; [exact Hc|intros ? ?; reflexivity]).
    apply post_bind, post_lift; [|auto]. intros ms Ems. apply post_bind, post_lift; [|auto]. intros l El.
    eapply post_conseq; [apply (get_loop_post l ms (fun m Hm => proj1 (mname_cases _ _ _ Ems Hm)) s Hc)| |auto].
    intros r s' (C & S & V). split; [exact C|]. split; [exact S|]. intros c v m Hin. destruct (V _ _ _ Hin) as (Hm & G).
    split; [|exact G]. exact (proj1 (mname_cases _ _ _ Ems Hm)).
  Qed.

  (** ** Writing *)
  Variable val : str.
  (** The value that the text stands for. *)
  Definition wants (m : str) (c n : Z) : Prop := (m = m_sysfs -> n = knows c val) /\ (m = m_msr -> py_int val = Some n).
  Definition allowed (m : str) : Prop := m = m_sysfs /\ me_cache env = false \/ m = m_msr.

  Definition written (m : str) (c : Z) (h : Z -> Z -> Z) : Prop :=
    exists n, wants m c n /\ value h c n /\ (m = m_msr -> own h c).

  Lemma hw_but_refl c m : hw_but c m m.
  Proof. split; reflexivity. Qed.
  Lemma hw_but_kernel c m h' : (forall a d, a <> ADDR \/ d <> dom ADDR c -> h' a d = ms_hw m a d) -> hw_but c m (set_hw h' m).
  Proof. intros H. split; intros; apply H; auto. Qed.

  Lemma write_sysfs_post c s : me_cache env = false -> calm (es_m s) ->
    post (ep_write_sysfs env kind kn val c) s
      (fun _ s' => calm (es_m s') /\ hw_but c (es_m s) (es_m s') /\ value (hw s') c (knows c val))
      (fun _ s' => calm (es_m s') /\ hw_but c (es_m s) (es_m s')).
  Proof.
    intros Ec Hc. assert (R : calm (es_m s) /\ hw_but c (es_m s) (es_m s)) by (split; [exact Hc|apply hw_but_refl]).
    assert (K : forall h', kn_store kn (hw s) c val = Some h' -> calm (set_hw h' (es_m s)) /\ hw_but c (es_m s) (set_hw h' (es_m s)) /\ value h' c (knows c val)).
    { intros h' E. destruct (stored _ _ _ _ E) as (Hv & _ & Ho). split; [now apply calm_kernel|]. split; [now apply hw_but_kernel|exact Hv]. }
    assert (D : ep_write_sysfs env kind kn val c = epp_write_sysfs env kn val c \/ ep_write_sysfs env kind kn val c = epb_write_sysfs env kind kn val c)
      by (clear; unfold ep_write_sysfs; destruct kind; auto).
    destruct D as [-> | ->]; unfold epp_write_sysfs, epb_write_sysfs, ep_cache_remove, ep_cache_add; rewrite Ec.
    - apply post_bind, post_ret. destruct (negb (kn_exists kn c)); [apply post_throw; exact R|]. apply post_bind, post_gets, post_bind.
      destruct (kn_store kn (hw s) c val) as [h'|] eqn:Es.
      + destruct (K h' eq_refl) as (K1 & K2 & K3). apply post_bind, post_modify, post_bind, post_gets.
        destruct (dget str_eqb _ val) as [v1|]; [apply post_ret, post_ret; repeat (split; [assumption|]); exact K3|].
        apply post_bind. unfold ep_show. apply post_bind, post_gets. destruct (kn_show kn _ c) as [t|].
        * apply post_ret. apply post_bind, post_modify, post_ret. apply post_ret. repeat (split; [assumption|]). exact K3.
        * apply post_throw. split; assumption.
      + apply post_bind. unfold ep_show. apply post_bind, post_gets. destruct (kn_show kn (hw s) c) as [t|] eqn:Et; [|apply post_throw; exact R].
        apply post_ret. destruct (str_eqb val (strip t)) eqn:Ev; cbn [negb]; [|apply post_throw; exact R].
        apply post_bind, post_modify, post_ret, post_ret. cbn [es_set_alias es_m]. split; [exact Hc|]. split; [exact (proj2 R)|].
        apply str_eqb_eq in Ev. destruct (shown_value _ _ _ Et) as (n & Hv & Hs & _). rewrite Ev, Hs.
        rewrite (ko_shown _ _ _ _ _ Hk c n (value_nonneg _ _ _ Hv)). exact Hv.
    - apply post_bind, post_ret. apply post_bind. destruct (negb (kn_exists kn c)); [apply post_throw; exact R|]. apply post_bind, post_gets.
      destruct (kn_store kn (hw s) c val) as [h'|] eqn:Es; [|apply post_throw; exact R].
      destruct (K h' eq_refl) as (K1 & K2 & K3). apply post_modify.
      destruct (negb (is_int val)).
      + apply post_bind, post_gets, post_bind.
        assert (G : forall s', es_m s' = set_hw h' (es_m s) ->
          post (ep_read_sysfs env kind kn c) s' (fun _ s'' => es_m s'' = set_hw h' (es_m s)) (fun _ s'' => es_m s'' = set_hw h' (es_m s))).
        { intros s' E'. eapply post_conseq; [apply read_sysfs_post| |]; [intros r s'' (E & _); congruence|intros e s'' E; congruence]. }
        assert (H : post (let! v := ep_read_sysfs env kind kn c in
                match v with Some (ENum n) => modify (fun s0 => es_set_pol (dset str_eqb (es_pol s0) val n) s0) ;; ret n | _ => throw EValue end)
             (es_set_m (set_hw h' (es_m s)) s) (fun _ s' => es_m s' = set_hw h' (es_m s)) (fun _ s' => es_m s' = set_hw h' (es_m s))).
        { apply post_bind. eapply post_conseq; [apply (G (es_set_m (set_hw h' (es_m s)) s) eq_refl)| |auto]. cbn beta. intros [[t|n]|] s2 E2; try (apply post_throw; exact E2).
          apply post_bind, post_modify, post_ret. exact E2. }
        assert (F : forall (n : Z) s2, es_m s2 = set_hw h' (es_m s) -> post (@ret epstate unit tt) s2
           (fun _ s' => calm (es_m s') /\ hw_but c (es_m s) (es_m s') /\ value (hw s') c (knows c val)) (fun _ s' => calm (es_m s') /\ hw_but c (es_m s) (es_m s'))).
        { intros _ s2 E2. apply post_ret. rewrite E2. repeat (split; [assumption|]). exact K3. }
        destruct (dget str_eqb _ val) as [[|p|p]|].
        * eapply post_conseq; [exact H|intros n s2 E2; eapply (F n s2 E2)|]. cbn beta. intros e s2 E2. rewrite E2. split; assumption.
        * apply post_ret. apply (F 0). reflexivity.
        * apply post_ret. apply (F 0). reflexivity.
        * eapply post_conseq; [exact H|intros n s2 E2; eapply (F n s2 E2)|]. cbn beta. intros e s2 E2. rewrite E2. split; assumption.
      + destruct (py_int val); [apply post_ret|apply post_throw]; cbn [es_m es_set_m]; repeat (split; [assumption|]); assumption.
  Qed.

  Definition sane (m : str) : Prop := m = m_msr -> forall n, py_int val = Some n -> 0 <= n.

  Lemma write_post m c s : allowed m -> sane m -> calm (es_m s) ->
    post (ep_write env kind kn x epb m val c) s
      (fun _ s' => calm (es_m s') /\ hw_but c (es_m s) (es_m s') /\ written m c (hw s'))
      (fun _ s' => calm (es_m s') /\ hw_but c (es_m s) (es_m s')).
  Proof.
    intros [(-> & Ec)| ->] Hval Hc; unfold ep_write.
    - change (str_eqb m_sysfs m_sysfs) with true. cbn iota. eapply post_conseq; [apply (write_sysfs_post c s Ec Hc)| |auto].
      cbn beta. intros [] s' (C & B & V). split; [exact C|]. split; [exact B|]. exists (knows c val). split; [split; [reflexivity|discriminate]|].
      split; [exact V|discriminate].
    - rewrite sysfs_msr. unfold ep_write_msr. destruct (py_int val) as [n|] eqn:En.
      2:{ apply post_throw. split; [exact Hc|apply hw_but_refl]. }
      pose proof (mech_write_post env sc Hwf Hsc Hfaith kind x epb Hok n c (es_m s) (Hval eq_refl n En) Hc) as P. fold (mech_write env kind x epb n c).
      unfold post, on_msr in *. destruct (mech_write env kind x epb n c (es_m s)) as [[[]|e] m']; cbn [es_m es_set_m].
      + destruct P as (C & B & _ & O & V). split; [exact C|]. split; [exact B|]. exists n. split; [split; [discriminate|auto]|].
        split; [exact V|auto].
      + exact P.
  Qed.

  (** Only the registers of [cpus] may have changed. *)
  Definition hw_buts (cpus : list Z) (m m' : mstate) : Prop :=
    (forall a d, a <> ADDR -> ms_hw m' a d = ms_hw m a d) /\
    (forall c', In c' online -> (forall c, In c cpus -> dom ADDR c' <> dom ADDR c) -> ms_hw m' ADDR (dom ADDR c') = ms_hw m ADDR (dom ADDR c')).

  Lemma buts_refl l m : hw_buts l m m.
  Proof. split; reflexivity. Qed.
  Lemma buts_trans l m1 m2 m3 : hw_buts l m1 m2 -> hw_buts l m2 m3 -> hw_buts l m1 m3.
  Proof. intros (A1 & B1) (A2 & B2). split; [intros; rewrite A2, A1; auto|]. intros c Hc Hd. rewrite B2, B1; auto. Qed.
  Lemma buts_one c l m m' : In c l -> hw_but c m m' -> hw_buts l m m'.
  Proof. intros Hin (A & B). split; [exact A|]. intros c' Hc Hd. apply B; auto. Qed.
  Lemma buts_sub l l' m m' : incl l l' -> hw_buts l m m' -> hw_buts l' m m'.
  Proof. intros Hi (A & B). split; [exact A|]. intros c' Hc Hd. apply B; auto. Qed.

  Lemma written_shared m c c' h : In c online -> In c' online -> dom ADDR c = dom ADDR c' -> written m c' h -> written m c h.
  Proof.
    intros Hc Hc' E (n & (W1 & W2) & V & O). exists n. split; [split; [|exact W2]|split].
    - intros Em. rewrite (W1 Em). symmetry. apply (ko_shared _ _ _ _ _ Hk). exact E.
    - eapply value_ext; [|exact V]. now rewrite E.
    - intros Em Ek. specialize (O Em Ek). rewrite Ek in E. cbn [ep_addr] in E.
      rewrite (own_register env sc Hsc x (eo_hwp _ _ _ _ Hok) c c' Hc Hc' E). exact O.
  Qed.

  Lemma written_ext m c h h' : h' ADDR (dom ADDR c) = h ADDR (dom ADDR c) -> written m c h -> written m c h'.
  Proof.
    intros E (n & W & V & O). exists n. split; [exact W|]. split; [eapply value_ext; eauto|]. intros Em. eapply own_ext; eauto.
  Qed.

  Lemma set_cpus_post m : allowed m -> sane m -> forall cpus cur s, (forall c, In c cpus -> In c online) -> calm (es_m s) ->
    let '(r, _, s') := ep_set_cpus env kind kn x epb m val cpus cur s in
    calm (es_m s') /\ hw_buts cpus (es_m s) (es_m s') /\ (r = Ok tt -> forall c, In c cpus -> written m c (hw s')).
  Proof.
    intros Hm Hval. induction cpus as [|c t IH]; intros cur s Ho Hc; cbn [ep_set_cpus].
    - split; [exact Hc|]. split; [apply buts_refl|]. intros _ ? [].
    - pose proof (write_post m c s Hm Hval Hc) as P. unfold post in P.
      destruct (ep_write env kind kn x epb m val c s) as [[[]|e] s1].
      + destruct P as (C1 & B1 & W1). specialize (IH c s1 ltac:(intros; apply Ho; now right) C1).
        destruct (ep_set_cpus env kind kn x epb m val t c s1) as [[r cur'] s2]. destruct IH as (C2 & B2 & W2).
        split; [exact C2|]. split.
        { eapply buts_trans; [eapply buts_one; [|exact B1]; now left|]. eapply buts_sub; [|exact B2]. intros y Hy; now right. }
        intros Er c' [<-|Hin]; [|now apply W2].
        destruct (existsb (fun y => dom ADDR y =? dom ADDR c) t) eqn:Ed.
        * apply existsb_exists in Ed. destruct Ed as (y & Hy & E). apply Z.eqb_eq in E.
          apply (written_shared m c y); [apply Ho; now left|apply Ho; now right|now symmetry|]. apply W2; auto.
        * eapply written_ext; [|exact W1]. apply (proj2 B2); [apply Ho; now left|]. intros y Hy E.
          assert (existsb (fun y => dom ADDR y =? dom ADDR c) t = true) by (apply existsb_exists; exists y; split; [exact Hy|lia]). congruence.
      + destruct P as (C1 & B1). split; [exact C1|]. split; [eapply buts_one; [|exact B1]; now left|discriminate].
  Qed.

  Lemma set_loop_post cpus ms : (forall m, In m ms -> allowed m) -> (forall c, In c cpus -> In c online) -> forall s, calm (es_m s) ->
    post (ep_set_loop env kind kn x epb names ms val cpus) s
      (fun m s' => calm (es_m s') /\ hw_buts cpus (es_m s) (es_m s') /\ In m ms /\ forall c, In c cpus -> written m c (hw s'))
      (fun _ s' => calm (es_m s') /\ hw_buts cpus (es_m s) (es_m s')).
  Proof.
    intros Hms Ho. induction ms as [|m ms IH]; intros s Hc; unfold post; cbn [ep_set_loop].
    - split; [exact Hc|apply buts_refl].
    - destruct (ep_validate kind names val (str_eqb m m_sysfs)) as [[]|e] eqn:Ev.
      + assert (Hval : sane m).
        { intros -> n En. rewrite sysfs_msr in Ev. unfold ep_validate in Ev. rewrite En in Ev. destruct (is_int val); [|discriminate]. cbn [negb] in Ev. destruct (n <? 0) eqn:El; [discriminate|lia]. }
        pose proof (set_cpus_post m (Hms m ltac:(now left)) Hval cpus 0 s Ho Hc) as P.
        destruct (ep_set_cpus env kind kn x epb m val cpus 0 s) as [[r cur] s1]. destruct P as (C1 & B1 & W1).
        destruct r as [[]|e].
        * split; [exact C1|]. split; [exact B1|]. split; [now left|]. now apply W1.
        * destruct e; try (split; [exact C1|exact B1]). destruct cpus as [|c0 t] eqn:El; [split; [exact C1|exact B1]|].
          destruct (cur =? c0); [|split; [exact C1|exact B1]].
          specialize (IH ltac:(intros; apply Hms; now right) s1 C1). unfold post in IH.
          destruct (ep_set_loop env kind kn x epb names ms val (c0 :: t) s1) as [[m'|e] s2].
          -- destruct IH as (C2 & B2 & I2 & W2). split; [exact C2|]. split; [eapply buts_trans; eauto|]. split; [now right|exact W2].
          -- destruct IH as (C2 & B2). split; [exact C2|]. eapply buts_trans; eauto.
      + destruct e; try (split; [exact Hc|apply buts_refl]). destruct cpus as [|c0 t] eqn:El; [split; [exact Hc|apply buts_refl]|].
        destruct (0 =? c0); [|split; [exact Hc|apply buts_refl]].
        specialize (IH ltac:(intros; apply Hms; now right) s Hc). unfold post in IH.
        destruct (ep_set_loop env kind kn x epb names ms val (c0 :: t) s) as [[m'|e] s2].
        * destruct IH as (C2 & B2 & I2 & W2). split; [exact C2|]. split; [exact B2|]. split; [now right|exact W2].
        * exact IH.
  Qed.
End EP.
