(** Lemmas about EPP and EPB: histories of calls in which the sysfs files are the only way to write. *)
From Coq Require Import Ascii String QArith ZifyBool.
From Verif Require Import Base L_Base L_Monad M_CPUInfo S_CPUInfo L_CPUInfo L_CPUInfo2
  M_Text S_Text M_MSR S_MSR L_Bits L_MSR L_MSR2 L_MSR3 L_MSR4 L_MSR5 M_FMSR S_FMSR L_Text L_FMSR L_FMSR2 L_FMSR3 L_FMSR4 X_FMSR
  L_Sysfs M_HWP S_HWP L_Quiet L_OpTarget L_HWP L_HWP2 L_HWP3 L_HWP4 L_HWP5 M_Human S_Human L_Human L_Uncore3 L_Pure M_EP S_EP L_EP L_EP2 L_EP4.
Open Scope Z_scope.

Section EP.
  Variable env : menv.
  Notation dom := (me_dom env).
  Notation ci := (me_ci env).
  Notation online := (ci_online (me_ci env)).
  Variable kind : epkind.
  Variable x : hwp.
  Variable epb : res freg.
  Variable kn : kern.
  Variable shown : Z -> str.
  Variable knows : Z -> str -> Z.
  Hypothesis Hk : kernel_ok env kind kn shown knows.
  Variable names : list str.
  Notation ADDR := (ep_addr kind).
  Hypothesis Hdom : forall c c', In c online -> In c' online -> dom ADDR c = dom ADDR c' -> c = c'.
  Hypothesis Huni : forall c c' v, In c online -> In c' online -> knows c v = knows c' v.
  Notation hw s := (ms_hw (es_m s)).
  Notation value := (ep_value env kind).
  Notation run := (erun env kind kn x epb names).
  Notation Known := (Known env kind kn shown knows).
  Notation but := (but env kind).

  Definition same (s s' : epstate) : Prop := Known s' /\ hw s' = hw s.

  Lemma read_same m c s : In c online -> m = m_sysfs \/ m = m_msr -> Known s ->
    post (ep_read env kind kn x epb m c) s
      (fun r s' => same s s' /\ forall v, r = Some v -> m = m_sysfs -> exists n, value (hw s) c n /\ v = reading kind shown m_sysfs n)
      (fun _ s' => same s s').
  Proof.
    intros Hc Hm K. unfold ep_read. destruct Hm as [-> | ->].
    - change (str_eqb m_sysfs m_sysfs) with true. cbn iota. eapply post_conseq; [apply (read_known env kind kn shown knows Hk c s Hc K)| |].
      + cbn beta. intros r s' (K' & E & V). split; [split; [exact K'|now rewrite E]|]. intros v Er _. now apply V.
      + cbn beta. intros e s' (K' & E). split; [exact K'|now rewrite E].
    - rewrite sysfs_msr. unfold ep_read_msr. apply post_bind.
      assert (P : mpure (match kind with EPP => epp_read_msr env x c | EPB => epb_read_msr env epb c end)) by (destruct kind; [apply epp_read_pure|apply epb_read_pure]).
      specialize (P (es_m s)). unfold post, on_msr, ret. destruct (match kind with EPP => epp_read_msr env x c | EPB => epb_read_msr env epb c end (es_m s)) as [[r|e] m']; cbn [snd] in P.
      + split; [|discriminate]. split; [|exact P]. eapply Known_ext; [| | | |exact K]; try reflexivity. intros a d. cbn. now rewrite P.
      + split; [|exact P]. eapply Known_ext; [| | | |exact K]; try reflexivity. intros a d. cbn. now rewrite P.
  Qed.

  Lemma get_cpus_same m cpus : m = m_sysfs \/ m = m_msr -> (forall c, In c cpus -> In c online) -> forall s, Known s ->
    post (ep_get_cpus env kind kn x epb m cpus) s
      (fun r s' => same s s' /\ forall c v m', In (c, v, m') (fst r) -> m' = m /\ (m = m_sysfs -> exists n, value (hw s) c n /\ v = reading kind shown m_sysfs n))
      (fun _ s' => same s s').
  Proof.
    intros Hm. induction cpus as [|c t IH]; intros Ho s K; cbn [ep_get_cpus].
    - apply post_ret. split; [split; [exact K|reflexivity]|]. intros ? ? ? [].
    - apply post_bind. eapply post_conseq; [apply (read_same m c s (Ho c ltac:(now left)) Hm K)| |auto].
      cbn beta. intros [v|] s1 ((K1 & S1) & V1).
      + apply post_bind. eapply post_conseq; [apply (IH ltac:(intros; apply Ho; now right) s1 K1)| |].
        * cbn beta. intros [l b] s2 ((K2 & S2) & V2). cbn [fst] in V2. rewrite S1 in V2. apply post_ret. split; [split; [exact K2|congruence]|].
          cbn [fst]. intros c' v' m' [E|Hin]; [injection E as <- <- <-; auto|]. now apply V2.
        * cbn beta. intros e s2 (K2 & S2). split; [exact K2|congruence].
      + apply post_ret. split; [split; assumption|]. intros ? ? ? [].
  Qed.

  Lemma get_loop_same cpus ms : (forall m, In m ms -> m = m_sysfs \/ m = m_msr) -> (forall c, In c cpus -> In c online) -> forall s, Known s ->
    post (ep_get_loop env kind kn x epb ms cpus) s
      (fun r s' => same s s' /\ forall c v m', In (c, v, m') r -> m' = m_sysfs -> exists n, value (hw s) c n /\ v = reading kind shown m_sysfs n)
      (fun _ s' => same s s').
  Proof.
    intros Hms Ho. induction ms as [|m ms IH]; intros s K; cbn [ep_get_loop].
    - apply post_throw. split; [exact K|reflexivity].
    - apply post_bind. eapply post_conseq; [apply (get_cpus_same m cpus (Hms m ltac:(now left)) Ho s K)| |auto].
      cbn beta. intros [l b] s1 ((K1 & S1) & V1). cbn [fst] in V1.
      assert (V1' : forall c v m', In (c, v, m') l -> m' = m_sysfs -> exists n, value (hw s) c n /\ v = reading kind shown m_sysfs n).
      { intros c v m' Hin Em. destruct (V1 _ _ _ Hin) as (-> & G). auto. }
      destruct cpus as [|c0 cpus']; [apply post_throw; split; assumption|]. destruct b; [|apply post_ret; split; [split; assumption|exact V1']].
      apply post_bind. eapply post_conseq; [apply (IH ltac:(intros; apply Hms; now right) s1 K1)| |].
      + cbn beta. intros l2 s2 ((K2 & S2) & V2). rewrite S1 in V2. apply post_ret. split; [split; [exact K2|congruence]|].
        intros c v m' Hin. apply in_app_iff in Hin. destruct Hin; eauto.
      + cbn beta. intros e s2 (K2 & S2). split; [exact K2|congruence].
  Qed.

  Lemma get_vals_same cpus mnames s : Known s ->
    post (ep_get_vals env kind kn x epb cpus mnames) s
      (fun r s' => same s s' /\ forall c v m', In (c, v, m') r -> m' = m_sysfs -> exists n, value (hw s) c n /\ v = reading kind shown m_sysfs n)
      (fun _ s' => same s s').
  Proof.
    intros K. unfold ep_get_vals. assert (R : same s s) by (split; [exact K|reflexivity]).
    apply post_bind, post_lift; [|auto]. intros ms Ems. apply post_bind, post_lift; [|auto]. intros l El.
    apply get_loop_same; [|exact (normalized_online env cpus l El)|exact K]. intros m Hm. exact (proj1 (mname_cases _ _ _ Ems Hm)).
  Qed.

  Section Set_.
    Variable val : str.
    Hypothesis Hplain : is_int val = true -> exists n, 0 <= n /\ val = dec n.

    Lemma but_trans l h1 h2 h3 : but l h1 h2 -> but l h2 h3 -> but l h1 h3.
    Proof. intros B1 B2 a d D. rewrite B2, B1; auto. Qed.
    Lemma but_sub l l' h h' : incl l l' -> but l h h' -> but l' h h'.
    Proof. intros I B a d D. apply B. destruct D as [D|D]; auto. Qed.

    Lemma set_cpus_known : forall cpus cur s, (forall c, In c cpus -> In c online) -> Known s ->
      let '(r, _, s') := ep_set_cpus env kind kn x epb m_sysfs val cpus cur s in
      Known s' /\ but cpus (hw s) (hw s') /\ (r = Ok tt -> forall c, In c cpus -> value (hw s') c (knows c val)).
    Proof.
      induction cpus as [|c t IH]; intros cur s Ho K; cbn [ep_set_cpus].
      - split; [exact K|]. split; [apply but_refl|]. intros _ ? [].
      - pose proof (write_known env kind x kn shown knows Hk Hdom Huni val Hplain c s (Ho c ltac:(now left)) K) as P. unfold post in P.
        unfold ep_write. change (str_eqb m_sysfs m_sysfs) with true. cbn iota.
        destruct (ep_write_sysfs env kind kn val c s) as [[[]|e] s1].
        + destruct P as (K1 & B1 & V1). specialize (IH c s1 ltac:(intros; apply Ho; now right) K1).
          destruct (ep_set_cpus env kind kn x epb m_sysfs val t c s1) as [[r cur'] s2]. destruct IH as (K2 & B2 & V2).
          split; [exact K2|]. split.
          { eapply but_trans; [eapply but_sub; [|exact B1]|eapply but_sub; [|exact B2]]; intros y Hy; [destruct Hy as [<-|[]]; now left|now right]. }
          intros Er c' [<-|Hin]; [|now apply V2].
          destruct (in_dec Z.eq_dec c t) as [Hin|Hn]; [now apply V2|].
          eapply value_ext; [|exact V1]. apply B2. right. intros y Hy E. apply Hn.
          rewrite (Hdom c y); [exact Hy|apply Ho; now left|apply Ho; now right|exact E].
        + destruct P as (K1 & B1). split; [exact K1|]. split; [|discriminate]. eapply but_sub; [|exact B1]. intros y [<-|[]]; now left.
    Qed.

    Lemma set_loop_known cpus ms : (forall m, In m ms -> m = m_sysfs) -> (forall c, In c cpus -> In c online) -> forall s, Known s ->
      post (ep_set_loop env kind kn x epb names ms val cpus) s
        (fun m s' => Known s' /\ but cpus (hw s) (hw s') /\ forall c, In c cpus -> value (hw s') c (knows c val))
        (fun _ s' => Known s' /\ but cpus (hw s) (hw s')).
    Proof.
      intros Hms Ho. induction ms as [|m ms IH]; intros s K; unfold post; cbn [ep_set_loop].
      - split; [exact K|apply but_refl].
      - rewrite (Hms m ltac:(now left)). destruct (ep_validate kind names val (str_eqb m_sysfs m_sysfs)) as [[]|e] eqn:Ev.
        + pose proof (set_cpus_known cpus 0 s Ho K) as P.
          destruct (ep_set_cpus env kind kn x epb m_sysfs val cpus 0 s) as [[r cur] s1]. destruct P as (K1 & B1 & V1).
          destruct r as [[]|e].
          * split; [exact K1|]. split; [exact B1|]. now apply V1.
          * destruct e; try (split; [exact K1|exact B1]). destruct cpus as [|c0 t] eqn:El; [split; [exact K1|exact B1]|].
            destruct (cur =? c0); [|split; [exact K1|exact B1]].
            specialize (IH ltac:(intros; apply Hms; now right) s1 K1). unfold post in IH.
            destruct (ep_set_loop env kind kn x epb names ms val (c0 :: t) s1) as [[m'|e] s2].
            -- destruct IH as (K2 & B2 & V2). split; [exact K2|]. split; [eapply but_trans; eauto|exact V2].
            -- destruct IH as (K2 & B2). split; [exact K2|]. eapply but_trans; eauto.
        + destruct e; try (split; [exact K|apply but_refl]). destruct cpus as [|c0 t] eqn:El; [split; [exact K|apply but_refl]|].
          destruct (0 =? c0); [|split; [exact K|apply but_refl]].
          specialize (IH ltac:(intros; apply Hms; now right) s K). unfold post in IH.
          destruct (ep_set_loop env kind kn x epb names ms val (c0 :: t) s) as [[m'|e] s2]; exact IH.
    Qed.
  End Set_.

  Definition op_sys (o : eop) : Prop := only_through m_sysfs o /\
    match o with
    | EMsr (ORead _ _ _) | EGet _ _ => True
    | EMsr _ => False
    | ESet val _ _ => is_int val = true -> exists n, 0 <= n /\ val = dec n
    end.

  Lemma set_vals_known val cpus mnames s : op_sys (ESet val cpus mnames) -> Known s ->
    post (ep_set_vals env kind kn x epb names val cpus mnames) s
      (fun m s' => Known s' /\ but (targets env cpus) (hw s) (hw s') /\ (forall c, In c (targets env cpus) -> In c online) /\
        forall c, In c (targets env cpus) -> value (hw s') c (knows c val))
      (fun _ s' => Known s' /\ but (targets env cpus) (hw s) (hw s')).
  Proof.
    intros (Hth & Hp) K. unfold ep_set_vals. assert (R : Known s /\ but (targets env cpus) (hw s) (hw s)) by (split; [exact K|apply but_refl]).
    apply post_bind, post_lift; [|auto]. intros ms Ems. apply post_bind, post_lift; [|auto]. intros l El.
    assert (Hl : forall c, In c l <-> In c (targets env cpus)) by (intros c; exact (normalized_targets env cpus l El c)).
    assert (Ho : forall c, In c l -> In c online) by (intros c; apply (normalized_online env cpus l El)).
    assert (Hms : forall m, In m ms -> m = m_sysfs).
    { intros m Hm. destruct (mname_cases _ _ _ Ems Hm) as (_ & Hin). cbn [only_through] in Hth. destruct mnames as [ml|]; [|contradiction]. now apply Hth. }
    assert (Hb : forall h h', but l h h' -> but (targets env cpus) h h').
    { intros h h'. apply but_sub. intros c Hin. now apply Hl. }
    eapply post_conseq; [apply (set_loop_known val Hp l ms Hms Ho s K)| |].
    - cbn beta. intros m s' (K' & B & V). split; [exact K'|]. split; [now apply Hb|]. split; [intros c Hin; now apply Ho, Hl|].
      intros c Hin. now apply V, Hl.
    - cbn beta. intros e s' (K' & B). split; [exact K'|]. now apply Hb.
  Qed.

  Lemma step_known o s : op_sys o -> Known s ->
    Known (estep env kind kn x epb names s o) /\
    forall c, In c online -> ~ ep_touches env kind c o -> hw (estep env kind kn x epb names s o) ADDR (dom ADDR c) = hw s ADDR (dom ADDR c).
  Proof.
    intros Hf K. destruct o as [cpus mnames|val cpus mnames|o]; cbn [estep].
    - pose proof (get_vals_same cpus mnames s K) as P. unfold post, same in P.
      destruct (ep_get_vals env kind kn x epb cpus mnames s) as [[l|e] s']; cbn [snd].
      + destruct P as ((K' & S) & _). split; [exact K'|]. intros c _ _. now rewrite S.
      + destruct P as (K' & S). split; [exact K'|]. intros c _ _. now rewrite S.
    - pose proof (set_vals_known val cpus mnames s Hf K) as P. unfold post in P.
      assert (G : forall s', but (targets env cpus) (hw s) (hw s') ->
        forall c, In c online -> ~ ep_touches env kind c (ESet val cpus mnames) -> hw s' ADDR (dom ADDR c) = hw s ADDR (dom ADDR c)).
      { intros s' B c Ho Ht. apply B. right. intros c' Hin E. apply Ht. exists c'. auto. }
      destruct (ep_set_vals env kind kn x epb names val cpus mnames s) as [[l|e] s']; cbn [snd]; (split; [apply P|]); apply G, P.
    - destruct Hf as (_ & Hr). destruct o as [a cpus sn|a v cpus sn vf|a b v cpus sn vf| | |]; try contradiction.
      pose proof (read_pure env a cpus sn (es_m s)) as P. unfold on_msr. cbn [mstep]. destruct (read env a cpus sn (es_m s)) as [r m']. cbn [snd] in *.
      split; [|intros; cbn [es_m es_set_m]; now rewrite P]. eapply Known_ext; [| | | |exact K]; try reflexivity. intros a' d. cbn. now rewrite P.
  Qed.

  Lemma run_known ops : (forall o, In o ops -> op_sys o) -> forall s, Known s ->
    Known (run ops s) /\
    forall c, In c online -> (forall o, In o ops -> ~ ep_touches env kind c o) -> hw (run ops s) ADDR (dom ADDR c) = hw s ADDR (dom ADDR c).
  Proof.
    unfold erun. induction ops as [|o t IH]; intros Hf s K; cbn [fold_left]; [split; [exact K|reflexivity]|].
    destruct (step_known o s (Hf o ltac:(now left)) K) as (C1 & F1).
    destruct (IH ltac:(intros; apply Hf; now right) _ C1) as (C2 & F2). split; [exact C2|].
    intros c Ho Ht. rewrite F2, F1; auto; intros; apply Ht; [now left|now right].
  Qed.
End EP.

Lemma ep_sysfs_last_set : forall env kind x epb kn shown knows names,
  kernel_ok env kind kn shown knows ->
  forall val cpus mnames ops ops2 h faults m s1 c cpus' mnames' l s2 v m',
  ep_sysfs_history env kind knows (ops ++ ESet val cpus mnames :: ops2) ->
  ep_set_vals env kind kn x epb names val cpus mnames (erun env kind kn x epb names ops (ep_init h faults)) = (Ok m, s1) ->
  In c (targets env cpus) -> (forall o, In o ops2 -> ~ ep_touches env kind c o) ->
  ep_get_vals env kind kn x epb cpus' mnames' (erun env kind kn x epb names ops2 s1) = (Ok l, s2) -> In (c, v, m') l ->
  m' = s2l "sysfs"%string -> v = reading kind shown (s2l "sysfs"%string) (knows c val).
Proof.
  intros env kind x epb kn shown knows names Hk val cpus mnames ops ops2 h faults m s1 c cpus' mnames' l s2 v m' (Hdom & Huni & Hf) Eset Hin Ht Eget Hv Em.
  destruct (run_known env kind x epb kn shown knows Hk names Hdom Huni ops ltac:(intros; apply Hf; apply in_or_app; now left) (ep_init h faults) (Known_init _ _ _ _ _ h faults)) as (K0 & _).
  pose proof (set_vals_known env kind x epb kn shown knows Hk names Hdom Huni val cpus mnames _ (Hf (ESet val cpus mnames) ltac:(apply in_or_app; right; now left)) K0) as P.
  unfold post in P. rewrite Eset in P. destruct P as (K1 & _ & Ho & V1).
  destruct (run_known env kind x epb kn shown knows Hk names Hdom Huni ops2 ltac:(intros; apply Hf; apply in_or_app; right; now right) s1 K1) as (K2 & F2).
  specialize (F2 c (Ho c Hin) Ht).
  pose proof (get_vals_same env kind x epb kn shown knows Hk Hdom cpus' mnames' _ K2) as G. unfold post in G. rewrite Eget in G.
  destruct G as (_ & G). destruct (G c v m' Hv Em) as (n & V & ->). f_equal. eapply value_fun; [exact V|].
  eapply value_ext; [exact F2|]. now apply V1.
Qed.
