(** Lemmas about EPP and EPB: histories of calls. *)
From Coq Require Import Ascii String QArith ZifyBool.
From Verif Require Import Base L_Base L_Monad M_CPUInfo S_CPUInfo L_CPUInfo L_CPUInfo2
  M_Text S_Text M_MSR S_MSR L_Bits L_MSR L_MSR2 L_MSR3 L_MSR4 L_MSR5 M_FMSR S_FMSR L_Text L_FMSR L_FMSR2 L_FMSR3 L_FMSR4 X_FMSR
  M_HWP S_HWP L_Quiet L_OpTarget L_HWP L_HWP2 L_HWP3 L_HWP4 L_HWP5 M_Human S_Human L_Human L_Uncore3 M_EP S_EP L_EP L_EP2.
Open Scope Z_scope.

Section EP.
  Variable env : menv.
  Notation dom := (me_dom env).
  Notation ci := (me_ci env).
  Notation online := (ci_online (me_ci env)).
  Variable sc : Z -> scope.
  Hypothesis Hwf : wf_ci ci.
  Hypothesis Hsc : forall a, scope_right env a (sc a).
  Hypothesis Hfaith : faithful env.
  Variable kind : epkind.
  Variable x : hwp.
  Variable epb : res freg.
  Hypothesis Hok : ep_ok env sc x epb.
  Variable kn : kern.
  Variable shown : Z -> str.
  Variable knows : Z -> str -> Z.
  Hypothesis Hk : kernel_ok env kind kn shown knows.
  Variable names : list str.
  Notation ADDR := (ep_addr kind).
  Notation calm := (calm env sc).
  Notation hw s := (ms_hw (es_m s)).
  Notation value := (ep_value env kind).
  Notation own := (own_value env kind x).
  Notation run := (erun env kind kn x epb names).

  Definition op_fine (o : eop) : Prop :=
    match o with
    | ESet _ _ mnames => forall ms, ep_normalize_mnames mnames = Ok ms -> forall m, In m ms -> allowed env m
    | EMsr o => op_scoped sc o /\ o <> OStart
    | _ => True
    end.

  Lemma history_fine ops : ep_history env sc ops -> forall o, In o ops -> op_fine o.
  Proof.
    intros (Hd & Hc) o Hin. destruct o as [cpus mnames|val cpus mnames|o]; cbn [op_fine]; [exact I| |exact (Hd o Hin)].
    intros ms Ems m Hm. destruct (mname_cases _ _ _ Ems Hm) as (D & Hl). unfold allowed. destruct Hc as [Hc|Hc].
    - destruct D as [-> | ->]; [left; auto|now right].
    - specialize (Hc _ Hin). cbn [only_through] in Hc. destruct mnames as [l|]; [|contradiction]. right. exact (Hc m Hl).
  Qed.

  Lemma set_vals_post val cpus mnames s : op_fine (ESet val cpus mnames) -> calm (es_m s) ->
    post (ep_set_vals env kind kn x epb names val cpus mnames) s
      (fun m s' => calm (es_m s') /\ hw_buts env kind (targets env cpus) (es_m s) (es_m s') /\
        (forall c, In c (targets env cpus) -> In c online) /\ (m = m_sysfs \/ m = m_msr) /\
        forall c, In c (targets env cpus) -> written env kind x knows val m c (hw s'))
      (fun _ s' => calm (es_m s') /\ hw_buts env kind (targets env cpus) (es_m s) (es_m s')).
  Proof.
    intros Hf Hc. unfold ep_set_vals. assert (R : calm (es_m s) /\ hw_buts env kind (targets env cpus) (es_m s) (es_m s)) by (split; [exact Hc|apply buts_refl]).
    apply post_bind, post_lift; [|auto]. intros ms Ems. apply post_bind, post_lift; [|auto]. intros l El.
    assert (Hl : forall c, In c l <-> In c (targets env cpus)) by (intros c; exact (normalized_targets env cpus l El c)).
    assert (Ho : forall c, In c l -> In c online) by (intros c; apply (normalized_online env cpus l El)).
    assert (Hb : forall m m', hw_buts env kind l m m' -> hw_buts env kind (targets env cpus) m m').
    { intros m m'. apply buts_sub. intros c Hin. now apply Hl. }
    eapply post_conseq; [apply (set_loop_post env sc Hwf Hsc Hfaith kind x epb Hok kn shown knows Hk names val l ms (Hf ms Ems) Ho s Hc)| |].
    - cbn beta. intros m s' (C & B & I & W). split; [exact C|]. split; [now apply Hb|]. split; [intros c Hin; now apply Ho, Hl|].
      split; [exact (proj1 (mname_cases _ _ _ Ems I))|]. intros c Hin. now apply W, Hl.
    - cbn beta. intros e s' (C & B). split; [exact C|]. now apply Hb.
  Qed.

  Lemma step_post o s : op_fine o -> calm (es_m s) ->
    calm (es_m (estep env kind kn x epb names s o)) /\
    forall c, In c online -> ~ ep_touches env kind c o -> hw (estep env kind kn x epb names s o) ADDR (dom ADDR c) = hw s ADDR (dom ADDR c).
  Proof.
    intros Hf Hc. destruct o as [cpus mnames|val cpus mnames|o]; cbn [estep].
    - pose proof (get_vals_post env sc Hwf Hsc kind x epb Hok kn shown knows Hk cpus mnames s Hc) as P. unfold post in P.
      destruct (ep_get_vals env kind kn x epb cpus mnames s) as [[l|e] s']; cbn [snd].
      + destruct P as (C & S & _). split; [exact C|]. intros c _ _. apply S.
      + destruct P as (C & S). split; [exact C|]. intros c _ _. apply S.
    - pose proof (set_vals_post val cpus mnames s Hf Hc) as P. unfold post in P.
      assert (G : forall s', hw_buts env kind (targets env cpus) (es_m s) (es_m s') ->
        forall c, In c online -> ~ ep_touches env kind c (ESet val cpus mnames) -> hw s' ADDR (dom ADDR c) = hw s ADDR (dom ADDR c)).
      { intros s' (_ & B) c Ho Ht. apply B; [exact Ho|]. intros c' Hin E. apply Ht. exists c'. auto. }
      destruct (ep_set_vals env kind kn x epb names val cpus mnames s) as [[l|e] s']; cbn [snd]; (split; [apply P|]); apply G, P.
    - destruct Hf as (Hs & Hn). destruct (msr_step_post env sc Hwf Hsc Hfaith o (es_m s) Hc Hs Hn) as (C & F).
      unfold on_msr. destruct (mstep env o (es_m s)) as [r m']. cbn [snd es_m es_set_m] in *. split; [exact C|]. intros c _ Ht. apply F. exact Ht.
  Qed.

  Lemma run_post ops : (forall o, In o ops -> op_fine o) -> forall s, calm (es_m s) ->
    calm (es_m (run ops s)) /\
    forall c, In c online -> (forall o, In o ops -> ~ ep_touches env kind c o) -> hw (run ops s) ADDR (dom ADDR c) = hw s ADDR (dom ADDR c).
  Proof.
    unfold erun. induction ops as [|o t IH]; intros Hf s Hc; cbn [fold_left]; [split; [exact Hc|reflexivity]|].
    destruct (step_post o s (Hf o ltac:(now left)) Hc) as (C1 & F1).
    destruct (IH ltac:(intros; apply Hf; now right) _ C1) as (C2 & F2). split; [exact C2|].
    intros c Ho Ht. rewrite F2, F1; auto; intros; apply Ht; [now left|now right].
  Qed.

  Lemma ep_last_set : forall val cpus mnames ops ops2 h faults m s1 c n cpus' mnames' l s2 v m',
    ep_history env sc (ops ++ ESet val cpus mnames :: ops2) ->
    ep_set_vals env kind kn x epb names val cpus mnames (run ops (ep_init h faults)) = (Ok m, s1) ->
    In c (targets env cpus) -> (forall o, In o ops2 -> ~ ep_touches env kind c o) -> stands_for knows val m c n ->
    ep_get_vals env kind kn x epb cpus' mnames' (run ops2 s1) = (Ok l, s2) -> In (c, v, m') l ->
    (m' = m_msr -> m = m_msr \/ own (hw s1) c -> v = ENum n) /\
    (m' = m_sysfs -> me_cache env = false -> v = reading kind shown m_sysfs n).
  Proof.
    intros val cpus mnames ops ops2 h faults m s1 c n cpus' mnames' l s2 v m' Hh Eset Hin Ht Hn Eget Hv.
    pose proof (history_fine _ Hh) as Hf.
    destruct (run_post ops ltac:(intros; apply Hf; apply in_or_app; now left) (ep_init h faults) (calm_init env sc h faults)) as (C0 & _).
    pose proof (set_vals_post val cpus mnames _ (Hf (ESet val cpus mnames) ltac:(apply in_or_app; right; now left)) C0) as P.
    unfold post in P. rewrite Eset in P. destruct P as (C1 & _ & Ho & Hm & W).
    destruct (run_post ops2 ltac:(intros; apply Hf; apply in_or_app; right; now right) s1 C1) as (C2 & F2).
    specialize (F2 c (Ho c Hin) Ht).
    pose proof (get_vals_post env sc Hwf Hsc kind x epb Hok kn shown knows Hk cpus' mnames' (run ops2 s1) C2) as G.
    unfold post in G. rewrite Eget in G. destruct G as (_ & _ & G). destruct (G c v m' Hv) as (_ & G1 & G2).
    destruct (W c Hin) as (n' & (W1 & W2) & V & O).
    assert (n' = n) as ->.
    { destruct Hn as [(Hp & ->)|(Em & ->)].
      - destruct Hm as [Em|Em]; [rewrite (W1 Em); now apply (ko_num _ _ _ _ _ Hk)|]. specialize (W2 Em). rewrite (py_int_dec n Hp) in W2. congruence.
      - now apply W1. }
    assert (V2 : value (hw (run ops2 s1)) c n) by (eapply value_ext; [exact F2|exact V]).
    split.
    - intros Em Hown. destruct (G1 Em) as (n2 & Hv2 & ->).
      + eapply own_ext; [exact F2|]. destruct Hown as [E|E]; [now apply O|exact E].
      + f_equal. eapply value_fun; eauto.
    - intros Em Ec. destruct (G2 Em Ec) as (n2 & Hv2 & ->). f_equal. eapply value_fun; eauto.
  Qed.

  Lemma ep_set_frame : forall val cpus mnames ops h faults r s1,
    ep_history env sc (ops ++ [ESet val cpus mnames]) ->
    ep_set_vals env kind kn x epb names val cpus mnames (run ops (ep_init h faults)) = (r, s1) ->
    (forall a d, a <> ADDR -> hw s1 a d = hw (run ops (ep_init h faults)) a d) /\
    forall c, In c online -> ~ targeted env ADDR cpus (dom ADDR c) -> hw s1 ADDR (dom ADDR c) = hw (run ops (ep_init h faults)) ADDR (dom ADDR c).
  Proof.
    intros val cpus mnames ops h faults r s1 Hh Eset. pose proof (history_fine _ Hh) as Hf.
    destruct (run_post ops ltac:(intros; apply Hf; apply in_or_app; now left) (ep_init h faults) (calm_init env sc h faults)) as (C0 & _).
    pose proof (set_vals_post val cpus mnames _ (Hf (ESet val cpus mnames) ltac:(apply in_or_app; right; now left)) C0) as P.
    unfold post in P. rewrite Eset in P.
    assert (B : hw_buts env kind (targets env cpus) (es_m (run ops (ep_init h faults))) (es_m s1)) by (destruct r; apply P).
    destruct B as (B1 & B2). split; [exact B1|]. intros c Hin Ht. apply B2; [exact Hin|]. intros c' Hc' E. apply Ht. exists c'. auto.
  Qed.

  (** Reading gives the numbers of the registers. *)
  Lemma ep_get_right : forall cpus mnames ops h faults r s1,
    ep_history env sc ops ->
    ep_get_vals env kind kn x epb cpus mnames (run ops (ep_init h faults)) = (r, s1) ->
    (forall a d, hw s1 a d = hw (run ops (ep_init h faults)) a d) /\
    forall l c v m n, r = Ok l -> In (c, v, m) l -> value (hw s1) c n ->
      (m = m_msr -> own (hw s1) c -> v = ENum n) /\ (m = m_sysfs -> me_cache env = false -> v = reading kind shown m_sysfs n).
  Proof.
    intros cpus mnames ops h faults r s1 Hh Eget. pose proof (history_fine _ Hh) as Hf.
    destruct (run_post ops Hf (ep_init h faults) (calm_init env sc h faults)) as (C0 & _).
    pose proof (get_vals_post env sc Hwf Hsc kind x epb Hok kn shown knows Hk cpus mnames _ C0) as G.
    unfold post in G. rewrite Eget in G. destruct r as [l|e].
    - destruct G as (_ & S & G). split; [exact S|]. intros l' c v m n [= <-] Hin V. destruct (G c v m Hin) as (_ & G1).
      eapply good_same in G1; [|exact S]. destruct G1 as (G1 & G2). split.
      + intros Em Ho. destruct (G1 Em Ho) as (n' & V' & ->). f_equal. eapply value_fun; eauto.
      + intros Em Ec. destruct (G2 Em Ec) as (n' & V' & ->). f_equal. eapply value_fun; eauto.
    - destruct G as (_ & S). split; [exact S|]. discriminate.
  Qed.
End EP.
