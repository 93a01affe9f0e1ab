(** Lemmas about EPP and EPB: calls that succeed, and what reading yields. *)
From Coq Require Import Ascii String QArith ZifyBool Permutation.
From Verif Require Import Base L_Base L_Monad M_CPUInfo S_CPUInfo L_CPUInfo L_CPUInfo2
  M_Text S_Text M_MSR S_MSR L_Bits L_MSR L_MSR2 L_MSR3 L_MSR4 L_MSR5 M_FMSR S_FMSR L_Text L_FMSR L_FMSR2 L_FMSR3 L_FMSR4 X_FMSR
  L_Sysfs M_HWP S_HWP L_Quiet L_OpTarget L_HWP L_HWP2 L_HWP3 L_HWP4 L_HWP5 M_Human S_Human L_Human L_Uncore3 L_Pure M_EP S_EP L_EP L_EP2 L_EP3 L_EP4 L_EP5.
Open Scope Z_scope.

Section EP.
  Variable env : menv.
  Notation dom := (me_dom env).
  Notation ci := (me_ci env).
  Notation online := (ci_online (me_ci env)).
  Hypothesis Hwf : wf_ci ci.
  Variable kind : epkind.
  Variable x : hwp.
  Variable epb : res freg.
  Variable kn : kern.
  Variable names : list str.
  Notation hw s := (ms_hw (es_m s)).
  Notation run := (erun env kind kn x epb names).

  Lemma normalized_nodup cpus l : normalize_cpus ci cpus false = Ok l -> NoDup l.
  Proof.
    destruct cpus as [l0|]; unfold normalize_cpus; intros E.
    - destruct (normalize_in_ok _ _ _ E) as (-> & _). apply NoDup_dedup.
    - injection E as <-. eapply Permutation_NoDup; [symmetry; apply zsort_perm|apply wf_online_nodup, Hwf].
  Qed.

  Lemma get_cpus_all m cpus : forall s l s', ep_get_cpus env kind kn x epb m cpus s = (Ok (l, false), s') ->
    map (fun e => fst (fst e)) l = cpus /\ forall e, In e l -> snd e = m.
  Proof.
    induction cpus as [|c t IH]; intros s l s'; cbn [ep_get_cpus]; unfold ret, mbind.
    - intros [= <- _]. split; [reflexivity|]. intros ? [].
    - destruct (ep_read env kind kn x epb m c s) as [[[v|]|e] s1]; [|discriminate|discriminate].
      destruct (ep_get_cpus env kind kn x epb m t s1) as [[[l1 b]|e] s2] eqn:E; [|discriminate]. intros [= <- -> _].
      destruct (IH _ _ _ E) as (I1 & I2). cbn [map fst]. rewrite I1. split; [reflexivity|]. intros e [<-|Hin]; [reflexivity|auto].
  Qed.

  (** Reading through one mechanism. *)
  Lemma ep_each_once cpus m s l s' : ep_get_vals env kind kn x epb cpus (Some [m]) s = (Ok l, s') ->
    NoDup (map (fun e => fst (fst e)) l) /\
    (forall c, In c (map (fun e => fst (fst e)) l) <-> In c (targets env cpus)) /\ forall e, In e l -> snd e = m.
  Proof.
    unfold ep_get_vals. unfold mbind at 1, lift at 1. destruct (ep_normalize_mnames (Some [m])) as [ms|e] eqn:Em; [|discriminate].
    assert (ms = [m]) as ->. { unfold ep_normalize_mnames in Em. destruct (forallb _ _); [|discriminate]. now injection Em as <-. }
    unfold mbind at 1, lift at 1. destruct (normalize_cpus ci cpus false) as [cl|e] eqn:El; [|discriminate].
    cbn [ep_get_loop]. unfold mbind at 1. destruct (ep_get_cpus env kind kn x epb m cl s) as [[[l1 b]|e] s1] eqn:E; [|discriminate].
    destruct cl as [|c0 t] eqn:Ecl; [discriminate|]. destruct b; [discriminate|]. unfold ret. intros [= <- _].
    destruct (get_cpus_all _ _ _ _ _ E) as (-> & I2). split; [eapply normalized_nodup; eauto|]. split; [|exact I2].
    intros c. apply (normalized_targets env cpus _ El).
  Qed.

  (** Setting through sysfs. *)
  Lemma siblings_ok c : In c online -> exists l, get_cpu_siblings ci c SCPU = Ok l.
  Proof. intros Hc. cbn [get_cpu_siblings]. apply (normalize_targets_ex env (Some [c])). cbn. intros y [<-|[]]; exact Hc. Qed.
  Lemma cache_add_ok c v s : In c online -> exists s', ep_cache_add env c v s = (Ok tt, s').
  Proof. intros Hc. unfold ep_cache_add. destruct (me_cache env); [|eexists; reflexivity]. destruct (siblings_ok c Hc) as (l & E). unfold mbind, lift. rewrite E. eexists; reflexivity. Qed.
  Lemma cache_remove_ok c s : In c online -> exists s', ep_cache_remove env c s = (Ok tt, s') /\ (me_cache env = true -> dget Z.eqb (es_cache s') c = None).
  Proof.
    intros Hc. unfold ep_cache_remove. destruct (me_cache env); [|eexists; split; [reflexivity|discriminate]]. destruct (siblings_ok c Hc) as (l & E).
    unfold mbind, lift. rewrite E. eexists. split; [reflexivity|]. intros _. cbn [es_cache es_set_cache]. apply dget_ddel_same.
  Qed.

  Lemma show_ok c s : ep_file_works kn c -> exists t, kn_show kn (hw s) c = Some t /\ ep_show kn c s = (Ok t, s).
  Proof.
    intros (_ & H). specialize (H (hw s)). unfold ep_show, mbind, gets. destruct (kn_show kn (hw s) c) as [t|]; [|congruence]. exists t. auto.
  Qed.

  Variable shown : Z -> str.
  Variable knows : Z -> str -> Z.
  Hypothesis Hk : kernel_ok env kind kn shown knows.

  Lemma read_sysfs_ok c s : In c online -> ep_file_works kn c -> (me_cache env = true -> dget Z.eqb (es_cache s) c <> Some None) ->
    exists v s', ep_read_sysfs env kind kn c s = (Ok (Some v), s').
  Proof.
    intros Hc Hw Hn. unfold ep_read_sysfs, ep_cached. unfold mbind at 1, gets at 1.
    assert (G : exists v s', (let! v := (if kn_exists kn c then let! t := ep_show kn c in let! v := lift (ep_parse kind t) in ret (Some v) else ret None) in
        ep_cache_add env c v ;; ret v) s = (Ok (Some v), s')).
    { destruct (show_ok c s Hw) as (t & Et & Es). destruct (shown_value env kind kn shown knows Hk _ _ _ Et) as (n & _ & _ & Hp).
      rewrite (proj1 Hw). unfold mbind, lift. rewrite Es, Hp. unfold ret. destruct (cache_add_ok c (Some (reading kind shown m_sysfs n)) s Hc) as (s1 & ->). eauto. }
    destruct (me_cache env); [|exact G]. destruct (dget Z.eqb (es_cache s) c) as [[v|]|]; [unfold ret; eauto|now destruct (Hn eq_refl)|exact G].
  Qed.

  Variable val : str.

  Lemma write_sysfs_ok c s : In c online -> ep_file_works kn c -> ep_file_takes kn val c -> (is_int val = true -> exists n, py_int val = Some n) ->
    exists s', ep_write_sysfs env kind kn val c s = (Ok tt, s').
  Proof.
    intros Hc Hw Ht Hi.
    assert (D : kind = EPP /\ ep_write_sysfs env kind kn val c = epp_write_sysfs env kn val c \/ kind = EPB /\ ep_write_sysfs env kind kn val c = epb_write_sysfs env kind kn val c)
      by (clear; unfold ep_write_sysfs; destruct kind; auto).
    destruct (cache_remove_ok c s Hc) as (s0 & Er & Hn).
    destruct D as [(Ek & ->) | (Ek & ->)]; unfold epp_write_sysfs, epb_write_sysfs; unfold mbind at 1; rewrite Er; rewrite (proj1 Hw); cbn [negb].
    - unfold mbind at 1, gets at 1. specialize (Ht (hw s0)). destruct (kn_store kn (hw s0) c val) as [h'|]; [|congruence].
      unfold mbind, gets, modify. cbn [ep_kernel]. unfold ep_kernel, modify. set (s1 := es_set_m (set_hw h' (es_m s0)) s0). clearbody s1.
      destruct (dget str_eqb (es_alias s1) val) as [v1|].
      + unfold ret. apply cache_add_ok; exact Hc.
      + destruct (show_ok c s1 Hw) as (t & _ & ->). unfold ret. apply cache_add_ok; exact Hc.
    - unfold mbind at 1. unfold mbind at 1, gets at 1. specialize (Ht (hw s0)). destruct (kn_store kn (hw s0) c val) as [h'|]; [|congruence].
      unfold ep_kernel, modify at 1. set (s1 := es_set_m (set_hw h' (es_m s0)) s0).
      assert (Hn1 : (if me_cache env then dget Z.eqb (es_cache s1) c else None) = None) by (cbn; destruct (me_cache env); [apply Hn|]; reflexivity). clearbody s1.
      destruct (is_int val) eqn:Ei; cbn [negb].
      + destruct (Hi eq_refl) as (n & ->). apply cache_add_ok; exact Hc.
      + assert (L : exists n s2, (let! v := ep_read_sysfs env kind kn c in
           match v with Some (ENum n) => modify (fun s0 => es_set_pol (dset str_eqb (es_pol s0) val n) s0) ;; ret n | _ => throw EValue end) s1 = (Ok n, s2)).
        { destruct (show_ok c s1 Hw) as (t & Et & Es). destruct (shown_value env kind kn shown knows Hk _ _ _ Et) as (n & _ & _ & Hp).
          assert (Hr : reading kind shown m_sysfs n = ENum n) by now rewrite Ek. rewrite Hr in Hp.
          unfold ep_read_sysfs, ep_cached, mbind, gets, lift, modify. rewrite Hn1, (proj1 Hw), Es, Hp. unfold ret.
          destruct (cache_add_ok c (Some (ENum n)) s1 Hc) as (s2 & ->). eauto. }
        unfold mbind at 1, gets. destruct L as (n & s2 & L). destruct (cache_add_ok c (Some (ENum n)) s2 Hc) as (s3 & E3).
        destruct (dget str_eqb (es_pol s1) val) as [[|p|p]|].
        * unfold mbind at 1. rewrite L. eauto.
        * unfold mbind, ret. apply cache_add_ok; exact Hc.
        * unfold mbind, ret. apply cache_add_ok; exact Hc.
        * unfold mbind at 1. rewrite L. eauto.
  Qed.

  Lemma set_cpus_ok cpus : (forall c, In c cpus -> In c online /\ ep_file_works kn c /\ ep_file_takes kn val c) ->
    (is_int val = true -> exists n, py_int val = Some n) ->
    forall cur s, exists cur' s', ep_set_cpus env kind kn x epb m_sysfs val cpus cur s = (Ok tt, cur', s').
  Proof.
    intros H Hi. induction cpus as [|c t IH]; intros cur s; cbn [ep_set_cpus]; [eauto|].
    destruct (H c ltac:(now left)) as (Hc & Hw & Ht). destruct (write_sysfs_ok c s Hc Hw Ht Hi) as (s1 & E).
    unfold ep_write. change (str_eqb m_sysfs m_sysfs) with true. cbn iota. rewrite E. apply IH. intros; apply H; now right.
  Qed.

  Lemma ep_set_works cpus mnames s : ep_acceptable kind names val ->
    (mnames = None \/ exists t, mnames = Some (m_sysfs :: t) /\ forall m, In m t -> m = m_sysfs \/ m = m_msr) ->
    (forall c, In c (targets env cpus) -> In c online /\ ep_file_works kn c /\ ep_file_takes kn val c) ->
    exists s', ep_set_vals env kind kn x epb names val cpus mnames s = (Ok m_sysfs, s').
  Proof.
    intros Ha Hm Hc. unfold ep_set_vals.
    assert (Ems : exists t, ep_normalize_mnames mnames = Ok (m_sysfs :: t)).
    { destruct Hm as [-> |(t & -> & Ht)]; [eexists; reflexivity|]. unfold ep_normalize_mnames.
      replace (forallb _ _) with true; [eexists; reflexivity|]. symmetry. apply forallb_forall. intros m [<-|Hin]; [reflexivity|].
      destruct (Ht m Hin) as [-> | ->]; reflexivity. }
    destruct Ems as (t & Ems). unfold mbind at 1, lift at 1. rewrite Ems.
    destruct (normalize_targets_ex env cpus ltac:(intros c Hin; apply (Hc c Hin))) as (l & El). unfold mbind, lift. rewrite El.
    cbn [ep_set_loop]. change (str_eqb m_sysfs m_sysfs) with true.
    assert (V : ep_validate kind names val true = Ok tt /\ (is_int val = true -> exists n, py_int val = Some n)).
    { unfold ep_validate. destruct Ha as [(n & Hf & ->)|(Ei & Hin)].
      - assert (Hp : 0 <= n) by apply Hf. rewrite (is_int_dec n Hp), (py_int_dec n Hp).
        assert (Hx : (n <? 0) || (ep_max kind <? n) = false) by (clear - Hf; destruct kind; unfold fits, field_width in Hf; cbn in Hf |- *; lia).
        rewrite Hx. split; eauto.
      - rewrite Ei. cbn [negb]. split; [|discriminate].
        replace (existsb (str_eqb val) (ep_names kind names)) with true; [reflexivity|]. symmetry. apply existsb_exists. exists val.
        split; [|now apply str_eqb_eq]. clear - Hin. unfold ep_names, epb_names. destruct kind; exact Hin. }
    destruct V as (-> & Hi).
    destruct (set_cpus_ok l ltac:(intros c Hin; apply Hc; now apply (normalized_targets env cpus l El)) Hi 0 s) as (cur' & s' & ->). eauto.
  Qed.

  (** Reading through sysfs. *)
  Hypothesis Hdom : forall c c', In c online -> In c' online -> dom (ep_addr kind) c = dom (ep_addr kind) c' -> c = c'.

  Lemma get_cpus_ok cpus : (forall c, In c cpus -> In c online /\ ep_file_works kn c) -> forall s, Known env kind kn shown knows s ->
    exists l s', ep_get_cpus env kind kn x epb m_sysfs cpus s = (Ok (l, false), s').
  Proof.
    induction cpus as [|c t IH]; intros H s K; cbn [ep_get_cpus]; [unfold ret; eauto|].
    destruct (H c ltac:(now left)) as (Hc & Hw). unfold mbind, ep_read. change (str_eqb m_sysfs m_sysfs) with true. cbn iota.
    destruct (read_sysfs_ok c s Hc Hw) as (v & s1 & E).
    { intros Em E. pose proof (kn_val _ _ _ _ _ _ K c None Hc Em E) as Hn. cbn [entry_ok] in Hn. rewrite (proj1 Hw) in Hn. discriminate. }
    pose proof (read_known env kind kn shown knows Hk c s Hc K) as P. unfold post in P. rewrite E in P |- *. destruct P as (K1 & _).
    destruct (IH ltac:(intros; apply H; now right) s1 K1) as (l & s2 & ->). unfold ret. eauto.
  Qed.

  Lemma get_vals_ok cpus mnames s : Known env kind kn shown knows s -> targets env cpus <> [] ->
    (mnames = None \/ exists t, mnames = Some (m_sysfs :: t) /\ forall m, In m t -> m = m_sysfs \/ m = m_msr) ->
    (forall c, In c (targets env cpus) -> In c online /\ ep_file_works kn c) ->
    exists l s', ep_get_vals env kind kn x epb cpus mnames s = (Ok l, s') /\ forall c, In c (targets env cpus) -> exists v, In (c, v, m_sysfs) l.
  Proof.
    intros K Hne Hm Hc. unfold ep_get_vals.
    assert (Ems : exists t, ep_normalize_mnames mnames = Ok (m_sysfs :: t)).
    { destruct Hm as [-> |(t & -> & Ht)]; [eexists; reflexivity|]. unfold ep_normalize_mnames.
      replace (forallb _ _) with true; [eexists; reflexivity|]. symmetry. apply forallb_forall. intros m [<-|Hin]; [reflexivity|].
      destruct (Ht m Hin) as [-> | ->]; reflexivity. }
    destruct Ems as (t & Ems). unfold mbind at 1, lift at 1. rewrite Ems.
    destruct (normalize_targets_ex env cpus ltac:(intros c Hin; apply (Hc c Hin))) as (l & El). unfold mbind at 1, lift. rewrite El.
    pose proof (normalized_targets env cpus l El) as Hl. cbn [ep_get_loop]. unfold mbind.
    destruct (get_cpus_ok l ltac:(intros c Hin; apply Hc; now apply Hl) s K) as (r & s' & E). rewrite E.
    destruct l as [|c0 l0] eqn:Ell.
    - exfalso. destruct (targets env cpus) as [|c1 t1] eqn:Et; [now apply Hne|]. apply (Hl c1). now left.
    - unfold ret. eexists _, _. split; [reflexivity|]. intros c Hin. apply Hl in Hin. destruct (get_cpus_all _ _ _ _ _ E) as (I1 & I2).
      rewrite <- I1 in Hin. apply in_map_iff in Hin. destruct Hin as ([[c' v] m] & <- & Hin). pose proof (I2 _ Hin) as Em. cbn in Em. subst m. eauto.
  Qed.
End EP.

Lemma ep_get_works : forall env kind x epb kn shown knows names,
  kernel_ok env kind kn shown knows ->
  forall ops h faults cpus mnames, ep_sysfs_history env kind knows ops ->
  targets env cpus <> [] ->
  (mnames = None \/ exists t, mnames = Some (m_sysfs :: t) /\ forall m, In m t -> m = m_sysfs \/ m = m_msr) ->
  (forall c, In c (targets env cpus) -> In c (ci_online (me_ci env)) /\ ep_file_works kn c) ->
  exists l s', ep_get_vals env kind kn x epb cpus mnames (erun env kind kn x epb names ops (ep_init h faults)) = (Ok l, s') /\
    forall c, In c (targets env cpus) -> exists v, In (c, v, m_sysfs) l.
Proof.
  intros env kind x epb kn shown knows names Hk ops h faults cpus mnames (Hdom & Huni & Hf) Hne Hm Hc.
  destruct (run_known env kind x epb kn shown knows Hk names Hdom Huni ops Hf (ep_init h faults) (Known_init _ _ _ _ _ h faults)) as (K0 & _).
  eapply get_vals_ok; eauto.
Qed.

Lemma C28_last_set_l : forall env sc kind x epb kn shown knows names,
  ep_system env sc kind x epb kn shown knows ->
  forall val cpus mnames ops ops2 h faults m s1 c n cpus' mnames' l s2 v m',
  ep_history env sc (ops ++ ESet val cpus mnames :: ops2) ->
  ep_set_vals env kind kn x epb names val cpus mnames (erun env kind kn x epb names ops (ep_init h faults)) = (Ok m, s1) ->
  In c (targets env cpus) -> (forall o, In o ops2 -> ~ ep_touches env kind c o) -> stands_for knows val m c n ->
  ep_get_vals env kind kn x epb cpus' mnames' (erun env kind kn x epb names ops2 s1) = (Ok l, s2) -> In (c, v, m') l ->
  (m' = s2l "msr"%string -> m = s2l "msr"%string \/ own_value env kind x (ms_hw (es_m s1)) c -> v = ENum n) /\
  (m' = s2l "sysfs"%string -> me_cache env = false -> v = reading kind shown (s2l "sysfs"%string) n).
Proof. intros env sc kind x epb kn shown knows names (H1 & H2 & H3 & H4 & H5). intros. eapply ep_last_set; eassumption. Qed.

Lemma C28_reads_l : forall env sc kind x epb kn shown knows names,
  ep_system env sc kind x epb kn shown knows ->
  forall cpus mnames ops h faults r s1,
  ep_history env sc ops ->
  let s := erun env kind kn x epb names ops (ep_init h faults) in
  ep_get_vals env kind kn x epb cpus mnames s = (r, s1) ->
  (forall a d, ms_hw (es_m s1) a d = ms_hw (es_m s) a d) /\
  forall l c v m n, r = Ok l -> In (c, v, m) l -> ep_value env kind (ms_hw (es_m s1)) c n ->
    (m = s2l "msr"%string -> own_value env kind x (ms_hw (es_m s1)) c -> v = ENum n) /\
    (m = s2l "sysfs"%string -> me_cache env = false -> v = reading kind shown (s2l "sysfs"%string) n).
Proof. intros env sc kind x epb kn shown knows names (H1 & H2 & H3 & H4 & H5) cpus mnames ops h faults r s1 Hh s E. subst s. eapply ep_get_right; eassumption. Qed.

Lemma C28_others_l : forall env sc kind x epb kn shown knows names,
  ep_system env sc kind x epb kn shown knows ->
  forall val cpus mnames ops h faults r s1,
  ep_history env sc (ops ++ [ESet val cpus mnames]) ->
  let s := erun env kind kn x epb names ops (ep_init h faults) in
  ep_set_vals env kind kn x epb names val cpus mnames s = (r, s1) ->
  (forall a d, a <> ep_addr kind -> ms_hw (es_m s1) a d = ms_hw (es_m s) a d) /\
  forall c, In c (ci_online (me_ci env)) -> ~ targeted env (ep_addr kind) cpus (me_dom env (ep_addr kind) c) ->
    ms_hw (es_m s1) (ep_addr kind) (me_dom env (ep_addr kind) c) = ms_hw (es_m s) (ep_addr kind) (me_dom env (ep_addr kind) c).
Proof. intros env sc kind x epb kn shown knows names (H1 & H2 & H3 & H4 & H5) val cpus mnames ops h faults r s1 Hh s E. subst s. eapply ep_set_frame; eassumption. Qed.

Lemma C28_each_once_l : forall env kind x epb kn, wf_ci (me_ci env) ->
  forall cpus m s l s', ep_get_vals env kind kn x epb cpus (Some [m]) s = (Ok l, s') ->
  NoDup (map (fun e => fst (fst e)) l) /\
  (forall c, In c (map (fun e => fst (fst e)) l) <-> In c (targets env cpus)) /\ forall e, In e l -> snd e = m.
Proof. intros. eapply ep_each_once; eassumption. Qed.

Lemma C28_set_works_l : forall env kind x epb kn shown knows names,
  kernel_ok env kind kn shown knows ->
  forall val cpus mnames s, ep_acceptable kind names val -> sysfs_first mnames ->
  (forall c, In c (targets env cpus) -> In c (ci_online (me_ci env)) /\ ep_file_works kn c /\ ep_file_takes kn val c) ->
  exists s', ep_set_vals env kind kn x epb names val cpus mnames s = (Ok (s2l "sysfs"%string), s').
Proof. intros. eapply ep_set_works; eassumption. Qed.

Lemma C28_rejected_l : forall env kind x epb kn names val cpus mnames s, ep_impossible kind names val ->
  exists e, ep_set_vals env kind kn x epb names val cpus mnames s = (Exn e, s).
Proof.
  intros env kind x epb kn names val cpus mnames s H.
  assert (V : forall b, exists e, ep_validate kind names val b = Exn e).
  { intros b. unfold ep_validate. destruct H as [(n & Ht & Hf)|(Ei & Hn)].
    - pose proof (py_int_text _ _ Ht) as E. unfold is_int. rewrite E.
      replace (match py_int0 val with Some _ => true | None => true end) with true by now destruct (py_int0 val).
      assert (Hx : (n <? 0) || (ep_max kind <? n) = true)
        by (destruct kind; unfold fits, field_width in Hf; cbn in Hf |- *; lia).
      rewrite Hx. eauto.
    - rewrite Ei. destruct b; cbn [negb]; [|eauto].
      replace (existsb (str_eqb val) (ep_names kind names)) with false; [eauto|].
      symmetry. apply not_true_iff_false. intros X. apply existsb_exists in X as (y & Hy & Ey).
      apply str_eqb_eq in Ey. subst y. apply Hn. unfold ep_names, epb_names in Hy. destruct kind; exact Hy. }
  unfold ep_set_vals, mbind, lift. destruct (ep_normalize_mnames mnames) as [ms|e]; [|eauto].
  destruct (normalize_cpus (me_ci env) cpus false) as [l|e]; [|eauto].
  induction ms as [|m t IH]; cbn [ep_set_loop]; [eauto|].
  destruct (V (str_eqb m m_sysfs)) as (e & ->). destruct e; eauto.
  destruct l as [|c0 l]; [eauto|]. destruct (0 =? c0); eauto.
Qed.
