(** Proofs about topology updates after CPU hotplug (C16). *)
From Verif Require Import Base L_Base M_CPUInfo S_CPUInfo L_CPUInfo L_CPUInfo2.
From Coq Require Import ZifyBool.

Record Inv (sys : system) (on : list Z) (ci : cpuinfo) : Prop := {
  iv_online : ci_online ci = on;
  iv_all : ci_all ci = sys_present sys;
  iv_nodup : NoDup (map t_cpu (filter (fun t => negb (t_cpu t =? NA)) (ci_topo ci)));
  iv_cpu : forall t, In t (ci_topo ci) -> cpu_line t -> In (t_cpu t) on /\ t = sys_line sys (t_cpu t);
  iv_in : forall c, In c on -> In (sys_line sys c) (ci_topo ci);
  iv_io : forall t, In t (ci_topo ci) -> ~ cpu_line t ->
    exists pd, t = io_tline pd /\ In pd (sys_uncore_dies sys) }.

Lemma filter_all {A} (f : A -> bool) l : (forall x, In x l -> f x = true) -> filter f l = l.
Proof.
  induction l as [|x t IH]; cbn [filter]; intros H; [reflexivity|].
  rewrite (H x) by now left. f_equal. apply IH. intros; apply H; now right.
Qed.

Lemma filter_none {A} (f : A -> bool) l : (forall x, In x l -> f x = false) -> filter f l = [].
Proof.
  induction l as [|x t IH]; cbn [filter]; intros H; [reflexivity|].
  rewrite (H x) by now left. apply IH. intros; apply H; now right.
Qed.

Lemma io_lines_filtered l : filter (fun t => negb (t_cpu t =? NA)) (map io_tline l) = [].
Proof.
  apply filter_none. intros t Ht. apply in_map_iff in Ht. destruct Ht as (pd & <- & _). cbn. lia.
Qed.

Lemma map_cpu_lines sys l :
  sys_ok sys -> incl l (sys_present sys) -> map t_cpu (map (sys_line sys) l) = l.
Proof.
  intros Hs Hi. rewrite map_map. rewrite <- (map_id l) at 2. apply map_ext_in.
  intros c Hc. apply (so_cpu sys Hs). auto.
Qed.

Lemma cpu_lines_filtered sys l :
  sys_ok sys -> incl l (sys_present sys) ->
  filter (fun t => negb (t_cpu t =? NA)) (map (sys_line sys) l) = map (sys_line sys) l.
Proof.
  intros Hs Hi. apply filter_all. intros t Ht. apply in_map_iff in Ht.
  destruct Ht as (c & <- & Hc). destruct (so_cpu sys Hs c) as (E & Hn); [auto|]. rewrite E. lia.
Qed.

Lemma io_dies_of_In sys comp pd :
  In pd (io_dies_of sys comp) <->
  In pd (sys_uncore_dies sys) /\ In (fst pd) (map fst comp) /\ ~ In pd comp.
Proof.
  unfold io_dies_of. rewrite filter_In, andb_true_iff, inb_In, negb_true_iff, pair_inb_false. tauto.
Qed.

Lemma init_inv sys on : sys_ok sys -> online_ok sys on -> Inv sys on (topo_init sys on).
Proof.
  intros Hs (Hnd & Hi). unfold topo_init. split; cbn [ci_topo ci_online ci_all]; auto.
  - rewrite filter_app, io_lines_filtered, app_nil_r, cpu_lines_filtered, map_cpu_lines; auto.
  - intros t Ht Hl. apply in_app_iff in Ht. destruct Ht as [Ht|Ht].
    + apply in_map_iff in Ht. destruct Ht as (c & <- & Hc).
      destruct (so_cpu sys Hs c) as (E & Hn); [auto|]. rewrite E. auto.
    + apply in_map_iff in Ht. destruct Ht as (pd & <- & _). exfalso. apply Hl. reflexivity.
  - intros c Hc. apply in_app_iff. left. now apply in_map.
  - intros t Ht Hl. apply in_app_iff in Ht. destruct Ht as [Ht|Ht].
    + exfalso. apply Hl. apply in_map_iff in Ht. destruct Ht as (c & <- & Hc).
      destruct (so_cpu sys Hs c) as (E & Hn); [auto|]. unfold cpu_line. congruence.
    + apply in_map_iff in Ht. destruct Ht as (pd & <- & Hpd). exists pd. split; [reflexivity|].
      apply io_dies_of_In in Hpd. tauto.
Qed.

Lemma update_inv sys on ci on' :
  sys_ok sys -> online_ok sys on' -> Inv sys on ci -> Inv sys on' (topo_update sys ci on').
Proof.
  intros Hs (Hnd & Hi) Hinv. unfold topo_update.
  assert (Hna : ~ In NA on').
  { intros H. apply Hi in H. now apply (so_cpu sys Hs) in H. }
  destruct (subsetb on' (map t_cpu (ci_topo ci)) && subsetb (map t_cpu (ci_topo ci)) on') eqn:E.
  - apply andb_true_iff in E. destruct E as (E1 & E2). apply subsetb_incl in E1, E2.
    assert (Hl : forall t, In t (ci_topo ci) -> cpu_line t).
    { intros t Ht Hc. apply Hna. rewrite <- Hc. apply E2. now apply in_map. }
    destruct Hinv as [I1 I2 I3 I4 I5 I6].
    split; cbn [ci_topo ci_online ci_all]; auto.
    + intros t Ht Hc. split; [apply E2; now apply in_map|]. now apply I4.
    + intros c Hc. apply E1 in Hc. apply in_map_iff in Hc. destruct Hc as (t & <- & Ht).
      destruct (I4 t Ht (Hl t Ht)) as (_ & <-). exact Ht.
  - set (added := minus on' (map t_cpu (ci_topo ci))).
    set (kept := filter (fun t => inb (t_cpu t) on') (ci_topo ci)).
    assert (Hadd : incl added (sys_present sys)).
    { intros c Hc. apply minus_In in Hc. apply Hi. tauto. }
    assert (Hkept : forall t, In t kept -> In t (ci_topo ci) /\ In (t_cpu t) on' /\ cpu_line t /\
                                           t = sys_line sys (t_cpu t)).
    { intros t Ht. apply filter_In in Ht. destruct Ht as (Ht & Hc). apply inb_In in Hc.
      assert (Hl : cpu_line t). { intros En. apply Hna. now rewrite <- En. }
      repeat split; auto. now apply (iv_cpu _ _ _ Hinv t Ht). }
    split; cbn [ci_topo ci_online ci_all]; auto.
    + apply Hinv.
    + rewrite !filter_app, io_lines_filtered, app_nil_r, cpu_lines_filtered, map_app, map_cpu_lines
        by auto.
      apply NoDup_app_disj.
      * now apply NoDup_minus.
      * pose proof (iv_nodup _ _ _ Hinv) as H3. clear -H3. revert H3. unfold kept.
        generalize (ci_topo ci) as l. induction l as [|t l IH]; [auto|]. cbn [filter].
        destruct (negb (t_cpu t =? NA)) eqn:E1; cbn [map]; intros H.
        -- inversion H as [|? ? Hni Hnd]; subst. destruct (inb (t_cpu t) on'); [|auto].
           cbn [filter]. rewrite E1. cbn [map]. constructor; [|auto].
           intros Hin. apply Hni. apply in_map_iff in Hin. destruct Hin as (u & Eu & Hu).
           rewrite <- Eu. apply in_map. rewrite !filter_In in *. tauto.
        -- destruct (inb (t_cpu t) on'); [|auto]. cbn [filter]. rewrite E1. auto.
      * intros c Hc Ha. apply minus_In in Ha. apply (proj2 Ha).
        apply in_map_iff in Hc. destruct Hc as (t & <- & Ht). apply filter_In in Ht.
        apply in_map. apply Hkept. tauto.
    + intros t Ht Hl. rewrite !in_app_iff in Ht. destruct Ht as [Ht|[Ht|Ht]].
      * apply in_map_iff in Ht. destruct Ht as (c & <- & Hc).
        destruct (so_cpu sys Hs c) as (Ec & _); [auto|]. rewrite Ec. split; [|reflexivity].
        apply minus_In in Hc. tauto.
      * destruct (Hkept t Ht) as (? & ? & ? & ?). auto.
      * apply in_map_iff in Ht. destruct Ht as (pd & <- & _). exfalso. apply Hl. reflexivity.
    + intros c Hc. rewrite !in_app_iff.
      destruct (in_dec Z.eq_dec c (map t_cpu (ci_topo ci))) as [Hin|Hni].
      * right. left. apply in_map_iff in Hin. destruct Hin as (t & <- & Ht).
        assert (Hl : cpu_line t). { intros En. apply Hna. now rewrite <- En. }
        destruct (iv_cpu _ _ _ Hinv t Ht Hl) as (_ & <-).
        apply filter_In. split; [exact Ht|now apply inb_In].
      * left. apply in_map. apply minus_In. auto.
    + intros t Ht Hl. rewrite !in_app_iff in Ht. destruct Ht as [Ht|[Ht|Ht]].
      * exfalso. apply Hl. apply in_map_iff in Ht. destruct Ht as (c & <- & Hc).
        destruct (so_cpu sys Hs c) as (Ec & Hn); [auto|]. unfold cpu_line. congruence.
      * destruct (Hkept t Ht) as (? & ? & ? & ?). contradiction.
      * apply in_map_iff in Ht. destruct Ht as (pd & <- & Hpd). exists pd. split; [reflexivity|].
        apply io_dies_of_In in Hpd. tauto.
Qed.

Lemma inv_wf sys on ci : sys_ok sys -> online_ok sys on -> Inv sys on ci -> wf_ci ci.
Proof.
  intros Hs (Hnd & Hi) [I1 I2 I3 I4 I5 I6]. split; auto.
  - intros t Ht Hl. destruct (I4 t Ht Hl) as (Hon & Et). rewrite Et. apply (so_filled sys Hs). auto.
  - intros t Ht Hl. destruct (I6 t Ht Hl) as (pd & -> & Hpd).
    destruct (so_uncore sys Hs pd Hpd). cbn. auto.
  - intros c. rewrite I1. split.
    + intros Hc. exists (sys_line sys c). destruct (so_cpu sys Hs c) as (E & Hn); [auto|].
      repeat split; auto. unfold cpu_line. congruence.
    + intros (t & Ht & Hl & <-). now apply I4.
  - now rewrite I1.
  - rewrite I2. apply (so_nodup sys Hs).
  - rewrite I1, I2. exact Hi.
  - rewrite I2. intros H. now apply (so_cpu sys Hs) in H.
Qed.

Lemma after_hotplug_inv sys hist : forall on,
  sys_ok sys -> online_ok sys on -> Forall (online_ok sys) hist ->
  Inv sys (last_online on hist) (after_hotplug sys on hist) /\ online_ok sys (last_online on hist).
Proof.
  intros on Hs Hon Hh. unfold after_hotplug.
  assert (H : Inv sys on (topo_init sys on)) by now apply init_inv.
  revert H. generalize (topo_init sys on) as ci. revert on Hon.
  induction Hh as [|h t Hh1 Hh2 IH]; intros on Hon ci H; cbn [fold_left last_online]; [auto|].
  apply IH; [exact Hh1|]. eapply update_inv; eauto.
Qed.

Lemma hotplug_wf_l sys on hist :
  sys_ok sys -> online_ok sys on -> Forall (online_ok sys) hist -> wf_ci (after_hotplug sys on hist).
Proof.
  intros Hs Hon Hh. destruct (after_hotplug_inv sys hist on Hs Hon Hh) as (H1 & H2).
  eapply inv_wf; eauto.
Qed.

Lemma hotplug_lines_l sys on hist :
  sys_ok sys -> online_ok sys on -> Forall (online_ok sys) hist ->
  let ci := after_hotplug sys on hist in
  ci_online ci = last_online on hist /\
  (forall c, In c (last_online on hist) -> get_cpu_tline ci c = Ok (sys_line sys c)) /\
  (forall c, c <> NA -> ~ In c (last_online on hist) -> exists e, get_cpu_tline ci c = Exn e) /\
  (forall t, In t (ci_topo ci) -> cpu_line t -> In (t_cpu t) (last_online on hist)) /\
  NoDup (map t_cpu (filter (fun t => negb (t_cpu t =? NA)) (ci_topo ci))).
Proof.
  intros Hs Hon Hh ci. subst ci.
  destruct (after_hotplug_inv sys hist on Hs Hon Hh) as (H1 & H2).
  pose proof (inv_wf _ _ _ Hs H2 H1) as Hwf. set (ci := after_hotplug sys on hist) in *.
  split; [apply H1|]. split; [|split; [|split]].
  - intros c Hc. rewrite <- (iv_online _ _ _ H1) in Hc.
    destruct (get_cpu_tline_ok ci c Hwf Hc) as (t & E & Ht & Hl & Ec).
    rewrite E. f_equal. rewrite <- Ec. now apply (iv_cpu _ _ _ H1).
  - intros c Hna Hc. unfold get_cpu_tline. destruct (find _ _) as [t|] eqn:E; [|eauto].
    exfalso. apply find_some in E. destruct E as (Ht & Ec). apply get_topology_In in Ht.
    apply Z.eqb_eq in Ec. apply Hc. rewrite Ec. apply (iv_cpu _ _ _ H1 t Ht).
    unfold cpu_line. congruence.
  - intros t Ht Hl. now apply (iv_cpu _ _ _ H1).
  - apply H1.
Qed.

(** Equal to what a fresh object would answer. *)
Lemma same_unit_transfer sys on ci ci' s a b :
  Inv sys on ci -> Inv sys on ci' ->
  same_unit (ci_topo ci) s a b -> same_unit (ci_topo ci') s a b.
Proof.
  intros H H' (t & u & Ht & Hu & Hl & Hul & E1 & E2 & E).
  destruct (iv_cpu _ _ _ H t Ht Hl) as (Hc & Et). destruct (iv_cpu _ _ _ H u Hu Hul) as (Hc2 & Eu).
  exists t, u. repeat split; auto.
  - rewrite Et. now apply (iv_in _ _ _ H').
  - rewrite Eu. now apply (iv_in _ _ _ H').
Qed.

Lemma inv_modules_unique sys on ci :
  online_ok sys on -> Inv sys on ci -> sys_modules_unique sys -> modules_unique (ci_topo ci).
Proof.
  intros (_ & Hi) H Hm t u Ht Hu Hl Hul E.
  destruct (iv_cpu _ _ _ H t Ht Hl) as (Hc & Et). destruct (iv_cpu _ _ _ H u Hu Hul) as (Hc2 & Eu).
  rewrite Et, Eu. apply Hm; auto. congruence.
Qed.

Lemma hotplug_siblings_l sys on hist c s :
  sys_ok sys -> online_ok sys on -> Forall (online_ok sys) hist ->
  (s = SModule -> sys_modules_unique sys) ->
  In c (last_online on hist) ->
  get_cpu_siblings (after_hotplug sys on hist) c s =
  get_cpu_siblings (topo_init sys (last_online on hist)) c s.
Proof.
  intros Hs Hon Hh Hm Hc.
  destruct (after_hotplug_inv sys hist on Hs Hon Hh) as (H1 & H2).
  pose proof (init_inv sys _ Hs H2) as H1'.
  pose proof (inv_wf _ _ _ Hs H2 H1) as Hwf. pose proof (inv_wf _ _ _ Hs H2 H1') as Hwf'.
  destruct (siblings_spec_l _ c s Hwf) as (l & E & S & I).
  { intros Es. eapply inv_modules_unique; eauto. } { now rewrite (iv_online _ _ _ H1). }
  destruct (siblings_spec_l _ c s Hwf') as (l' & E' & S' & I').
  { intros Es. eapply inv_modules_unique; eauto. } { exact Hc. }
  rewrite E, E'. f_equal. apply sorted_lt_ext; auto.
  intros x. rewrite I, I'. split; eapply same_unit_transfer; eauto.
Qed.

Lemma add_compute_In sys cpus comp pd :
  In pd (add_compute sys cpus comp) <->
  In pd comp \/ exists c, In c cpus /\ pd = (t_pkg (sys_line sys c), t_die (sys_line sys c)).
Proof.
  unfold add_compute. revert comp. induction cpus as [|c t IH]; intros comp; cbn [fold_left].
  - split; [auto|]. intros [H|(c & [] & _)]. exact H.
  - rewrite IH. destruct (pair_inb _ comp) eqn:E.
    + apply pair_inb_In in E. split.
      * intros [H|(x & Hx & ->)]; [auto|]. right. exists x. split; [now right|reflexivity].
      * intros [H|(x & [<-|Hx] & ->)]; eauto.
    + rewrite in_app_iff. cbn [In]. split.
      * intros [[H|[<-|[]]]|(x & Hx & ->)]; eauto.
      * intros [H|(x & [<-|Hx] & ->)]; eauto.
Qed.

Record InvD (sys : system) (ci : cpuinfo) : Prop := {
  id_comp : forall c, In c (sys_present sys) ->
    In (t_pkg (sys_line sys c), t_die (sys_line sys c)) (ci_comp ci);
  id_comp2 : forall pd, In pd (ci_comp ci) -> exists c, In c (sys_present sys) /\
    pd = (t_pkg (sys_line sys c), t_die (sys_line sys c));
  id_io : forall pd, In pd (ci_io ci) -> ~ In pd (ci_comp ci);
  id_line : forall t, In t (ci_topo ci) -> ~ cpu_line t -> In (t_pkg t, t_die t) (ci_io ci) }.

Lemma init_invd sys on :
  sys_ok sys -> online_ok sys on -> dies_covered sys on -> InvD sys (topo_init sys on).
Proof.
  intros Hs (Hnd & Hi) Hcov. unfold topo_init. split; cbn [ci_comp ci_io ci_topo].
  - intros c Hc. apply add_compute_In. right. destruct (Hcov c Hc) as (x & Hx & E1 & E2).
    exists x. split; [auto|]. now rewrite E1, E2.
  - intros pd Hpd. apply add_compute_In in Hpd. destruct Hpd as [[]|(c & Hc & ->)]. eauto.
  - intros pd Hpd. apply io_dies_of_In in Hpd. tauto.
  - intros t Ht Hl. apply in_app_iff in Ht. destruct Ht as [Ht|Ht].
    + exfalso. apply Hl. apply in_map_iff in Ht. destruct Ht as (c & <- & Hc).
      destruct (so_cpu sys Hs c) as (E & Hn); [auto|]. unfold cpu_line. congruence.
    + apply in_map_iff in Ht. destruct Ht as (pd & <- & Hpd). cbn.
      now rewrite <- surjective_pairing.
Qed.

Lemma set_union_In l m x : In x (set_union l m) <-> In x l \/ In x m.
Proof.
  unfold set_union. rewrite in_app_iff, filter_In, negb_true_iff, pair_inb_false.
  split; [tauto|]. intros [H|H]; [auto|].
  destruct (pair_inb x l) eqn:E; [apply pair_inb_In in E; auto|apply pair_inb_false in E; auto].
Qed.

Lemma update_invd sys on ci on' :
  sys_ok sys -> online_ok sys on' -> Inv sys on ci -> InvD sys ci ->
  InvD sys (topo_update sys ci on').
Proof.
  intros Hs (Hnd & Hi) Hinv [D1 D2 D3 D4]. unfold topo_update. destruct (_ && _) eqn:E.
  { split; cbn [ci_comp ci_io ci_topo]; auto. }
  split; cbn [ci_comp ci_io ci_topo].
  - intros c Hc. apply add_compute_In. auto.
  - intros pd Hpd. apply add_compute_In in Hpd. destruct Hpd as [Hpd|(c & Hc & ->)]; [auto|].
    exists c. split; [|reflexivity]. apply Hi. apply minus_In in Hc. tauto.
  - intros pd Hpd. apply set_union_In in Hpd. destruct Hpd as [Hpd|Hpd].
    + intros Hc. apply add_compute_In in Hc. destruct Hc as [Hc|(c & Hc & ->)].
      * now apply (D3 pd).
      * apply (D3 _ Hpd). apply D1. apply Hi. apply minus_In in Hc. tauto.
    + apply io_dies_of_In in Hpd. tauto.
  - intros t Ht Hl. apply set_union_In. rewrite !in_app_iff in Ht. destruct Ht as [Ht|[Ht|Ht]].
    + exfalso. apply Hl. apply in_map_iff in Ht. destruct Ht as (c & <- & Hc).
      apply minus_In in Hc.
      destruct (so_cpu sys Hs c) as (Ec & Hn); [now apply Hi|]. unfold cpu_line. congruence.
    + left. apply filter_In in Ht. now apply D4.
    + right. apply in_map_iff in Ht. destruct Ht as (pd & <- & Hpd). cbn.
      now rewrite <- surjective_pairing.
Qed.

Lemma hotplug_io_exact_l sys on hist :
  sys_ok sys -> online_ok sys on -> Forall (online_ok sys) hist -> dies_covered sys on ->
  io_dies_exact (after_hotplug sys on hist).
Proof.
  intros Hs Hon Hh Hcov.
  assert (H : exists on', online_ok sys on' /\ Inv sys on' (after_hotplug sys on hist) /\
                          InvD sys (after_hotplug sys on hist)).
  { unfold after_hotplug.
    assert (H1 : Inv sys on (topo_init sys on)) by now apply init_inv.
    assert (H2 : InvD sys (topo_init sys on)) by now apply init_invd.
    clear Hcov. revert H1 H2. generalize (topo_init sys on) as ci. revert on Hon.
    induction Hh as [|h t Hh1 Hh2 IH]; intros on Hon ci H1 H2; cbn [fold_left]; [eauto|].
    apply (IH h Hh1); [eapply update_inv; eauto|eapply update_invd; eauto]. }
  destruct H as (on' & (_ & Hi) & H1 & [D1 D2 D3 D4]).
  intros pd (t & Ht & Ep & Ed). split.
  - intros Hio (c & u & Hu & Hul & Ec & Eup & Eud). apply (D3 pd Hio).
    destruct (iv_cpu _ _ _ H1 u Hu Hul) as (Hon' & Eu).
    assert (Epd : pd = (t_pkg u, t_die u)) by (destruct pd; cbn in *; congruence).
    rewrite Epd, Eu. apply D1. auto.
  - intros Hno. destruct (Z.eq_dec (t_cpu t) NA) as [En|Hn].
    + assert (Epd : pd = (t_pkg t, t_die t)) by (destruct pd; cbn in *; congruence).
      rewrite Epd. apply D4; [exact Ht|]. unfold cpu_line. lia.
    + exfalso. apply Hno. exists (t_cpu t), t. auto.
Qed.
