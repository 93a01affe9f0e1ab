(** Proofs about the CPU topology model. *)
From Verif Require Import Base L_Base M_CPUInfo S_CPUInfo.
From Coq Require Import ZifyBool.

(** ** Generic list facts *)

Lemma StronglySorted_filter {A} (R : A -> A -> Prop) f l :
  StronglySorted R l -> StronglySorted R (filter f l).
Proof.
  induction 1 as [|x t Ht IH Hall]; cbn [filter]; [constructor|].
  destruct (f x); [|exact IH].
  constructor; [exact IH|].
  rewrite Forall_forall in *. intros y Hy. apply filter_In in Hy. apply Hall. tauto.
Qed.

Lemma StronglySorted_impl {A} (R R' : A -> A -> Prop) l :
  (forall x y, In x l -> In y l -> R x y -> R' x y) -> StronglySorted R l -> StronglySorted R' l.
Proof.
  intros H Hs. induction Hs as [|x t Ht IH Hall]; [constructor|].
  constructor.
  - apply IH. intros a b Ha Hb. apply H; now right.
  - rewrite Forall_forall in *. intros y Hy. apply H; [now left | now right | auto].
Qed.

Lemma first_idx_notin x y l : x <> y -> first_idx y (x :: l) = S (first_idx y l).
Proof. intros H. cbn [first_idx]. destruct (Z.eqb_spec y x); congruence. Qed.

Lemma dedup_in_order l : in_order_of l (dedup l).
Proof.
  unfold in_order_of, dedup. induction l as [|x t IH]; cbn [list_dedup]; [constructor|].
  constructor.
  - apply (StronglySorted_filter _ (fun y => negb (x =? y))) in IH.
    eapply StronglySorted_impl; [|exact IH].
    intros a b Ha Hb Hlt. apply filter_In in Ha, Hb. cbn beta in *.
    rewrite !first_idx_notin by lia. lia.
  - rewrite Forall_forall. intros y Hy. apply filter_In in Hy. cbn beta in *.
    rewrite (first_idx_notin x y) by lia. cbn [first_idx]. rewrite Z.eqb_refl. lia.
Qed.

Lemma in_order_filter l r f : in_order_of l r -> in_order_of l (filter f r).
Proof. apply StronglySorted_filter. Qed.

Lemma in_order_NoDup l r : in_order_of l r -> NoDup r.
Proof.
  unfold in_order_of. induction 1 as [|x t Ht IH Hall]; constructor; [|exact IH].
  intros Hx. rewrite Forall_forall in Hall. specialize (Hall x Hx). lia.
Qed.

Lemma sorted_lt_NoDup l : StronglySorted Z.lt l -> NoDup l.
Proof.
  induction 1 as [|x t Ht IH Hall]; constructor; [|exact IH].
  intros Hx. rewrite Forall_forall in Hall. specialize (Hall x Hx). lia.
Qed.

Lemma sorted_le_NoDup_lt l : StronglySorted Z.le l -> NoDup l -> StronglySorted Z.lt l.
Proof.
  induction 1 as [|x t Ht IH Hall]; intros Hnd; [constructor|].
  inversion Hnd as [|? ? Hni Hnd']; subst. constructor; [auto|].
  rewrite Forall_forall in *. intros y Hy. specialize (Hall y Hy).
  assert (x <> y) by congruence. lia.
Qed.

Lemma sorted_lt_ext l m :
  StronglySorted Z.lt l -> StronglySorted Z.lt m -> (forall x, In x l <-> In x m) -> l = m.
Proof.
  intros Hl. revert m. induction Hl as [|x t Ht IH Hall]; intros m Hm Hext.
  - destruct m as [|y m]; [reflexivity|]. exfalso. apply (Hext y). now left.
  - inversion Hm as [|y m' Hm' Hallm]; subst.
    + exfalso. apply (Hext x). now left.
    + rewrite Forall_forall in Hall, Hallm.
      assert (x = y).
      { destruct (proj1 (Hext x) (or_introl eq_refl)) as [|Hx]; [auto|].
        destruct (proj2 (Hext y) (or_introl eq_refl)) as [|Hy]; [auto|].
        specialize (Hallm x Hx). specialize (Hall y Hy). lia. }
      subst y. f_equal. apply IH; [exact Hm'|].
      intros z. specialize (Hext z). cbn [In] in Hext. split; intros Hz.
      * destruct (proj1 Hext (or_intror Hz)) as [->|]; [|auto].
        specialize (Hall z Hz). lia.
      * destruct (proj2 Hext (or_intror Hz)) as [->|]; [|auto].
        specialize (Hallm z Hz). lia.
Qed.

Lemma dedup_sorted l : StronglySorted Z.le l -> StronglySorted Z.lt (dedup l).
Proof.
  intros H. apply sorted_le_NoDup_lt; [|apply NoDup_dedup].
  unfold dedup. induction H as [|x t Ht IH Hall]; cbn [list_dedup]; [constructor|].
  constructor.
  - now apply StronglySorted_filter.
  - rewrite Forall_forall in *. intros y Hy. apply filter_In in Hy.
    apply Hall. apply (list_dedup_In Z.eqb Zeqb_spec). tauto.
Qed.

Lemma StronglySorted_map {A B} (R : B -> B -> Prop) (f : A -> B) l :
  StronglySorted (fun x y => R (f x) (f y)) l -> StronglySorted R (map f l).
Proof.
  induction 1 as [|x t Ht IH Hall]; cbn [map]; constructor; [exact IH|].
  rewrite Forall_forall in *. intros y Hy. apply in_map_iff in Hy.
  destruct Hy as (z & <- & Hz). auto.
Qed.

(** ** The topology table *)

Lemma get_topology_In ci o t : In t (get_topology ci o) <-> In t (ci_topo ci).
Proof. apply sort_by_In. Qed.

Lemma get_topology_sorted ci o :
  StronglySorted (fun a b => lexleb (tkey o a) (tkey o b) = true) (get_topology ci o).
Proof.
  apply (sort_by_sorted (fun a b => lexleb (tkey o a) (tkey o b))).
  - intros x y. apply lexleb_total.
  - intros x y z. apply lexleb_trans.
Qed.

Lemma topo_cpu_sorted ci : StronglySorted (fun a b => t_cpu a <= t_cpu b) (get_topology ci LCPU).
Proof.
  eapply StronglySorted_impl; [|apply get_topology_sorted].
  intros x y _ _ H. cbn in H. destruct (Z.ltb_spec (t_cpu x) (t_cpu y)); [lia|].
  destruct (Z.eqb_spec (t_cpu x) (t_cpu y)); [lia|discriminate].
Qed.

(** Characterisation of [get_level_nums]. *)
Lemma get_level_nums_ok ci sub lvl nums o r :
  get_level_nums ci sub lvl nums o = Ok r ->
  NoDup r /\
  (forall x, In x r <-> exists t, In t (ci_topo ci) /\ lget lvl t <> NA /\ lget sub t <> NA /\
                                  lget sub t = x /\ nums_has nums (lget lvl t)) /\
  (forall l, nums = Some l -> forall x, In x l -> exists t, In t (ci_topo ci) /\ lget lvl t <> NA /\
                                                           lget lvl t = x) /\
  (sub = LCPU -> o = LCPU -> StronglySorted Z.lt r).
Proof.
  unfold get_level_nums. destruct (lidx lvl <? lidx sub); [discriminate|].
  set (rows := filter (fun t => negb (lget lvl t =? NA)) (get_topology ci o)).
  set (sel := filter (fun t => negb (lget sub t =? NA) &&
                               match nums with None => true | Some l => inb (lget lvl t) l end)
                     rows).
  intros H.
  assert (Hr : r = dedup (map (lget sub) sel)).
  { destruct nums as [l|]; [destruct (subsetb l (map (lget lvl) rows))|]; congruence. }
  subst r. repeat split.
  - apply NoDup_dedup.
  - rewrite dedup_In, in_map_iff. intros (t & <- & Ht).
    unfold sel, rows in Ht. rewrite !filter_In, get_topology_In in Ht.
    destruct Ht as ((Ht & Hl) & Hs). apply andb_true_iff in Hs. destruct Hs as (Hs & Hn).
    exists t. repeat split; auto; try lia.
    destruct nums; cbn; [now apply inb_In|exact I].
  - intros (t & Ht & Hl & Hs & <- & Hn). rewrite dedup_In. apply in_map.
    unfold sel, rows. rewrite !filter_In, get_topology_In. repeat split; auto; [lia|].
    apply andb_true_iff. split; [lia|]. destruct nums; [now apply inb_In|reflexivity].
  - intros l -> x Hx. destruct (subsetb l (map (lget lvl) rows)) eqn:E; [|discriminate].
    apply subsetb_incl in E. apply E in Hx. apply in_map_iff in Hx.
    destruct Hx as (t & <- & Ht). unfold rows in Ht. rewrite filter_In, get_topology_In in Ht.
    exists t. repeat split; [tauto|lia].
  - intros -> ->. apply dedup_sorted. apply StronglySorted_map.
    unfold sel, rows. apply StronglySorted_filter, StronglySorted_filter, topo_cpu_sorted.
Qed.

Lemma get_level_nums_succeeds ci sub lvl nums o :
  lidx sub <= lidx lvl ->
  (forall l, nums = Some l -> forall x, In x l -> exists t, In t (ci_topo ci) /\ lget lvl t <> NA /\
                                                           lget lvl t = x) ->
  exists r, get_level_nums ci sub lvl nums o = Ok r.
Proof.
  intros Hidx Hv. unfold get_level_nums.
  destruct (Z.ltb_spec (lidx lvl) (lidx sub)); [lia|].
  destruct nums as [l|]; [|eauto].
  replace (subsetb l _) with true; [eauto|].
  symmetry. apply subsetb_incl. intros x Hx.
  destruct (Hv l eq_refl x Hx) as (t & Ht & Hn & <-).
  apply in_map. rewrite filter_In, get_topology_In. split; [auto|lia].
Qed.

(** ** Normalisation (C10) *)

Lemma normalize_in_ok avail l r :
  normalize_in avail l = Ok r ->
  r = dedup l /\ forall x, In x l -> In x avail.
Proof.
  unfold normalize_in. destruct (forallb _ _) eqn:E; [|discriminate].
  intros [= <-]. split; [reflexivity|]. rewrite forallb_forall in E.
  intros x Hx. apply inb_In, E, dedup_In, Hx.
Qed.

Lemma normalize_in_fails avail l :
  (exists e, normalize_in avail l = Exn e) <-> exists x, In x l /\ ~ In x avail.
Proof.
  unfold normalize_in. destruct (forallb _ _) eqn:E.
  - split; [intros (e & He); discriminate|].
    intros (x & Hx & Hn). exfalso. apply Hn. rewrite forallb_forall in E.
    apply inb_In, E, dedup_In, Hx.
  - split; [|eauto]. intros _.
    assert (H : ~ forall x, In x (dedup l) -> inb x avail = true).
    { intros H. apply forallb_forall in H. congruence. }
    clear E. assert (Hd : forall x, In x (dedup l) -> In x l) by (intros; now apply dedup_In).
    revert H Hd. generalize (dedup l) as d. induction d as [|y d IH]; intros H Hd.
    + exfalso. apply H. intros x [].
    + destruct (inb y avail) eqn:E.
      * apply IH; [|intros; apply Hd; now right].
        intros Hall. apply H. intros x [<-|Hx]; auto.
      * exists y. split; [apply Hd; now left|now apply inb_false].
Qed.

Lemma normalize_in_succeeds avail l :
  (forall x, In x l -> In x avail) -> normalize_in avail l = Ok (dedup l).
Proof.
  intros H. destruct (normalize_in avail l) as [r|e] eqn:E.
  - now destruct (normalize_in_ok _ _ _ E) as (-> & _).
  - destruct (proj1 (normalize_in_fails avail l) (ex_intro _ e E)) as (x & Hx & Hn).
    exfalso. auto.
Qed.

Lemma normalize_cpus_ok_l ci l off r :
  normalize_cpus ci (Some l) off = Ok r ->
  (forall x, In x r <-> In x l) /\ (forall x, In x r -> available ci off x) /\ in_order_of l r.
Proof.
  unfold normalize_cpus. intros H.
  destruct (normalize_in_ok _ _ _ H) as (-> & Hav). repeat split.
  - apply dedup_In.
  - apply dedup_In.
  - intros x Hx. rewrite dedup_In in Hx. apply Hav in Hx. unfold available. now destruct off.
  - apply dedup_in_order.
Qed.

Lemma normalize_cpus_fails_l ci l off :
  (exists e, normalize_cpus ci (Some l) off = Exn e) <-> exists x, In x l /\ ~ available ci off x.
Proof.
  unfold normalize_cpus. rewrite normalize_in_fails. unfold available. now destruct off.
Qed.

Lemma normalize_cpus_all_l ci off :
  wf_ci ci ->
  exists r, normalize_cpus ci None off = Ok r /\ StronglySorted Z.lt r /\
            forall x, In x r <-> available ci off x.
Proof.
  intros Hwf. unfold normalize_cpus. eexists. split; [reflexivity|]. split.
  - apply sorted_le_NoDup_lt; [apply zsort_sorted|].
    eapply Permutation_NoDup; [symmetry; apply zsort_perm|].
    destruct off; [apply wf_all_nodup|apply wf_online_nodup]; exact Hwf.
  - intros x. rewrite zsort_In. unfold available. now destruct off.
Qed.

(** ** Lines of CPUs *)

Lemma cpu_line_unique ci t u :
  wf_ci ci -> In t (ci_topo ci) -> In u (ci_topo ci) -> cpu_line t -> t_cpu t = t_cpu u -> t = u.
Proof.
  intros Hwf Ht Hu Hc E. pose proof (wf_cpus_nodup ci Hwf) as Hnd.
  revert Hnd Ht Hu. generalize (ci_topo ci) as l.
  induction l as [|a l IH]; cbn [filter]; [intros _ []|].
  destruct (Z.eqb_spec (t_cpu a) NA) as [Ha|Ha]; cbn [negb].
  - intros Hnd [->|Ht] [->|Hu]; auto; exfalso; unfold cpu_line in Hc; congruence.
  - cbn [map]. intros Hnd. inversion Hnd as [|? ? Hni Hnd']; subst.
    assert (Hin : forall v, In v l -> t_cpu v = t_cpu a -> False).
    { intros v Hv Ev. apply Hni. rewrite <- Ev. apply in_map. rewrite filter_In.
      split; [exact Hv|]. rewrite Ev. lia. }
    intros [->|Ht] [->|Hu]; auto; exfalso; eapply Hin; eauto.
Qed.

Lemma get_cpu_tline_ok ci c :
  wf_ci ci -> In c (ci_online ci) ->
  exists t, get_cpu_tline ci c = Ok t /\ In t (ci_topo ci) /\ cpu_line t /\ t_cpu t = c.
Proof.
  intros Hwf Hc. apply (wf_online ci Hwf) in Hc. destruct Hc as (t & Ht & Hl & E).
  unfold get_cpu_tline. destruct (find _ _) as [u|] eqn:Ef.
  - apply find_some in Ef. destruct Ef as (Hu & Eu). apply get_topology_In in Hu.
    apply Z.eqb_eq in Eu. exists u. repeat split; auto. unfold cpu_line in *. congruence.
  - exfalso. apply get_topology_In with (o := LCPU) in Ht.
    pose proof (find_none _ _ Ef t Ht) as Hn. cbn in Hn. lia.
Qed.

Lemma online_not_na ci c : wf_ci ci -> In c (ci_online ci) -> c <> NA.
Proof.
  intros Hwf Hc. apply (wf_online ci Hwf) in Hc. destruct Hc as (t & _ & Hl & <-). exact Hl.
Qed.

Definition lvl_of_cpu_list (ci : cpuinfo) (lvl : level) (nums : nums_t) (c : Z) : Prop :=
  exists t, In t (ci_topo ci) /\ cpu_line t /\ t_cpu t = c /\ nums_has nums (lget lvl t).

Lemma cpus_of_level ci lvl nums r :
  wf_ci ci ->
  get_level_nums ci LCPU lvl nums LCPU = Ok r ->
  StronglySorted Z.lt r /\ forall c, In c r <-> lvl_of_cpu_list ci lvl nums c.
Proof.
  intros Hwf H. destruct (get_level_nums_ok _ _ _ _ _ _ H) as (_ & Hin & _ & Hs).
  split; [now apply Hs|]. intros c. rewrite Hin. unfold lvl_of_cpu_list. cbn [lget].
  split; intros (t & H0); exists t; unfold cpu_line in *; repeat split; try tauto.
  destruct H0 as (Ht & Hl & _). destruct (wf_cpu_lines ci Hwf t Ht Hl) as (?&?&?&?&?).
  destruct lvl; cbn [lget]; auto.
Qed.

(** ** Siblings (C13) *)

Lemma sorted_filter_lt f l : StronglySorted Z.lt l -> StronglySorted Z.lt (filter f l).
Proof. apply StronglySorted_filter. Qed.

Lemma get_cpus_sorted ci : wf_ci ci -> StronglySorted Z.lt (get_cpus ci).
Proof.
  intros Hwf. apply sorted_le_NoDup_lt; [apply zsort_sorted|].
  eapply Permutation_NoDup; [symmetry; apply zsort_perm|apply wf_online_nodup, Hwf].
Qed.

Lemma siblings_spec_l ci c s :
  wf_ci ci -> (s = SModule -> modules_unique (ci_topo ci)) -> In c (ci_online ci) ->
  exists l, get_cpu_siblings ci c s = Ok l /\ StronglySorted Z.lt l /\
            forall x, In x l <-> same_unit (ci_topo ci) s c x.
Proof.
  intros Hwf Hmod Hc.
  destruct (get_cpu_tline_ok ci c Hwf Hc) as (t & Et & Ht & Hl & Ec).
  assert (Hnum : forall lvl, exists v, In v (ci_topo ci) /\ lget lvl v <> NA /\ lget lvl v = lget lvl t).
  { intros lvl. exists t. destruct (wf_cpu_lines ci Hwf t Ht Hl) as (?&?&?&?&?).
    repeat split; auto. destruct lvl; cbn; auto. }
  assert (Huniq : forall v, In v (ci_topo ci) -> cpu_line v -> t_cpu v = c -> v = t).
  { intros v Hv Hvl Ev. eapply cpu_line_unique; eauto. congruence. }
  assert (Hone : forall lvl, exists r, get_level_nums ci LCPU lvl (Some [lget lvl t]) LCPU = Ok r).
  { intros lvl. apply get_level_nums_succeeds; [destruct lvl; cbn; lia|].
    intros l [= <-] x [<-|[]]. apply Hnum. }
  destruct s; cbn [get_cpu_siblings].
  - (* CPU *)
    exists [c]. split; [|split].
    + unfold normalize_cpus. rewrite normalize_in_succeeds; [reflexivity|].
      intros x [<-|[]]. exact Hc.
    + repeat constructor.
    + intros x. split.
      * intros [<-|[]]. exists t, t. repeat split; auto.
      * intros (v & u & Hv & Hu & Hvl & Hul & Ev & Eu & E). cbn in E. left. congruence.
  - (* core *)
    rewrite Et. cbn [rbind]. unfold cores_to_cpus.
    destruct (Hone LCore) as (r1 & E1). destruct (Hone LPkg) as (r2 & E2). cbn [lget] in *.
    rewrite E1, E2. cbn [rbind].
    destruct (cpus_of_level _ _ _ _ Hwf E1) as (S1 & I1).
    destruct (cpus_of_level _ _ _ _ Hwf E2) as (S2 & I2).
    eexists. split; [reflexivity|]. split; [now apply sorted_filter_lt|].
    intros x. rewrite filter_In, inb_In, I1, I2. split.
    + intros ((u & Hu & Hul & Eu & [Nu|[]]) & (w & Hw & Hwl & Ew & [Nw|[]])). cbn [lget] in *.
      assert (u = w) by (eapply cpu_line_unique; eauto; congruence). subst w.
      exists t, u. cbn [unit_id]. repeat split; auto. congruence.
    + intros (v & u & Hv & Hu & Hvl & Hul & Ev & Eu & E).
      rewrite (Huniq v Hv Hvl Ev) in E. cbn [unit_id] in E. injection E as E3 E4.
      split; exists u; repeat split; auto; cbn; auto.
  - (* module *)
    rewrite Et. cbn [rbind]. unfold modules_to_cpus.
    destruct (Hone LModule) as (r1 & E1). cbn [lget] in *. rewrite E1.
    destruct (cpus_of_level _ _ _ _ Hwf E1) as (S1 & I1).
    exists r1. split; [reflexivity|]. split; [exact S1|].
    intros x. rewrite I1. split.
    + intros (u & Hu & Hul & Eu & [Nu|[]]). cbn [lget] in *.
      exists t, u. cbn [unit_id]. repeat split; auto.
      rewrite (Hmod eq_refl t u) by auto. congruence.
    + intros (v & u & Hv & Hu & Hvl & Hul & Ev & Eu & E).
      rewrite (Huniq v Hv Hvl Ev) in E. cbn [unit_id] in E. injection E as E3 E4.
      exists u; repeat split; auto; cbn; auto.
  - (* die *)
    rewrite Et. cbn [rbind]. unfold dies_to_cpus.
    destruct (Hone LDie) as (r1 & E1). destruct (Hone LPkg) as (r2 & E2). cbn [lget] in *.
    rewrite E1, E2. cbn [rbind].
    destruct (cpus_of_level _ _ _ _ Hwf E1) as (S1 & I1).
    destruct (cpus_of_level _ _ _ _ Hwf E2) as (S2 & I2).
    eexists. split; [reflexivity|]. split; [now apply sorted_filter_lt|].
    intros x. rewrite filter_In, inb_In, I1, I2. split.
    + intros ((u & Hu & Hul & Eu & [Nu|[]]) & (w & Hw & Hwl & Ew & [Nw|[]])). cbn [lget] in *.
      assert (u = w) by (eapply cpu_line_unique; eauto; congruence). subst w.
      exists t, u. cbn [unit_id]. repeat split; auto. congruence.
    + intros (v & u & Hv & Hu & Hvl & Hul & Ev & Eu & E).
      rewrite (Huniq v Hv Hvl Ev) in E. cbn [unit_id] in E. injection E as E3 E4.
      split; exists u; repeat split; auto; cbn; auto.
  - (* node *)
    rewrite Et. cbn [rbind]. unfold nodes_to_cpus.
    destruct (Hone LNode) as (r1 & E1). cbn [lget] in *. rewrite E1.
    destruct (cpus_of_level _ _ _ _ Hwf E1) as (S1 & I1).
    exists r1. split; [reflexivity|]. split; [exact S1|].
    intros x. rewrite I1. split.
    + intros (u & Hu & Hul & Eu & [Nu|[]]). cbn [lget] in *.
      exists t, u. cbn [unit_id]. repeat split; auto. congruence.
    + intros (v & u & Hv & Hu & Hvl & Hul & Ev & Eu & E).
      rewrite (Huniq v Hv Hvl Ev) in E. cbn [unit_id] in E. injection E as E3.
      exists u; repeat split; auto; cbn; auto.
  - (* package *)
    rewrite Et. cbn [rbind]. unfold package_to_cpus.
    destruct (Hone LPkg) as (r1 & E1). cbn [lget] in *. rewrite E1.
    destruct (cpus_of_level _ _ _ _ Hwf E1) as (S1 & I1).
    exists r1. split; [reflexivity|]. split; [exact S1|].
    intros x. rewrite I1. split.
    + intros (u & Hu & Hul & Eu & [Nu|[]]). cbn [lget] in *.
      exists t, u. cbn [unit_id]. repeat split; auto. congruence.
    + intros (v & u & Hv & Hu & Hvl & Hul & Ev & Eu & E).
      rewrite (Huniq v Hv Hvl Ev) in E. cbn [unit_id] in E. injection E as E3.
      exists u; repeat split; auto; cbn; auto.
  - (* global *)
    exists (get_cpus ci). split; [reflexivity|]. split; [now apply get_cpus_sorted|].
    intros x. unfold get_cpus. rewrite zsort_In, (wf_online ci Hwf). split.
    + intros (u & Hu & Hul & Eu). exists t, u. repeat split; auto.
    + intros (v & u & Hv & Hu & Hvl & Hul & Ev & Eu & E). eauto.
Qed.

Lemma same_unit_refl ci s c : wf_ci ci -> In c (ci_online ci) -> same_unit (ci_topo ci) s c c.
Proof.
  intros Hwf Hc. apply (wf_online ci Hwf) in Hc. destruct Hc as (t & Ht & Hl & E).
  exists t, t. repeat split; auto.
Qed.

Lemma same_unit_sym topo s c x : same_unit topo s c x -> same_unit topo s x c.
Proof.
  intros (t & u & Ht & Hu & Hl & Hul & E1 & E2 & E). exists u, t. repeat split; auto.
Qed.

Lemma same_unit_trans ci s a b c :
  wf_ci ci -> same_unit (ci_topo ci) s a b -> same_unit (ci_topo ci) s b c ->
  same_unit (ci_topo ci) s a c.
Proof.
  intros Hwf (t & u & Ht & Hu & Hl & Hul & E1 & E2 & E) (v & w & Hv & Hw & Hvl & Hwl & F1 & F2 & F).
  assert (u = v) by (eapply cpu_line_unique; eauto; congruence). subst v.
  exists t, w. repeat split; auto. congruence.
Qed.

Lemma same_unit_online ci s a b :
  wf_ci ci -> same_unit (ci_topo ci) s a b -> In a (ci_online ci) /\ In b (ci_online ci).
Proof.
  intros Hwf (t & u & Ht & Hu & Hl & Hul & E1 & E2 & E).
  split; apply (wf_online ci Hwf); eauto.
Qed.

(** Corollary: sibling lists form a partition of the online CPUs. *)
Lemma siblings_partition_l ci s c x lc lx :
  wf_ci ci -> (s = SModule -> modules_unique (ci_topo ci)) ->
  In c (ci_online ci) -> In x (ci_online ci) ->
  get_cpu_siblings ci c s = Ok lc -> get_cpu_siblings ci x s = Ok lx ->
  In c lc /\ (In x lc <-> In c lx) /\ (lc = lx \/ forall y, ~ (In y lc /\ In y lx)).
Proof.
  intros Hwf Hm Hc Hx Ec Ex.
  destruct (siblings_spec_l ci c s Hwf Hm Hc) as (l1 & E1 & S1 & I1).
  destruct (siblings_spec_l ci x s Hwf Hm Hx) as (l2 & E2 & S2 & I2).
  rewrite Ec in E1. rewrite Ex in E2. injection E1 as <-. injection E2 as <-.
  split; [apply I1, same_unit_refl; auto|]. split.
  { rewrite I1, I2. split; apply same_unit_sym. }
  destruct (in_dec Z.eq_dec x lc) as [Hin|Hni].
  - left. apply sorted_lt_ext; auto. intros y. apply I1 in Hin. rewrite I1, I2.
    split; intros Hy.
    + eapply same_unit_trans; eauto. now apply same_unit_sym.
    + eapply same_unit_trans; eauto.
  - right. intros y [H1 H2]. apply Hni. apply I1. apply I1 in H1. apply I2 in H2.
    eapply same_unit_trans; eauto. now apply same_unit_sym.
Qed.

(** ** CPU numbers of packages, dies, cores, modules (C15) *)

Lemma packages_to_cpus_l ci nums r :
  wf_ci ci -> packages_to_cpus ci nums = Ok r ->
  StronglySorted Z.lt r /\
  forall c, In c r <-> exists p, nums_has nums p /\ cpu_in_pkg (ci_topo ci) p c.
Proof.
  intros Hwf H. destruct (cpus_of_level _ _ _ _ Hwf H) as (S & I). split; [exact S|].
  intros c. rewrite I. split.
  - intros (t & Ht & Hl & E & N). exists (t_pkg t). split; [exact N|]. exists t. auto.
  - intros (p & N & t & Ht & Hl & E & <-). exists t. auto.
Qed.

Lemma modules_to_cpus_l ci nums r :
  wf_ci ci -> modules_to_cpus ci nums = Ok r ->
  StronglySorted Z.lt r /\
  forall c, In c r <-> exists t, In t (ci_topo ci) /\ cpu_line t /\ t_cpu t = c /\
                                 nums_has nums (t_module t).
Proof.
  intros Hwf H. destruct (cpus_of_level _ _ _ _ Hwf H) as (S & I). split; [exact S|exact I].
Qed.

Lemma nodes_to_cpus_l ci nums r :
  wf_ci ci -> nodes_to_cpus ci nums = Ok r ->
  StronglySorted Z.lt r /\
  forall c, In c r <-> exists t, In t (ci_topo ci) /\ cpu_line t /\ t_cpu t = c /\
                                 nums_has nums (t_node t).
Proof.
  intros Hwf H. destruct (cpus_of_level _ _ _ _ Hwf H) as (S & I). split; [exact S|exact I].
Qed.

Lemma cores_to_cpus_l ci cores pkgs r :
  wf_ci ci -> cores_to_cpus ci cores pkgs = Ok r ->
  StronglySorted Z.lt r /\
  forall c, In c r <-> exists p k, nums_has pkgs p /\ nums_has cores k /\
                                   cpu_in_core (ci_topo ci) (p, k) c.
Proof.
  intros Hwf H. unfold cores_to_cpus in H.
  destruct (get_level_nums ci LCPU LCore cores LCPU) as [r1|] eqn:E1; [|discriminate].
  destruct (get_level_nums ci LCPU LPkg pkgs LCPU) as [r2|] eqn:E2; [|discriminate].
  cbn [rbind] in H. injection H as <-.
  destruct (cpus_of_level _ _ _ _ Hwf E1) as (S1 & I1).
  destruct (cpus_of_level _ _ _ _ Hwf E2) as (S2 & I2).
  split; [now apply sorted_filter_lt|].
  intros c. rewrite filter_In, inb_In, I1, I2. split.
  - intros ((t & Ht & Hl & E & N) & (u & Hu & Hul & Eu & Nu)).
    assert (t = u) by (eapply cpu_line_unique; eauto; congruence). subst u.
    exists (t_pkg t), (t_core t). repeat split; auto. exists t. auto.
  - intros (p & k & Np & Nk & t & Ht & Hl & E & Ep & Ek). cbn in Ep, Ek. subst p k.
    split; exists t; auto.
Qed.

Lemma dies_to_cpus_l ci dies pkgs r :
  wf_ci ci -> dies_to_cpus ci dies pkgs = Ok r ->
  StronglySorted Z.lt r /\
  forall c, In c r <-> exists p d, nums_has pkgs p /\ nums_has dies d /\
                                   cpu_in_die (ci_topo ci) (p, d) c.
Proof.
  intros Hwf H. unfold dies_to_cpus in H.
  destruct (get_level_nums ci LCPU LDie dies LCPU) as [r1|] eqn:E1; [|discriminate].
  destruct (get_level_nums ci LCPU LPkg pkgs LCPU) as [r2|] eqn:E2; [|discriminate].
  cbn [rbind] in H. injection H as <-.
  destruct (cpus_of_level _ _ _ _ Hwf E1) as (S1 & I1).
  destruct (cpus_of_level _ _ _ _ Hwf E2) as (S2 & I2).
  split; [now apply sorted_filter_lt|].
  intros c. rewrite filter_In, inb_In, I1, I2. split.
  - intros ((t & Ht & Hl & E & N) & (u & Hu & Hul & Eu & Nu)).
    assert (t = u) by (eapply cpu_line_unique; eauto; congruence). subst u.
    exists (t_pkg t), (t_die t). repeat split; auto. exists t. auto.
  - intros (p & k & Np & Nk & t & Ht & Hl & E & Ep & Ek). cbn in Ep, Ek. subst p k.
    split; exists t; auto.
Qed.

(** When do these queries succeed. *)
Lemma level_query_ok_iff ci sub lvl l o :
  lidx sub <= lidx lvl ->
  ((exists r, get_level_nums ci sub lvl (Some l) o = Ok r) <->
   forall x, In x l -> exists t, In t (ci_topo ci) /\ lget lvl t <> NA /\ lget lvl t = x).
Proof.
  intros Hidx. split.
  - intros (r & H). destruct (get_level_nums_ok _ _ _ _ _ _ H) as (_ & _ & Hv & _). now apply Hv.
  - intros H. apply get_level_nums_succeeds; [exact Hidx|]. intros l' [= <-]. exact H.
Qed.

Lemma get_packages_l ci :
  wf_ci ci ->
  exists r, get_packages ci = Ok r /\ NoDup r /\ forall p, In p r <-> is_pkg (ci_topo ci) p.
Proof.
  intros Hwf. destruct (get_level_nums_succeeds ci LPkg LPkg None LPkg) as (r & E);
    [cbn; lia|discriminate|].
  exists r. split; [exact E|].
  destruct (get_level_nums_ok _ _ _ _ _ _ E) as (Hnd & Hin & _ & _). split; [exact Hnd|].
  intros p. rewrite Hin. cbn [lget]. split.
  - intros (t & Ht & _ & _ & <- & _). exists t. auto.
  - intros (t & Ht & <-). exists t. destruct (Z.eq_dec (t_cpu t) NA) as [En|Hn].
    + destruct (wf_io_lines ci Hwf t Ht) as (?&?&?&?&?); [unfold cpu_line; lia|].
      cbn; repeat split; auto.
    + destruct (wf_cpu_lines ci Hwf t Ht Hn) as (?&?&?&?&?). cbn; repeat split; auto.
Qed.

Lemma line_pkg_ok ci t : wf_ci ci -> In t (ci_topo ci) -> t_pkg t <> NA /\ t_die t <> NA.
Proof.
  intros Hwf Ht. destruct (Z.eq_dec (t_cpu t) NA) as [En|Hn].
  - destruct (wf_io_lines ci Hwf t Ht) as (?&?&?&?&?); [unfold cpu_line; lia|]. auto.
  - destruct (wf_cpu_lines ci Hwf t Ht Hn) as (?&?&?&?&?). auto.
Qed.

Lemma package_to_cpus_l ci p :
  wf_ci ci -> is_pkg (ci_topo ci) p ->
  exists r, package_to_cpus ci p = Ok r /\ StronglySorted Z.lt r /\
            forall c, In c r <-> cpu_in_pkg (ci_topo ci) p c.
Proof.
  intros Hwf (t & Ht & E).
  destruct (get_level_nums_succeeds ci LCPU LPkg (Some [p]) LCPU) as (r & Er); [cbn; lia| |].
  { intros l [= <-] x [<-|[]]. exists t. cbn [lget].
    destruct (line_pkg_ok ci t Hwf Ht). repeat split; auto. }
  exists r. split; [exact Er|].
  destruct (cpus_of_level _ _ _ _ Hwf Er) as (S & I). split; [exact S|].
  intros c. rewrite I. split.
  - intros (u & Hu & Hl & Ec & [N|[]]). exists u. auto.
  - intros (u & Hu & Hl & Ec & N). exists u. repeat split; auto. cbn. auto.
Qed.

Lemma package_to_units_l ci lvl p :
  wf_ci ci -> is_pkg (ci_topo ci) p -> lidx lvl <= 5 ->
  exists r, get_level_nums ci lvl LPkg (Some [p]) lvl = Ok r /\ NoDup r /\
            forall u, In u r <-> exists t, In t (ci_topo ci) /\ t_pkg t = p /\
                                           lget lvl t <> NA /\ lget lvl t = u.
Proof.
  intros Hwf (t & Ht & E) Hi.
  destruct (get_level_nums_succeeds ci lvl LPkg (Some [p]) lvl) as (r & Er); [cbn; lia| |].
  { intros l [= <-] x [<-|[]]. exists t. cbn [lget].
    destruct (line_pkg_ok ci t Hwf Ht). repeat split; auto. }
  exists r. split; [exact Er|].
  destruct (get_level_nums_ok _ _ _ _ _ _ Er) as (Hnd & Hin & _ & _). split; [exact Hnd|].
  intros u. rewrite Hin. cbn [lget]. split.
  - intros (v & Hv & _ & Hn & <- & [N|[]]). exists v. auto.
  - intros (v & Hv & N & Hn & <-). exists v. destruct (line_pkg_ok ci v Hwf Hv).
    repeat split; auto. cbn. auto.
Qed.

(** ** Division (C11, C12) *)

Lemma div_packages_loop_l ci pkgs cs :
  wf_ci ci -> NoDup pkgs -> (forall p, In p pkgs -> is_pkg (ci_topo ci) p) -> NoDup cs ->
  exists found cs', div_packages_loop ci pkgs cs = Ok (found, cs') /\
    NoDup found /\
    (forall p, In p found <-> In p pkgs /\ forall c, cpu_in_pkg (ci_topo ci) p c -> In c cs) /\
    (forall c, In c cs' <-> In c cs /\ ~ exists p, In p found /\ cpu_in_pkg (ci_topo ci) p c).
Proof.
  intros Hwf. revert cs. induction pkgs as [|p rest IH]; intros cs Hnd Hp Hcs.
  - exists [], cs. cbn. repeat split; auto; try constructor; try tauto.
    intros (q & [] & _).
  - cbn [div_packages_loop].
    destruct (package_to_cpus_l ci p Hwf) as (pc & Epc & Spc & Ipc); [apply Hp; now left|].
    rewrite Epc. cbn [rbind].
    inversion Hnd as [|? ? Hni Hnd']; subst.
    destruct (subsetb pc cs) eqn:Es.
    + apply subsetb_incl in Es.
      destruct (IH (minus cs pc)) as (found & cs' & E & Hf1 & Hf2 & Hf3); auto.
      { intros; apply Hp; now right. } { now apply NoDup_minus. }
      rewrite E. cbn [rbind]. exists (p :: found), cs'. split; [reflexivity|].
      assert (Hdisj : forall q c, In q rest -> cpu_in_pkg (ci_topo ci) q c ->
                                  ~ cpu_in_pkg (ci_topo ci) p c).
      { intros q c Hq (t & Ht & Hl & Ec & Eq) (u & Hu & Hul & Euc & Ep).
        assert (t = u) by (eapply cpu_line_unique; eauto; congruence). subst u.
        apply Hni. congruence. }
      split; [|split].
      * constructor; [|exact Hf1]. rewrite Hf2. tauto.
      * intros q. cbn [In]. rewrite Hf2. split.
        -- intros [<-|(Hq & Hc)].
           ++ split; [now left|]. intros c Hc. apply Es, Ipc, Hc.
           ++ split; [now right|]. intros c H. specialize (Hc c H). apply minus_In in Hc. tauto.
        -- intros ([<-|Hq] & Hc); [now left|]. right. split; [exact Hq|].
           intros c H. apply minus_In. split; [auto|]. rewrite Ipc. eapply Hdisj; eauto.
      * intros c. rewrite Hf3, minus_In, Ipc. split.
        -- intros ((H1 & H2) & H3). split; [exact H1|].
           intros (q & [<-|Hq] & Hc); [tauto|]. apply H3. eauto.
        -- intros (H1 & H2). repeat split; auto.
           ++ intros H. apply H2. exists p. split; [now left|exact H].
           ++ intros (q & Hq & Hc). apply H2. exists q. split; [now right|exact Hc].
    + destruct (IH cs) as (found & cs' & E & Hf1 & Hf2 & Hf3); auto.
      { intros; apply Hp; now right. }
      exists found, cs'. split; [exact E|]. split; [exact Hf1|]. split; [|exact Hf3].
      intros q. rewrite Hf2. cbn [In]. split; [intuition|].
      intros ([<-|Hq] & Hc); [|auto]. exfalso.
      assert (subsetb pc cs = true); [|congruence]. apply subsetb_incl.
      intros c H. apply Hc, Ipc, H.
Qed.

Lemma cpus_div_packages_l ci cpus found rem :
  wf_ci ci -> cpus_div_packages ci (Some cpus) None = Ok (found, rem) ->
  is_division (is_pkg (ci_topo ci)) (cpu_in_pkg (ci_topo ci)) cpus found rem.
Proof.
  intros Hwf. unfold cpus_div_packages.
  destruct (normalize_cpus ci (Some cpus) true) as [l|] eqn:El; [|discriminate]. cbn [rbind].
  destruct (normalize_cpus_ok_l _ _ _ _ El) as (Hl & _ & Hord).
  unfold normalize_packages. destruct (get_packages_l ci Hwf) as (pkgs & Ep & Hpnd & Hpin).
  rewrite Ep. cbn [rbind].
  destruct (div_packages_loop_l ci pkgs l Hwf Hpnd) as (f & cs & E & Hf1 & Hf2 & Hf3).
  { intros p. apply Hpin. } { eapply in_order_NoDup, Hord. }
  rewrite E. cbn [rbind]. intros [= <- <-].
  split; [exact Hf1|]. split; [|split].
  - intros u. rewrite Hf2, Hpin. split; intros (H1 & H2); split; auto; intros c Hc; apply Hl; auto.
  - intros c. rewrite filter_In, inb_In, Hf3, Hl. tauto.
  - now apply in_order_filter.
Qed.

Lemma cpus_div_packages_succeeds_l ci cpus :
  wf_ci ci -> (forall c, In c cpus -> In c (ci_all ci)) ->
  exists found rem, cpus_div_packages ci (Some cpus) None = Ok (found, rem).
Proof.
  intros Hwf Hav. unfold cpus_div_packages, normalize_cpus.
  rewrite normalize_in_succeeds by exact Hav. cbn [rbind].
  unfold normalize_packages. destruct (get_packages_l ci Hwf) as (pkgs & Ep & Hpnd & Hpin).
  rewrite Ep. cbn [rbind].
  destruct (div_packages_loop_l ci pkgs (dedup cpus) Hwf Hpnd) as (f & cs & E & _).
  { intros p. apply Hpin. } { apply NoDup_dedup. }
  rewrite E. cbn [rbind]. eauto.
Qed.

Section DivUnits.
  Variable ci : cpuinfo.
  Hypothesis Hwf : wf_ci ci.
  Variable member : Z * Z -> Z -> Prop.
  Variable isunit : Z * Z -> Prop.
  Variable pkg_units : Z -> res (list Z).
  Variable units_cpus : Z -> Z -> res (list Z).
  Variable skip : Z -> Z -> bool.
  Hypothesis Hpu : forall p, is_pkg (ci_topo ci) p ->
    exists r, pkg_units p = Ok r /\ NoDup r /\ forall u, In u r <-> isunit (p, u).
  Hypothesis Huc : forall p u, isunit (p, u) ->
    exists r, units_cpus p u = Ok r /\ forall c, In c r <-> member (p, u) c.
  Hypothesis Hdisj : forall a b c, member a c -> member b c -> a = b.

  Definition wanted (pu : Z * Z) : Prop := isunit pu /\ skip (fst pu) (snd pu) = false.

  Lemma div_units_loop_l p units cs :
    NoDup units -> (forall u, In u units -> isunit (p, u)) -> NoDup cs ->
    exists found cs', div_units_loop units_cpus skip p units cs = Ok (found, cs') /\
      NoDup found /\ NoDup cs' /\
      (forall pu, In pu found <-> fst pu = p /\ In (snd pu) units /\ skip p (snd pu) = false /\
                                  forall c, member pu c -> In c cs) /\
      (forall c, In c cs' <-> In c cs /\ ~ exists pu, In pu found /\ member pu c).
  Proof.
    revert cs. induction units as [|u rest IH]; intros cs Hnd Hu Hcs.
    - exists [], cs. cbn. repeat split; auto; try constructor; try tauto.
      intros (q & [] & _).
    - cbn [div_units_loop]. inversion Hnd as [|? ? Hni Hnd']; subst.
      assert (Hrest : forall v, In v rest -> isunit (p, v)) by (intros; apply Hu; now right).
      destruct (skip p u) eqn:Esk.
      { destruct (IH cs Hnd' Hrest Hcs) as (f & cs' & E & H1 & H1b & H2 & H3).
        exists f, cs'. repeat (split; [assumption|]). split; [|exact H3].
        intros pu. rewrite H2. cbn [In]. split; [tauto|].
        intros (A & [B|B] & C & D); [rewrite <- B in C; congruence|tauto]. }
      destruct (Huc p u) as (sib & Es & Is); [apply Hu; now left|].
      rewrite Es. cbn [rbind]. destruct (subsetb sib cs) eqn:Esub.
      + apply subsetb_incl in Esub.
        destruct (IH (minus cs sib)) as (f & cs' & E & H1 & H1b & H2 & H3); auto.
        { now apply NoDup_minus. }
        rewrite E. cbn [rbind]. exists ((p, u) :: f), cs'. split; [reflexivity|].
        split; [|split; [exact H1b|split]].
        * constructor; [|exact H1]. rewrite H2. cbn. tauto.
        * intros pu. cbn [In]. rewrite H2. split.
          -- intros [<-|(A & B & C & D)].
             ++ cbn. repeat split; auto. intros c Hc. apply Esub, Is, Hc.
             ++ repeat split; auto. intros c Hc. specialize (D c Hc). apply minus_In in D. tauto.
          -- intros (A & [B|B] & C & D).
             ++ left. destruct pu; cbn in *; congruence.
             ++ right. repeat split; auto. intros c Hc. apply minus_In. split; [auto|].
                rewrite Is. intros Hc2. pose proof (Hdisj _ _ _ Hc Hc2) as Heq. subst pu.
                cbn in B. contradiction.
        * intros c. rewrite H3, minus_In, Is. split.
          -- intros ((A & B) & C). split; [exact A|].
             intros (q & [<-|Hq] & Hc); [tauto|]. apply C. eauto.
          -- intros (A & B). repeat split; auto.
             ++ intros H. apply B. exists (p, u). split; [now left|exact H].
             ++ intros (q & Hq & Hc). apply B. exists q. split; [now right|exact Hc].
      + destruct (IH cs Hnd' Hrest Hcs) as (f & cs' & E & H1 & H1b & H2 & H3).
        exists f, cs'. repeat (split; [assumption|]). split; [|exact H3].
        intros pu. rewrite H2. cbn [In]. split; [tauto|].
        intros (A & [B|B] & C & D); [|tauto]. exfalso.
        assert (subsetb sib cs = true); [|congruence]. apply subsetb_incl.
        intros c H. apply D. destruct pu as [q v]. cbn in *. subst q v. now apply Is.
  Qed.

  Lemma div_pkgs_units_loop_l pkgs cs :
    NoDup pkgs -> (forall p, In p pkgs -> is_pkg (ci_topo ci) p) -> NoDup cs ->
    exists found cs', div_pkgs_units_loop pkg_units units_cpus skip pkgs cs = Ok (found, cs') /\
      NoDup found /\
      (forall pu, In pu found <-> In (fst pu) pkgs /\ wanted pu /\ forall c, member pu c -> In c cs) /\
      (forall c, In c cs' <-> In c cs /\ ~ exists pu, In pu found /\ member pu c).
  Proof.
    revert cs. induction pkgs as [|p rest IH]; intros cs Hnd Hp Hcs.
    - exists [], cs. cbn. repeat split; auto; try constructor; try tauto.
      intros (q & [] & _).
    - cbn [div_pkgs_units_loop]. inversion Hnd as [|? ? Hni Hnd']; subst.
      destruct (Hpu p) as (units & Eu & Hund & Huin); [apply Hp; now left|].
      rewrite Eu. cbn [rbind].
      destruct (div_units_loop_l p units cs Hund) as (f & cs' & E & F1 & F1b & F2 & F3); auto.
      { intros u. apply Huin. }
      rewrite E. cbn [rbind].
      destruct (IH cs') as (f2 & cs'' & E2 & G1 & G2 & G3); auto.
      { intros; apply Hp; now right. }
      rewrite E2. cbn [rbind]. exists (f ++ f2), cs''. split; [reflexivity|].
      assert (Hff : forall pu, In pu f2 -> ~ In pu f).
      { intros pu H2 H1. apply F2 in H1. apply G2 in H2. apply Hni.
        destruct H1 as (<- & _). tauto. }
      split; [|split].
      + apply NoDup_app_disj; auto.
      + intros pu. rewrite in_app_iff, F2, G2. cbn [In]. unfold wanted. rewrite (Huin (snd pu)).
        split.
        * intros [(A & B & C & D)|(A & (B & B') & D)].
          -- subst p. destruct pu as [q v]. cbn in *. tauto.
          -- repeat split; auto. intros c Hc. specialize (D c Hc). apply F3 in D. tauto.
        * intros ([A|A] & (B & C) & D).
          -- left. subst p. destruct pu as [q v]. cbn in *. tauto.
          -- right. repeat split; auto. intros c Hc. apply F3. split; [auto|].
             intros (pu2 & Hin & Hc2). pose proof (Hdisj _ _ _ Hc Hc2) as Heq. subst pu2.
             apply F2 in Hin. apply Hni. destruct Hin as (<- & _). exact A.
      + intros c. rewrite G3, F3. setoid_rewrite in_app_iff. split.
        * intros ((A & B) & C). split; [exact A|]. intros (pu & [H|H] & Hc); eauto.
        * intros (A & B). repeat split; auto; intros (pu & H & Hc); apply B; eauto.
  Qed.
End DivUnits.

Lemma packages_to_cpus_ok_iff_l ci l :
  (exists r, packages_to_cpus ci (Some l) = Ok r) <->
  forall x, In x l -> exists t, In t (ci_topo ci) /\ t_pkg t <> NA /\ t_pkg t = x.
Proof. apply (level_query_ok_iff ci LCPU LPkg l LCPU). cbn. lia. Qed.
