(** Lemmas about operation targets: the constructor and the questions. *)
From Coq Require Import ZifyBool.
From Verif Require Import Base L_Base L_Monad M_CPUInfo S_CPUInfo L_CPUInfo L_CPUInfo2 M_OpTarget S_OpTarget
  L_OpTarget L_OpTarget2.

Lemma dedup_nil l : dedup l = [] <-> l = [].
Proof.
  split; [|intros ->; reflexivity]. destruct l as [|x t]; [auto|]. intros H.
  assert (In x (dedup (x :: t))) by (rewrite dedup_In; now left). rewrite H in H0. destruct H0.
Qed.

Lemma e_packages_none a p : given_nums (e_packages a) = false ->
  (chosen (e_packages a) p <-> chosen (oa_packages a) p).
Proof.
  intros Epg. apply given_nums_false in Epg. unfold e_packages in *. destruct (nothingb a) eqn:N.
  - now destruct (_ && _ && _).
  - destruct (_ && _ && _); [cbn in Epg; tauto|tauto].
Qed.

Section Init.
Variable ci : cpuinfo.
Variable a : otargs.
Hypothesis wf : wf_ci ci.


Lemma e_dies_cases : (e_dies a = oa_cores a \/ e_dies a = oa_dies a \/ (e_dies a = UNums None /\ everything a)).
Proof.
  unfold e_dies. destruct (nothingb a) eqn:N; [|auto]. apply nothingb_spec in N. auto.
Qed.
Lemma e_dies_valid : valid_units ci (is_die (ci_topo ci)) a (oa_dies a) <->
                     valid_units ci (is_die (ci_topo ci)) a (e_dies a).
Proof.
  unfold e_dies. destruct (nothingb a) eqn:N; [|tauto]. apply nothingb_spec in N.
  destruct N as (_ & _ & _ & N & _). cbn. split; [auto|]. intros _.
  destruct (oa_dies a) as [|[l|]|d]; cbn in *; auto.
  - destruct l; [intros u []|]. exfalso. apply N. discriminate.
  - destruct d; [intros p l []|]. exfalso. apply N. discriminate.
Qed.
Lemma e_dies_wants pd : wants_unit a (e_dies a) pd <-> wants_die a pd.
Proof.
  unfold wants_die, e_dies. destruct (nothingb a) eqn:N.
  - apply nothingb_spec in N. split; [auto|]. intros _. cbn. split; [exact I|]. right. now destruct N as (_&_&_&_&?).
  - assert (~ everything a) by (rewrite <- nothingb_spec; congruence). tauto.
Qed.
Lemma e_cpus_chosen c : chosen (e_cpus a) c <-> everything a \/ chosen (oa_cpus a) c.
Proof.
  unfold e_cpus. destruct (nothingb a) eqn:N.
  - apply nothingb_spec in N. cbn. tauto.
  - assert (~ everything a) by (rewrite <- nothingb_spec; congruence). tauto.
Qed.

Lemma ot_init_ok ot : args_proper a -> ot_init ci a = Ok ot -> init_facts ci a ot /\ valid_args ci a.
Proof.
  intros (Hp1 & Hp2). rewrite ot_init_eq.
  destruct (resolve_nums _ (e_cpus a)) as [r_cpus|] eqn:Ec; [|discriminate]. cbn [rbind].
  destruct (resolve_nums _ (oa_modules a)) as [r_modules|] eqn:Em; [|discriminate]. cbn [rbind].
  destruct (resolve_nums _ (e_packages a)) as [r_packages|] eqn:Ep; [|discriminate]. cbn [rbind].
  destruct (resolve_units _ _ _ (oa_cores a) _ _) as [r_cores|] eqn:Ek; [|discriminate]. cbn [rbind].
  destruct (resolve_units _ _ _ (e_dies a) _ _) as [r_dies|] eqn:Ed; [|discriminate]. cbn [rbind].
  apply (resolve_nums_ok _ _ _ (available ci (oa_offline_ok a))) in Ec as (C1 & C2); [|now apply norm_cpus_ok].
  apply (resolve_nums_ok _ _ _ (is_module (ci_topo ci))) in Em as (M1 & M2); [|now apply norm_modules_ok].
  apply (resolve_nums_ok _ _ _ (is_pkg (ci_topo ci))) in Ep as (P1 & P2);
    [|intros n r; now apply normalize_packages_ok].
  assert (Hpk : given_nums (e_packages a) = true -> forall p, In p r_packages <-> is_pkg (ci_topo ci) p /\ wants_pkg a p).
  { intros Hg p. rewrite P1, e_packages_chosen; [tauto|exact Hg]. }
  apply (resolve_units_ok ci (package_to_cores ci) (is_core (ci_topo ci)) wf (core_pkg ci)
           (fun p => package_to_cores_l ci p wf) a _ r_packages (e_packages_given a) Hpk) in Ek as (K1 & K2 & K3 & K4 & K5); [|auto].
  apply (resolve_units_ok ci (package_to_dies ci) (is_die (ci_topo ci)) wf (die_pkg ci)
           (fun p => package_to_dies_l ci p wf) a _ r_packages (e_packages_given a) Hpk) in Ed as (D1 & D2 & D3 & D4 & D5);
    [|exact e_dies_cases].
  assert (Hpk2 : forall p, In p r_packages <-> is_pkg (ci_topo ci) p /\ wants_pkg a p).
  { intros p. destruct (Bool.bool_dec (given_nums (e_packages a)) true) as [Epg|Epg]; [now apply Hpk|].
    apply Bool.not_true_is_false in Epg. rewrite P1.
    assert (Hn : ~ (everything a \/ qualified a)) by (rewrite <- e_packages_given; congruence).
    pose proof (e_packages_none a p Epg) as E'.
    rewrite E'. unfold wants_pkg. tauto. }
  set (c_sib := dedup (oa_core_sib a)). set (m_sib := dedup (oa_module_sib a)).
  set (ot0 := fun m cache => OT r_cpus r_cores r_modules r_dies r_packages c_sib m (oa_offline_ok a) cache None None).
  assert (G : forall m cache, ot_good ci (ot0 m cache)).
  { intros m cache. constructor; unfold ot0; cbn.
    - intros c Hc. now apply C1.
    - intros p l Hi. split; [eauto|]. intros k Hk. apply (proj1 (K1 p k)). exists l. auto.
    - intros x Hx. now apply M1.
    - intros p l Hi. split; [eauto|]. intros k Hk. apply (proj1 (D1 p k)). exists l. auto.
    - intros p Hi. now apply Hpk2. }
  change (OT r_cpus r_cores r_modules r_dies r_packages c_sib [] (oa_offline_ok a) None None None) with (ot0 [] None).
  change (OT r_cpus r_cores r_modules r_dies r_packages c_sib m_sib (oa_offline_ok a) None None None) with (ot0 m_sib None).
  intros H.
  assert (HH : exists cache, ot = ot0 m_sib cache /\
            (cache = None \/ exists l, cache = Some l /\ get_cpus_impl ci (ot0 m_sib None) [] = Ok l)).
  { destruct (truthy (oa_core_sib a)) eqn:T1.
    - destruct (get_cpus_impl ci (ot0 [] None) []) as [c|] eqn:E1; [|discriminate]. cbn [rbind] in H.
      destruct (select_core_siblings ci c c_sib); [|discriminate]. cbn [rbind] in H.
      destruct (truthy (oa_module_sib a)) eqn:T2.
      + destruct (get_cpus_impl ci (ot0 m_sib None) []) as [c'|] eqn:E2; [|discriminate]. cbn [rbind] in H.
        destruct (select_core_siblings ci c' m_sib); [|discriminate]. cbn [rbind] in H.
        injection H as <-. exists (Some c'). split; [reflexivity|]. right. eauto.
      + cbn [rbind] in H. injection H as <-. exists (Some c). split; [reflexivity|]. right. exists c.
        split; [reflexivity|]. apply truthy_false in T2. unfold m_sib. rewrite T2. exact E1.
    - cbn [rbind] in H. destruct (truthy (oa_module_sib a)) eqn:T2.
      + destruct (get_cpus_impl ci (ot0 m_sib None) []) as [c'|] eqn:E2; [|discriminate]. cbn [rbind] in H.
        destruct (select_core_siblings ci c' m_sib); [|discriminate]. cbn [rbind] in H.
        injection H as <-. exists (Some c'). split; [reflexivity|]. right. eauto.
      + cbn [rbind] in H. injection H as <-. exists None. auto. }
  destruct HH as (cache & -> & Hcache). split.
  - constructor; unfold ot0; cbn; auto.
    + intros c. rewrite C1, e_cpus_chosen. unfold wants_cpu. tauto.
    + intros p d. rewrite D1, e_dies_wants. reflexivity.
    + intros Hd. specialize (D4 Hd). unfold e_dies in D4. destruct (nothingb a) eqn:N; [|auto].
      right. now apply nothingb_spec.
    + intros Hn Hd. apply D5; auto.
      * unfold e_dies. destruct (nothingb a); [exact I|exact Hp2].
      * unfold e_dies. destruct (nothingb a); [exact I|exact Hn].
    + intros i. apply dedup_In.
    + intros i. apply dedup_In.
    + apply (G m_sib cache).
    + intros l ->. destruct Hcache as [?|(l' & [= <-] & E)]; [discriminate|]. exact E.
  - split; [|split; [|split; [|split]]].
    + intros l El c Hc. apply (C2 l); [|exact Hc]. unfold e_cpus. destruct (nothingb a) eqn:N; [|exact El].
      exfalso. apply nothingb_spec in N. destruct N as (N & _). rewrite El in N. cbn in N.
      apply N. intros ->. destruct Hc.
    + exact M2.
    + intros l El p Hp. apply (proj1 (Hpk2 p)). apply Hpk2. 
      destruct l as [|x t]; [destruct Hp|].
      assert (Ee : e_packages a = Some (Some (x :: t))).
      { unfold e_packages. destruct (nothingb a) eqn:N.
        - apply nothingb_spec in N. destruct N as (_&_&_&_&N). rewrite El in N. exfalso. apply N. cbn. discriminate.
        - rewrite El. reflexivity. }
      split; [now apply (P2 _ Ee)|]. left. rewrite El. exact Hp.
    + exact K3.
    + now apply e_dies_valid.
Qed.

Lemma ot_init_live : args_proper a -> valid_args ci a -> exists ot, ot_init ci a = Ok ot.
Proof.
  intros (Hp1 & Hp2) (V1 & V2 & V3 & V4 & V5). rewrite ot_init_eq.
  destruct (resolve_nums_succeeds (fun n : nums_t => normalize_cpus ci n (oa_offline_ok a)) (e_cpus a)
              (available ci (oa_offline_ok a))) as (r_cpus & Ec).
  { now apply norm_cpus_succ. }
  { intros l El. apply V1. unfold e_cpus in El. now destruct (nothingb a). }
  destruct (resolve_nums_succeeds (normalize_modules ci) (oa_modules a) (is_module (ci_topo ci))) as (r_modules & Em).
  { now apply norm_modules_succ. }
  { exact V2. }
  destruct (resolve_nums_succeeds (normalize_packages ci) (e_packages a) (is_pkg (ci_topo ci))) as (r_packages & Ep).
  { intros n. now apply normalize_packages_succeeds. }
  { intros l El. apply V3. now apply e_packages_list. }
  rewrite Ec, Em, Ep. cbn [rbind].
  apply (resolve_nums_ok _ _ _ (available ci (oa_offline_ok a))) in Ec as (C1 & C2); [|now apply norm_cpus_ok].
  apply (resolve_nums_ok _ _ _ (is_module (ci_topo ci))) in Em as (M1 & M2); [|now apply norm_modules_ok].
  apply (resolve_nums_ok _ _ _ (is_pkg (ci_topo ci))) in Ep as (P1 & P2);
    [|intros n r; now apply normalize_packages_ok].
  assert (Hpk : given_nums (e_packages a) = true -> forall p, In p r_packages <-> is_pkg (ci_topo ci) p /\ wants_pkg a p).
  { intros Hg p. rewrite P1, e_packages_chosen; [tauto|exact Hg]. }
  destruct (resolve_units_succeeds ci (package_to_cores ci) (is_core (ci_topo ci)) wf (core_pkg ci)
           (fun p => package_to_cores_l ci p wf) a _ r_packages (e_packages_given a) Hpk (oa_cores a)) as (r_cores & Ek); auto.
  destruct (resolve_units_succeeds ci (package_to_dies ci) (is_die (ci_topo ci)) wf (die_pkg ci)
           (fun p => package_to_dies_l ci p wf) a _ r_packages (e_packages_given a) Hpk (e_dies a)) as (r_dies & Ed);
    [exact e_dies_cases|now apply e_dies_valid|].
  rewrite Ek, Ed. cbn [rbind].
  apply (resolve_units_ok ci (package_to_cores ci) (is_core (ci_topo ci)) wf (core_pkg ci)
           (fun p => package_to_cores_l ci p wf) a _ r_packages (e_packages_given a) Hpk) in Ek as (K1 & K2 & K3 & K4 & K5); [|auto].
  apply (resolve_units_ok ci (package_to_dies ci) (is_die (ci_topo ci)) wf (die_pkg ci)
           (fun p => package_to_dies_l ci p wf) a _ r_packages (e_packages_given a) Hpk) in Ed as (D1 & D2 & D3 & D4 & D5);
    [|exact e_dies_cases].
  assert (G : forall c m cache,
    ot_good ci (OT r_cpus r_cores r_modules r_dies r_packages c m (oa_offline_ok a) cache None None)).
  { intros cs m cache. constructor; cbn.
    - intros c Hc. now apply C1.
    - intros p l Hi. split; [eauto|]. intros k Hk. apply (proj1 (K1 p k)). exists l. auto.
    - intros x Hx. now apply M1.
    - intros p l Hi. split; [eauto|]. intros k Hk. apply (proj1 (D1 p k)). exists l. auto.
    - intros p Hi. now apply P1 in Hi. }
  set (c_sib := dedup (oa_core_sib a)). set (m_sib := dedup (oa_module_sib a)).
  assert (L : forall m x, exists r, (let? c := get_cpus_impl ci (OT r_cpus r_cores r_modules r_dies r_packages c_sib m
                 (oa_offline_ok a) None None None) [] in
                 let? _ := select_core_siblings ci c x in Ok (Some c)) = Ok r).
  { intros m x. destruct (get_cpus_impl_spec ci _ wf (G c_sib m None)) as (r & -> & Hr & _). cbn [rbind].
    destruct (core_sib_live ci r x wf Hr) as (r' & -> & _). cbn. eauto. }
  destruct (L [] c_sib) as (x1 & E1). destruct (L m_sib m_sib) as (x2 & E2). rewrite E1, E2.
  destruct (truthy (oa_core_sib a)), (truthy (oa_module_sib a)); cbn; eauto.
Qed.

Lemma ot_init_iff : args_proper a -> ((exists ot, ot_init ci a = Ok ot) <-> valid_args ci a).
Proof.
  intros Hp. split.
  - intros (ot & H). now apply (ot_init_ok ot Hp H).
  - now apply ot_init_live.
Qed.
End Init.

(** ** The targeted CPUs *)

Section Target.
Variable ci : cpuinfo.
Variable a : otargs.
Hypothesis wf : wf_ci ci.
Hypothesis sib : siblings_ok ci a.

Lemma passes_dedup s l l' c : (forall i, In i l <-> In i l') -> (l = [] <-> l' = []) ->
  (passes ci s l c <-> passes ci s l' c).
Proof.
  intros H He. unfold passes. rewrite He. split; (intros [?|(? & i & Hi & ?)]; [auto|right; split; [auto|];
    exists i; rewrite ?H in *; rewrite <- ?H in *; auto]).
Qed.
Lemma same_nil l l' : (forall i : Z, In i l <-> In i l') -> (l = [] <-> l' = []).
Proof.
  intros H. split; intros ->.
  - destruct l' as [|x t]; [auto|]. destruct (proj2 (H x)). now left.
  - destruct l as [|x t]; [auto|]. destruct (proj1 (H x)). now left.
Qed.

Lemma raw_named ot c : init_facts ci a ot -> (raw_cpu ci ot c <-> named_cpu ci a c).
Proof.
  intros F. unfold raw_cpu, named_cpu. rewrite (if_cpus ci a ot F).
  assert (Hk : (exists p k, in_dict (ot_cores ot) p k /\ cpu_in_core (ci_topo ci) (p, k) c) <->
               exists pk, wants_core a pk /\ cpu_in_core (ci_topo ci) pk c).
  { split.
    - intros (p & k & Hi & Hc). exists (p, k). split; [|exact Hc]. now apply (if_cores ci a ot F).
    - intros ((p & k) & Hw & Hc). exists p, k. split; [|exact Hc]. apply (if_cores ci a ot F).
      split; [|exact Hw]. destruct Hc as (t & ? & ? & ? & ? & ?). exists t. auto. }
  assert (Hd : (exists p k, in_dict (ot_dies ot) p k /\ cpu_in_die (ci_topo ci) (p, k) c) <->
               exists pk, wants_die a pk /\ cpu_in_die (ci_topo ci) pk c).
  { split.
    - intros (p & k & Hi & Hc). exists (p, k). split; [|exact Hc]. now apply (if_dies ci a ot F).
    - intros ((p & k) & Hw & Hc). exists p, k. split; [|exact Hc]. apply (if_dies ci a ot F).
      split; [|exact Hw]. destruct Hc as (t & ? & ? & ? & ? & ?). exists t. auto. }
  assert (Hm : (exists t, In t (ci_topo ci) /\ cpu_line t /\ t_cpu t = c /\ In (t_module t) (ot_modules ot)) <->
               exists t, In t (ci_topo ci) /\ cpu_line t /\ t_cpu t = c /\ wants_module a (t_module t)).
  { split; intros (t & Ht & Hl & Hc & Hw); exists t; repeat split; auto.
    - now apply (if_modules ci a ot F).
    - apply (if_modules ci a ot F). split; [|exact Hw]. exists t. auto. }
  rewrite Hk, Hd, Hm. split.
  - intros [H|[H|[H|[H|(H1 & H2 & p & Hp & Hc)]]]]; auto 6.
    apply (if_packages ci a ot F) in Hp as Hp'. destruct Hp' as (_ & Hp').
    right; right; right; right. split; [|split].
    + intros Hn. apply (if_cores_empty ci a ot F Hn) in H1. rewrite H1 in Hp. destruct Hp.
    + intros Hn. apply (if_dies_empty ci a ot F Hn) in H2. rewrite H2 in Hp. destruct Hp.
    + exists p. auto.
  - intros [H|[H|[H|[H|(H1 & H2 & p & Hp & Hc)]]]]; auto 6.
    destruct (nothingb a) eqn:N.
    { apply nothingb_spec in N. left. split; [auto|]. apply online_available; [exact wf|].
      now apply in_pkg_online in Hc. }
    right; right; right; right. split; [|split].
    + destruct (ot_cores ot) eqn:E; [auto|]. exfalso. apply H1, (if_cores_named ci a ot F). congruence.
    + destruct (ot_dies ot) eqn:E; [auto|]. exfalso.
      destruct (if_dies_named ci a ot F) as [Hn|Hn]; [congruence|auto|]. apply nothingb_spec in Hn. congruence.
    + exists p. split; [|exact Hc]. apply (if_packages ci a ot F). split; [|exact Hp].
      destruct Hc as (t & ? & ? & ? & ?). exists t. auto.
Qed.

Lemma impl_target ot : init_facts ci a ot ->
  exists r, get_cpus_impl ci ot [] = Ok r /\ NoDup r /\ (forall c, In c r -> In c (ci_all ci)) /\
    forall c, In c r <-> target_cpu ci a c.
Proof.
  intros F. destruct (get_cpus_impl_spec ci ot wf (if_good ci a ot F)) as (r & E & Hall & Hr).
  exists r. split; [exact E|].
  assert (Hs : ot_module_sib ot = [] \/ modules_unique (ci_topo ci)).
  { destruct sib as [S|S]; [|auto]. left. now apply (same_nil _ _ (if_module_sib ci a ot F)). }
  destruct (Hr Hs) as (Hnd & Hin). split; [exact Hnd|]. split; [exact Hall|].
  intros c. rewrite Hin. unfold target_cpu. rewrite (raw_named ot c F).
  rewrite (passes_dedup SCore _ _ c (if_core_sib ci a ot F) (same_nil _ _ (if_core_sib ci a ot F))).
  rewrite (passes_dedup SModule _ _ c (if_module_sib ci a ot F) (same_nil _ _ (if_module_sib ci a ot F))).
  reflexivity.
Qed.
End Target.
