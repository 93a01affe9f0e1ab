(** Lemmas about operation targets: dies, packages, histories of questions. *)
From Coq Require Import ZifyBool.
From Verif Require Import Base L_Base L_Monad M_CPUInfo S_CPUInfo L_CPUInfo L_CPUInfo2 M_OpTarget S_OpTarget
  L_OpTarget L_OpTarget2 L_OpTarget3.

Lemma pair_eqb2_spec x y : pair_eqb2 x y = true <-> x = y.
Proof.
  destruct x, y. unfold pair_eqb2. cbn. rewrite andb_true_iff, !Z.eqb_eq. split; [intros (-> & ->); auto|].
  now intros [= -> ->].
Qed.

Section Compute.
Variable ci : cpuinfo.
Variable a : otargs.
Variable ot : optarget.
Hypothesis wf : wf_ci ci.
Hypothesis sib : siblings_ok ci a.
Hypothesis F : init_facts ci a ot.
Hypothesis V : valid_args ci a.
Hypothesis on : ci_online ci <> [].

Lemma no_names_cpus : ~ names (oa_cpus a) -> ~ everything a -> ot_cpus ot = [].
Proof.
  intros Hn He. destruct (ot_cpus ot) as [|c t] eqn:E; [auto|]. exfalso.
  destruct (proj1 (if_cpus ci a ot F c)) as ([H|H] & _); [rewrite E; now left|auto|].
  apply Hn. destruct (oa_cpus a) as [[l|]|]; cbn in *; auto. intros ->. destruct H.
Qed.
Lemma names_cpus : names (oa_cpus a) \/ everything a -> ot_cpus ot <> [].
Proof.
  intros Hn E.
  assert (H : exists c, wants_cpu ci a c).
  { destruct (ci_online ci) as [|c t] eqn:Eo; [congruence|].
    assert (Hc : available ci (oa_offline_ok a) c) by (apply online_available; [exact wf|rewrite Eo; now left]).
    destruct Hn as [Hn|Hn]; [|exists c; split; auto].
    destruct (oa_cpus a) as [[l|]|] eqn:Ea; cbn in Hn; [| |destruct Hn].
    - destruct l as [|x l]; [congruence|]. exists x. split; [right; rewrite Ea; cbn; auto|].
      destruct V as (V1 & _). apply (V1 _ Ea). now left.
    - exists c. split; [right; rewrite Ea; exact I|exact Hc]. }
  destruct H as (c & H). apply (if_cpus ci a ot F) in H. rewrite E in H. destruct H.
Qed.
Lemma no_names_modules : ~ names (oa_modules a) -> ot_modules ot = [].
Proof.
  intros Hn. destruct (ot_modules ot) as [|c t] eqn:E; [auto|]. exfalso.
  destruct (proj1 (if_modules ci a ot F c)) as (_ & H); [rewrite E; now left|].
  apply Hn. unfold wants_module in H. destruct (oa_modules a) as [[l|]|]; cbn in *; auto. intros ->. destruct H.
Qed.
Lemma names_modules : names (oa_modules a) -> ot_modules ot <> [].
Proof.
  intros Hn E.
  assert (H : exists c, is_module (ci_topo ci) c /\ wants_module a c).
  { unfold wants_module. destruct (oa_modules a) as [[l|]|] eqn:Ea; cbn in Hn; [| |destruct Hn].
    - destruct l as [|x l]; [congruence|]. exists x. split; [|cbn; auto].
      destruct V as (_ & V1 & _). apply (V1 _ Ea). now left.
    - destruct (ci_online ci) as [|c t] eqn:Eo; [congruence|].
      destruct (proj1 (wf_online ci wf c)) as (l & Hl & Hc & _); [rewrite Eo; now left|].
      exists (t_module l). split; [exists l; auto|exact I]. }
  destruct H as (c & H). apply (if_modules ci a ot F) in H. rewrite E in H. destruct H.
Qed.

(** *** Dies *)
Definition more_dies : res (list (Z * Z)) :=
  if truthy (ot_dies ot) then Ok (flat_map (fun e => map (pair (fst e)) (snd e)) (ot_dies ot))
  else if negb (truthy (ot_cpus ot)) && negb (truthy (ot_cores ot)) &&
          negb (truthy (ot_modules ot)) && truthy (ot_packages ot)
  then let? l := rmap (ot_packages ot) (fun p => let? d := M_CPUInfo.get_dies ci p true true in
                                                 Ok (map (pair p) d)) in
       Ok (concat l)
  else Ok [].

Lemma all_dies p : is_pkg (ci_topo ci) p ->
  exists r, M_CPUInfo.get_dies ci p true true = Ok r /\ forall d, In d r <-> is_die (ci_topo ci) (p, d).
Proof.
  intros Hp. destruct (package_to_dies_l ci p wf Hp) as (r & E & _ & Hr). exists r. split; [|exact Hr].
  unfold M_CPUInfo.get_dies. unfold package_to_dies in E. now rewrite E.
Qed.
Lemma io_dies_of_pkg p : is_pkg (ci_topo ci) p ->
  exists r, M_CPUInfo.get_dies ci p false true = Ok r /\
    forall d, In d r <-> is_die (ci_topo ci) (p, d) /\ In (p, d) (ci_io ci).
Proof.
  intros Hp. destruct (package_to_dies_l ci p wf Hp) as (r & E & _ & Hr).
  unfold M_CPUInfo.get_dies. unfold package_to_dies in E. rewrite E. cbn [rbind andb].
  eexists. split; [reflexivity|]. intros d. rewrite filter_In, Hr, pair_inb_In. tauto.
Qed.

Lemma more_dies_spec : exists m, more_dies = Ok m /\ forall pd, In pd m <-> named_die ci a pd.
Proof.
  unfold more_dies. destruct (truthy (ot_dies ot)) eqn:T.
  - eexists. split; [reflexivity|]. apply truthy_spec in T. intros (p & d). rewrite in_flat_map. split.
    + intros ((q & l) & Hi & Hd). cbn in Hd. apply in_map_iff in Hd as (d' & [= <- <-] & Hd).
      destruct (proj1 (if_dies ci a ot F q d')) as (H1 & H2); [exists l; auto|]. split; auto.
    + intros (H1 & [H2|(H2 & _)]).
      * destruct (proj2 (if_dies ci a ot F p d)) as (l & Hi & Hd); [auto|].
        exists (p, l). split; [exact Hi|]. cbn. now apply in_map.
      * exfalso. destruct H2 as (Hp & _ & _ & _ & Hd).
        destruct (if_dies_named ci a ot F T) as [H|(_ & _ & _ & _ & H)]; auto.
  - apply truthy_false in T.
    assert (Hno : forall p d, is_die (ci_topo ci) (p, d) -> ~ wants_die a (p, d)).
    { intros p d H1 H2. destruct (proj2 (if_dies ci a ot F p d)) as (l & Hi & _); [auto|].
      rewrite T in Hi. destruct Hi. }
    destruct (negb (truthy (ot_cpus ot)) && negb (truthy (ot_cores ot)) &&
              negb (truthy (ot_modules ot)) && truthy (ot_packages ot)) eqn:C.
    + rewrite !andb_true_iff, !negb_true_iff, !truthy_false, truthy_spec in C.
      destruct C as (((C1 & C2) & C3) & C4).
      destruct (rmap_succeeds (fun p => let? d := M_CPUInfo.get_dies ci p true true in Ok (map (pair p) d)) (ot_packages ot))
        as (ls & E).
      { intros p Hp. destruct (all_dies p) as (r & -> & _); [now apply (if_packages ci a ot F)|]. cbn. eauto. }
      rewrite E. cbn [rbind]. eexists. split; [reflexivity|]. apply rmap_ok in E.
      assert (Hop : forall p, In p (ot_packages ot) -> only_packages a).
      { intros p Hp. apply (if_packages ci a ot F) in Hp as (Hp & Hw).
        assert (He : ~ everything a) by (intros He; now apply (names_cpus (or_intror He))).
        assert (Hk : ~ names_units (oa_cores a)) by (intros Hk; now apply C4, (if_cores_empty ci a ot F)).
        assert (Hd : ~ names_units (oa_dies a)) by (intros Hd; now apply C4, (if_dies_empty ci a ot F)).
        split; [|split; [|split; [|split]]]; auto.
        - destruct Hw as [Hw|(_ & [Hw|[Hw|[Hw|Hw]]])]; [|contradiction|exact Hw| |].
          + destruct (oa_packages a) as [[l|]|]; cbn in *; auto. intros ->. destruct Hw.
          + exfalso. apply Hd. rewrite Hw. exact I.
          + exfalso. apply Hk. rewrite Hw. exact I.
        - intros Hn. now apply (names_cpus (or_introl Hn)).
        - intros Hn. now apply (names_modules Hn). }
      intros (p & d). rewrite in_concat. split.
      * intros (l & Hl & Hi). destruct (Forall2_In_r _ _ _ _ E Hl) as (q & Hq & Eq).
        apply (if_packages ci a ot F) in Hq as Hq'. destruct Hq' as (Hk & Hw).
        destruct (all_dies q Hk) as (r & Er & Hr). rewrite Er in Eq. cbn in Eq. injection Eq as <-.
        apply in_map_iff in Hi as (d' & [= <- <-] & Hi). split; [now apply Hr|]. right. cbn. split; [eauto|exact Hw].
      * intros (H1 & [H2|(H2 & H3)]); [now apply Hno in H2|]. cbn in H3.
        assert (Hk : is_pkg (ci_topo ci) p) by now apply die_pkg in H1.
        assert (Hp : In p (ot_packages ot)) by (apply (if_packages ci a ot F); auto).
        destruct (Forall2_In_l _ _ _ _ E Hp) as (l & Hl & El). exists l. split; [exact Hl|].
        destruct (all_dies p Hk) as (r & Er & Hr). rewrite Er in El. cbn in El. injection El as <-.
        apply in_map. now apply Hr.
    + eexists. split; [reflexivity|]. intros (p & d). cbn. split; [tauto|].
      intros (H1 & [H2|(H2 & H3)]); [now apply Hno in H2|]. cbn in H3.
      assert (Hk : is_pkg (ci_topo ci) p) by now apply die_pkg in H1.
      assert (Hp : In p (ot_packages ot)) by (apply (if_packages ci a ot F); auto).
      destruct H2 as (N1 & N2 & N3 & N4 & N5).
      assert (He : ~ everything a) by (intros (_&_&_&_&He); auto).
      rewrite (no_names_cpus N2 He), (no_names_modules N4) in C.
      assert (Ec : ot_cores ot = []).
      { destruct (ot_cores ot) eqn:Ec; [auto|]. exfalso. apply N3, (if_cores_named ci a ot F). congruence. }
      rewrite Ec in C. cbn in C. apply truthy_false in C. rewrite C in Hp. destruct Hp.
Qed.

Lemma compute_dies_spec : io_dies_exact ci ->
  exists D, compute_dies ci ot false = Ok D /\ NoDup D /\
    (forall pd, In pd D <-> full_die ci a pd \/ named_die ci a pd) /\
    ((dies_only ci a /\ compute_dies ci ot true = Ok D) \/
     (~ dies_only ci a /\ compute_dies ci ot true = Exn ENoTarget)).
Proof.
  intros Hio. destruct (impl_target ci a wf sib ot F) as (T & ET & _ & Tall & HT).
  destruct (cpus_div_dies_succeeds_l ci T wf Tall) as (found & rem & Ed).
  destruct (cpus_div_dies_l ci T found rem wf Hio Ed) as (Hnd & Hf & Hr & _).
  destruct more_dies_spec as (m & Em & Hm).
  assert (Ec : forall s, compute_dies ci ot s = if s && truthy rem then Exn ENoTarget
                          else Ok (list_dedup pair_eqb2 (found ++ m))).
  { intros s. unfold compute_dies. change (get_cpus_impl ci ot [SDie]) with (get_cpus_impl ci ot []).
    rewrite ET. cbn [rbind]. rewrite Ed. cbn [rbind]. destruct (s && truthy rem); [reflexivity|].
    unfold more_dies in Em. rewrite Em. reflexivity. }
  assert (Hff : forall pd, In pd found <-> full_die ci a pd).
  { intros pd. rewrite Hf. unfold full_die. split; intros (H1 & H2); split; auto; intros c Hc; apply HT; auto. }
  rewrite !Ec. cbn [andb]. eexists. split; [reflexivity|].
  split; [apply NoDup_list_dedup, pair_eqb2_spec|]. split.
  - intros pd. rewrite list_dedup_In by apply pair_eqb2_spec. rewrite in_app_iff, Hff, Hm. reflexivity.
  - destruct (truthy rem) eqn:Er.
    + right. split; [|reflexivity]. apply truthy_spec in Er. destruct rem as [|c t]; [congruence|].
      destruct (proj1 (Hr c)) as (H1 & H2); [now left|]. intros Hd. apply H2.
      destruct (Hd c) as (pd & Hp & Hc); [now apply HT|]. exists pd. split; [now apply Hff|exact Hc].
    + left. split; [|reflexivity]. apply truthy_false in Er. subst rem. intros c Hc.
      destruct (Exists_dec (fun pd => cpu_in_die (ci_topo ci) pd c) found) as [H|H].
      { intros pd. unfold cpu_in_die.
        destruct (find (fun t => negb (t_cpu t =? NA) && (t_cpu t =? c) && (t_pkg t =? fst pd) && (t_die t =? snd pd)) (ci_topo ci)) as [t|] eqn:Ef.
        - left. apply find_some in Ef as (Hi & E). exists t. split; [exact Hi|]. unfold cpu_line. lia.
        - right. intros (t & Hi & Hl & E1 & E2 & E3). apply (find_none _ _ Ef) in Hi. unfold cpu_line in Hl. lia. }
      * apply Exists_exists in H as (pd & Hp & Hc'). exists pd. split; [now apply Hff|exact Hc'].
      * exfalso. apply (Hr c). split; [now apply HT|]. intros (pd & Hp & Hc'). apply H, Exists_exists. eauto.
Qed.

(** *** Packages *)
Lemma compute_packages_spec :
  exists P, compute_packages ci ot false = Ok P /\ NoDup P /\
    (forall p, In p P <-> full_package ci a p \/ named_package ci a p) /\
    ((packages_only ci a /\ compute_packages ci ot true = Ok P) \/
     (~ packages_only ci a /\ compute_packages ci ot true = Exn ENoTarget)).
Proof.
  destruct (impl_target ci a wf sib ot F) as (T & ET & _ & Tall & HT).
  destruct (cpus_div_packages_succeeds_l ci T wf Tall) as (found & rem & Ed).
  destruct (cpus_div_packages_l ci T found rem wf Ed) as (Hnd & Hf & Hr & _).
  assert (Ec : forall s, compute_packages ci ot s = if s && truthy rem then Exn ENoTarget
                          else Ok (dedup (found ++ ot_packages ot))).
  { intros s. unfold compute_packages. change (get_cpus_impl ci ot [SPackage]) with (get_cpus_impl ci ot []).
    rewrite ET. cbn [rbind]. rewrite Ed. reflexivity. }
  assert (Hff : forall pd, In pd found <-> full_package ci a pd).
  { intros pd. rewrite Hf. unfold full_package. split; intros (H1 & H2); split; auto; intros c Hc; apply HT; auto. }
  rewrite !Ec. cbn [andb]. eexists. split; [reflexivity|].
  split; [apply NoDup_dedup|]. split.
  - intros p. rewrite dedup_In, in_app_iff, Hff, (if_packages ci a ot F). reflexivity.
  - destruct (truthy rem) eqn:Er.
    + right. split; [|reflexivity]. apply truthy_spec in Er. destruct rem as [|c t]; [congruence|].
      destruct (proj1 (Hr c)) as (H1 & H2); [now left|]. intros Hd. apply H2.
      destruct (Hd c) as (pd & Hp & Hc); [now apply HT|]. exists pd. split; [now apply Hff|exact Hc].
    + left. split; [|reflexivity]. apply truthy_false in Er. subst rem. intros c Hc.
      destruct (Exists_dec (fun pd => cpu_in_pkg (ci_topo ci) pd c) found) as [H|H].
      { intros pd. unfold cpu_in_pkg.
        destruct (find (fun t => negb (t_cpu t =? NA) && (t_cpu t =? c) && (t_pkg t =? pd)) (ci_topo ci)) as [t|] eqn:Ef.
        - left. apply find_some in Ef as (Hi & E). exists t. split; [exact Hi|]. unfold cpu_line. lia.
        - right. intros (t & Hi & Hl & E1 & E2). apply (find_none _ _ Ef) in Hi. unfold cpu_line in Hl. lia. }
      * apply Exists_exists in H as (pd & Hp & Hc'). exists pd. split; [now apply Hff|exact Hc'].
      * exfalso. apply (Hr c). split; [now apply HT|]. intros (pd & Hp & Hc'). apply H, Exists_exists. eauto.
Qed.
End Compute.
