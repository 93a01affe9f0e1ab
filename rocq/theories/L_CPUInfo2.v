(** More proofs about the CPU topology model: division by cores and dies, sibling selection,
    hotplug. *)
From Verif Require Import Base L_Base M_CPUInfo S_CPUInfo L_CPUInfo.
From Coq Require Import ZifyBool.

Lemma pair_inb_In p l : pair_inb p l = true <-> In p l.
Proof.
  unfold pair_inb. rewrite existsb_exists. split.
  - intros ([a b] & H & E). destruct p as [c d]. cbn in E.
    replace c with a by lia. replace d with b by lia. exact H.
  - intros H. exists p. split; [exact H|]. destruct p; cbn. lia.
Qed.

Lemma pair_inb_false p l : pair_inb p l = false <-> ~ In p l.
Proof. rewrite <- pair_inb_In. destruct (pair_inb p l); split; congruence. Qed.

(** ** Division by cores and dies (C12) *)

Lemma one_level_ok ci sub lvl x o t :
  lidx sub <= lidx lvl -> In t (ci_topo ci) -> lget lvl t <> NA -> lget lvl t = x ->
  exists r, get_level_nums ci sub lvl (Some [x]) o = Ok r.
Proof.
  intros Hi Ht Hn E. apply get_level_nums_succeeds; [exact Hi|].
  intros l [= <-] y [<-|[]]. eauto.
Qed.

Lemma core_cpus_one ci p k :
  wf_ci ci -> is_core (ci_topo ci) (p, k) ->
  exists r, cores_to_cpus ci (Some [k]) (Some [p]) = Ok r /\
            forall c, In c r <-> cpu_in_core (ci_topo ci) (p, k) c.
Proof.
  intros Hwf (t & Ht & Hl & Ep & Ek). cbn in Ep, Ek.
  destruct (wf_cpu_lines ci Hwf t Ht Hl) as (?&?&?&?&?).
  destruct (cores_to_cpus ci (Some [k]) (Some [p])) as [r|e] eqn:E.
  - exists r. split; [reflexivity|]. destruct (cores_to_cpus_l _ _ _ _ Hwf E) as (_ & Hin).
    intros c. rewrite Hin. cbn. split.
    + intros (p' & k' & [<-|[]] & [<-|[]] & Hc). exact Hc.
    + intros Hc. exists p, k. auto.
  - exfalso. unfold cores_to_cpus in E.
    destruct (one_level_ok ci LCPU LCore k LCPU t) as (r1 & E1); cbn; auto; try lia.
    destruct (one_level_ok ci LCPU LPkg p LCPU t) as (r2 & E2); cbn; auto; try lia.
    rewrite E1, E2 in E. discriminate.
Qed.

Lemma die_cpus_one ci p d :
  wf_ci ci -> is_die (ci_topo ci) (p, d) ->
  exists r, dies_to_cpus ci (Some [d]) (Some [p]) = Ok r /\
            forall c, In c r <-> cpu_in_die (ci_topo ci) (p, d) c.
Proof.
  intros Hwf (t & Ht & Ep & Ek). cbn in Ep, Ek.
  destruct (line_pkg_ok ci t Hwf Ht) as (?&?).
  destruct (dies_to_cpus ci (Some [d]) (Some [p])) as [r|e] eqn:E.
  - exists r. split; [reflexivity|]. destruct (dies_to_cpus_l _ _ _ _ Hwf E) as (_ & Hin).
    intros c. rewrite Hin. cbn. split.
    + intros (p' & k' & [<-|[]] & [<-|[]] & Hc). exact Hc.
    + intros Hc. exists p, d. auto.
  - exfalso. unfold dies_to_cpus in E.
    destruct (one_level_ok ci LCPU LDie d LCPU t) as (r1 & E1); cbn; auto; try lia.
    destruct (one_level_ok ci LCPU LPkg p LCPU t) as (r2 & E2); cbn; auto; try lia.
    rewrite E1, E2 in E. discriminate.
Qed.

Lemma package_to_cores_l ci p :
  wf_ci ci -> is_pkg (ci_topo ci) p ->
  exists r, package_to_cores ci p = Ok r /\ NoDup r /\
            forall k, In k r <-> is_core (ci_topo ci) (p, k).
Proof.
  intros Hwf Hp. destruct (package_to_units_l ci LCore p Hwf Hp) as (r & E & Hnd & Hin); [cbn; lia|].
  exists r. split; [exact E|]. split; [exact Hnd|]. intros k. rewrite Hin. split.
  - intros (t & Ht & Ep & Hn & Ek). exists t. cbn. repeat split; auto.
    intros Hc. destruct (wf_io_lines ci Hwf t Ht) as (?&?&?&?&?); [unfold cpu_line; lia|].
    cbn in Hn. contradiction.
  - intros (t & Ht & Hl & Ep & Ek). exists t.
    destruct (wf_cpu_lines ci Hwf t Ht Hl) as (?&?&?&?&?). auto.
Qed.

Lemma package_to_dies_l ci p :
  wf_ci ci -> is_pkg (ci_topo ci) p ->
  exists r, package_to_dies ci p = Ok r /\ NoDup r /\
            forall k, In k r <-> is_die (ci_topo ci) (p, k).
Proof.
  intros Hwf Hp. destruct (package_to_units_l ci LDie p Hwf Hp) as (r & E & Hnd & Hin); [cbn; lia|].
  exists r. split; [exact E|]. split; [exact Hnd|]. intros k. rewrite Hin. split.
  - intros (t & Ht & Ep & Hn & Ek). exists t. cbn. auto.
  - intros (t & Ht & Ep & Ek). exists t. destruct (line_pkg_ok ci t Hwf Ht). auto.
Qed.

Lemma core_member_disj ci a b c :
  wf_ci ci -> cpu_in_core (ci_topo ci) a c -> cpu_in_core (ci_topo ci) b c -> a = b.
Proof.
  intros Hwf (t & Ht & Hl & E & Ep & Ek) (u & Hu & Hul & E' & Ep' & Ek').
  assert (t = u) by (eapply cpu_line_unique; eauto; congruence). subst u.
  destruct a, b; cbn in *; congruence.
Qed.

Lemma die_member_disj ci a b c :
  wf_ci ci -> cpu_in_die (ci_topo ci) a c -> cpu_in_die (ci_topo ci) b c -> a = b.
Proof.
  intros Hwf (t & Ht & Hl & E & Ep & Ek) (u & Hu & Hul & E' & Ep' & Ek').
  assert (t = u) by (eapply cpu_line_unique; eauto; congruence). subst u.
  destruct a, b; cbn in *; congruence.
Qed.

Lemma cpus_div_cores_l ci cpus found rem :
  wf_ci ci -> cpus_div_cores ci (Some cpus) = Ok (found, rem) ->
  is_division (is_core (ci_topo ci)) (cpu_in_core (ci_topo ci)) cpus found rem.
Proof.
  intros Hwf. unfold cpus_div_cores.
  destruct (normalize_cpus ci (Some cpus) true) as [l|] eqn:El; [|discriminate]. cbn [rbind].
  destruct (normalize_cpus_ok_l _ _ _ _ El) as (Hl & _ & Hord).
  destruct (get_packages_l ci Hwf) as (pkgs & Ep & Hpnd & Hpin). rewrite Ep. cbn [rbind].
  destruct (div_pkgs_units_loop_l ci (cpu_in_core (ci_topo ci)) (is_core (ci_topo ci))
              (package_to_cores ci) (fun p u => cores_to_cpus ci (Some [u]) (Some [p]))
              (fun _ _ => false)
              (fun p => package_to_cores_l ci p Hwf)
              (fun p u => core_cpus_one ci p u Hwf)
              (fun a b c => core_member_disj ci a b c Hwf) pkgs l Hpnd)
    as (f & cs & E & F1 & F2 & F3).
  { intros p. apply Hpin. } { eapply in_order_NoDup, Hord. }
  rewrite E. cbn [rbind]. intros [= <- <-].
  split; [exact F1|]. split; [|split].
  - intros u. rewrite F2, Hpin. unfold wanted. split.
    + intros (_ & (H1 & _) & H2). split; [exact H1|]. intros c Hc. apply Hl. auto.
    + intros (H1 & H2). repeat split; auto.
      * destruct H1 as (t & Ht & _ & H1 & _). exists t. auto.
      * intros c Hc. apply Hl. auto.
  - intros c. rewrite filter_In, inb_In, F3, Hl. tauto.
  - now apply in_order_filter.
Qed.

Lemma cpus_div_dies_l ci cpus found rem :
  wf_ci ci -> io_dies_exact ci -> cpus_div_dies ci (Some cpus) = Ok (found, rem) ->
  is_division (fun pd => exists c, cpu_in_die (ci_topo ci) pd c)
              (cpu_in_die (ci_topo ci)) cpus found rem.
Proof.
  intros Hwf Hio. unfold cpus_div_dies.
  destruct (normalize_cpus ci (Some cpus) true) as [l|] eqn:El; [|discriminate]. cbn [rbind].
  destruct (normalize_cpus_ok_l _ _ _ _ El) as (Hl & _ & Hord).
  destruct (get_packages_l ci Hwf) as (pkgs & Ep & Hpnd & Hpin). rewrite Ep. cbn [rbind].
  destruct (div_pkgs_units_loop_l ci (cpu_in_die (ci_topo ci)) (is_die (ci_topo ci))
              (package_to_dies ci) (fun p u => dies_to_cpus ci (Some [u]) (Some [p]))
              (fun p d => pair_inb (p, d) (ci_io ci))
              (fun p => package_to_dies_l ci p Hwf)
              (fun p u => die_cpus_one ci p u Hwf)
              (fun a b c => die_member_disj ci a b c Hwf) pkgs l Hpnd)
    as (f & cs & E & F1 & F2 & F3).
  { intros p. apply Hpin. } { eapply in_order_NoDup, Hord. }
  rewrite E. cbn [rbind]. intros [= <- <-].
  split; [exact F1|]. split; [|split].
  - intros u. rewrite F2, Hpin. unfold wanted. rewrite <- surjective_pairing. split.
    + intros (_ & (H1 & H2) & H3). apply pair_inb_false in H2. split.
      * destruct (die_cpus_one ci (fst u) (snd u) Hwf) as (r & Er & Ir);
          [now rewrite <- surjective_pairing|]. rewrite <- surjective_pairing in Ir.
        destruct r as [|c r].
        -- exfalso. apply H2. apply (Hio u H1). intros (c & Hc). apply (Ir c) in Hc. exact Hc.
        -- exists c. apply Ir. now left.
      * intros c Hc. apply Hl. auto.
    + intros ((c0 & H0) & H2).
      assert (Hd : is_die (ci_topo ci) u).
      { destruct H0 as (t & Ht & _ & _ & A & B). exists t. auto. }
      repeat split; auto.
      * destruct Hd as (t & Ht & A & _). exists t. auto.
      * apply pair_inb_false. intros Hin. apply (Hio u Hd) in Hin. apply Hin. eauto.
      * intros c Hc. apply Hl. auto.
  - intros c. rewrite filter_In, inb_In, F3, Hl. tauto.
  - now apply in_order_filter.
Qed.

Lemma cpus_div_cores_succeeds_l ci cpus :
  wf_ci ci -> (forall c, In c cpus -> In c (ci_all ci)) ->
  exists found rem, cpus_div_cores ci (Some cpus) = Ok (found, rem).
Proof.
  intros Hwf Hav. unfold cpus_div_cores, normalize_cpus.
  rewrite normalize_in_succeeds by exact Hav. cbn [rbind].
  destruct (get_packages_l ci Hwf) as (pkgs & Ep & Hpnd & Hpin). rewrite Ep. cbn [rbind].
  destruct (div_pkgs_units_loop_l ci (cpu_in_core (ci_topo ci)) (is_core (ci_topo ci))
              (package_to_cores ci) (fun p u => cores_to_cpus ci (Some [u]) (Some [p]))
              (fun _ _ => false)
              (fun p => package_to_cores_l ci p Hwf)
              (fun p u => core_cpus_one ci p u Hwf)
              (fun a b c => core_member_disj ci a b c Hwf) pkgs (dedup cpus) Hpnd)
    as (f & cs & E & _).
  { intros p. apply Hpin. } { apply NoDup_dedup. }
  rewrite E. cbn [rbind]. eauto.
Qed.

Lemma cpus_div_dies_succeeds_l ci cpus :
  wf_ci ci -> (forall c, In c cpus -> In c (ci_all ci)) ->
  exists found rem, cpus_div_dies ci (Some cpus) = Ok (found, rem).
Proof.
  intros Hwf Hav. unfold cpus_div_dies, normalize_cpus.
  rewrite normalize_in_succeeds by exact Hav. cbn [rbind].
  destruct (get_packages_l ci Hwf) as (pkgs & Ep & Hpnd & Hpin). rewrite Ep. cbn [rbind].
  destruct (div_pkgs_units_loop_l ci (cpu_in_die (ci_topo ci)) (is_die (ci_topo ci))
              (package_to_dies ci) (fun p u => dies_to_cpus ci (Some [u]) (Some [p]))
              (fun p d => pair_inb (p, d) (ci_io ci))
              (fun p => package_to_dies_l ci p Hwf)
              (fun p u => die_cpus_one ci p u Hwf)
              (fun a b c => die_member_disj ci a b c Hwf) pkgs (dedup cpus) Hpnd)
    as (f & cs & E & _).
  { intros p. apply Hpin. } { apply NoDup_dedup. }
  rewrite E. cbn [rbind]. eauto.
Qed.

(** ** Sibling index selection (C14) *)

Section SibIndex.
  Variable unum : tline -> Z.
  Variable k : tline -> list Z.      (* what the table is sorted by, before the CPU number *)
  Variable kle : tline -> tline -> Prop.
  Variable rows0 : list tline.

  Definition samekey (a b : tline) : bool := (unum a =? unum b) && (t_pkg a =? t_pkg b).

  (** Table facts used: CPU lines with equal sort key are in the same unit, a line with the sort key
      of a CPU line is a CPU line, the order is antisymmetric up to the key. *)
  Hypothesis Hkey1 : forall a b, In a rows0 -> In b rows0 -> cpu_line a -> k a = k b ->
    cpu_line b /\ samekey a b = true.
  Hypothesis Hkey2 : forall a b, In a rows0 -> In b rows0 -> cpu_line a -> samekey a b = true -> k a = k b.
  Hypothesis Hanti : forall a b, kle a b -> kle b a -> k a = k b.
  Hypothesis Hkk : forall a b c, k a = k b -> kle a c -> kle b c.

  Definition cnt (t : tline) (pre : list tline) : Z :=
    Z.of_nat (length (filter (samekey t) pre)).

  Definition last_opt (pre : list tline) : option (Z * Z) :=
    match rev pre with [] => None | t :: _ => Some (unum t, t_pkg t) end.

  Lemma samekey_eq a b : samekey a b = true <-> unum a = unum b /\ t_pkg a = t_pkg b.
  Proof. unfold samekey. lia. Qed.

  Lemma sib_loop_frame rows : forall cur idx acc c,
    ~ In c (map t_cpu rows) ->
    dget Z.eqb (sib_index_loop unum cur idx rows acc) c = dget Z.eqb acc c.
  Proof.
    induction rows as [|t rest IH]; intros cur idx acc c Hni; [reflexivity|].
    cbn [sib_index_loop map In] in *. rewrite IH by tauto.
    apply dget_dset_other; [exact Zeqb_spec|]. intros ->. tauto.
  Qed.

  Lemma sib_loop_spec rows : forall pre idx acc,
    rows0 = pre ++ rows ->
    StronglySorted kle rows0 ->
    (forall p t, rev pre = t :: p -> cpu_line t -> idx = cnt t pre) ->
    forall r1 t r2, rows = r1 ++ t :: r2 -> cpu_line t -> ~ In (t_cpu t) (map t_cpu r2) ->
    dget Z.eqb (sib_index_loop unum (last_opt pre) idx rows acc) (t_cpu t)
    = Some (cnt t (pre ++ r1)).
  Proof.
    induction rows as [|x rest IH]; intros pre idx acc Hr0 Hs Hidx r1 t r2 Hdec Hl Hni.
    { destruct r1; discriminate. }
    cbn [sib_index_loop].
    set (same := match last_opt pre with
                 | Some (u, p) => (unum x =? u) && (t_pkg x =? p) | None => false end).
    assert (Hinx : In x rows0) by (rewrite Hr0, in_app_iff; right; now left).
    assert (Hval : cpu_line x -> (if same then idx else 0) = cnt x pre).
    { intros Hx. unfold same, last_opt. destruct (rev pre) as [|l p] eqn:Er.
      - apply (f_equal (@rev tline)) in Er. rewrite rev_involutive in Er. subst pre. reflexivity.
      - assert (Epre : pre = rev p ++ [l]).
        { apply (f_equal (@rev tline)) in Er. rewrite rev_involutive in Er. exact Er. }
        assert (Hinl : In l rows0) by (rewrite Hr0, Epre, !in_app_iff; left; right; now left).
        change ((unum x =? unum l) && (t_pkg x =? t_pkg l)) with (samekey x l).
        destruct (samekey x l) eqn:Esk.
        + assert (Hll : cpu_line l).
          { destruct (Hkey1 x l Hinx Hinl Hx (Hkey2 x l Hinx Hinl Hx Esk)) as (H & _). exact H. }
          rewrite (Hidx p l eq_refl Hll). unfold cnt.
          assert (Hext : forall y, samekey l y = samekey x y).
          { intros y. apply samekey_eq in Esk. unfold samekey. destruct Esk as (-> & ->). reflexivity. }
          now rewrite (filter_ext _ _ Hext).
        + unfold cnt. replace (filter (samekey x) pre) with (@nil tline); [reflexivity|].
          symmetry. destruct (filter (samekey x) pre) as [|y f] eqn:Ef; [reflexivity|exfalso].
          assert (Hy : In y pre /\ samekey x y = true).
          { apply filter_In. rewrite Ef. now left. }
          destruct Hy as (Hy & Ey).
          assert (Hyr : In y rows0) by (rewrite Hr0, in_app_iff; now left).
          pose proof (Hkey2 x y Hinx Hyr Hx Ey) as Ek.
          (* y <= l <= x in the table, and k x = k y, hence k l = k x *)
          assert (Hlx : kle l x).
          { rewrite Hr0, Epre, <- app_assoc in Hs. cbn [app] in Hs.
            clear -Hs. induction (rev p) as [|z q IHq]; cbn [app] in Hs.
            - inversion Hs as [|? ? _ Hall]; subst. rewrite Forall_forall in Hall.
              apply Hall. now left.
            - inversion Hs; subst; auto. }
          rewrite Epre, in_app_iff in Hy. destruct Hy as [Hy|[->|[]]]; [|congruence].
          assert (Hyl : kle y l).
          { rewrite Hr0, Epre, <- app_assoc in Hs. cbn [app] in Hs.
            clear -Hs Hy. induction (rev p) as [|z q IHq]; [destruct Hy|]. cbn [app] in Hs.
            inversion Hs as [|? ? Hs' Hall]; subst. destruct Hy as [->|Hy]; [|auto].
            rewrite Forall_forall in Hall. apply Hall. apply in_app_iff. right. now left. }
          assert (Exl : k x = k l).
          { symmetry. apply Hanti; [exact Hlx|]. apply (Hkk y x l); [now symmetry|exact Hyl]. }
          destruct (Hkey1 x l Hinx Hinl Hx Exl) as (_ & E). congruence. }
    assert (Hlast : Some (unum x, t_pkg x) = last_opt (pre ++ [x])).
    { unfold last_opt. rewrite rev_app_distr. reflexivity. }
    destruct r1 as [|y r1]; cbn [app] in Hdec; injection Hdec as -> ->.
    - rewrite sib_loop_frame by exact Hni. rewrite dget_dset_same by exact Zeqb_spec.
      rewrite app_nil_r, Hval by exact Hl. reflexivity.
    - rewrite Hlast, (IH (pre ++ [y]) _ _) with (r1 := r1) (r2 := r2); auto.
      + now rewrite <- app_assoc.
      + rewrite <- app_assoc. exact Hr0.
      + intros p u Hrev Hu. rewrite rev_app_distr in Hrev. injection Hrev as <- <-.
        rewrite Hval by exact Hu. unfold cnt. rewrite filter_app, app_length. cbn [filter].
        replace (samekey y y) with true by (unfold samekey; lia). cbn [length]. lia.
  Qed.
End SibIndex.

Lemma lexleb_app_prefix a b c d :
  length a = length b -> lexleb (a ++ c) (b ++ d) = true ->
  lexleb a b = true /\ (a = b -> lexleb c d = true).
Proof.
  revert b. induction a as [|x a IH]; intros [|y b] Hlen; try discriminate; cbn [app lexleb]; [auto|].
  destruct (Z.ltb_spec x y); [split; [auto|intros [= ->]; lia]|].
  destruct (Z.eqb_spec x y) as [->|]; [|discriminate].
  intros H1. destruct (IH b) as (H2 & H3); [cbn in Hlen; lia|exact H1|].
  split; [exact H2|]. intros [= ->]. auto.
Qed.

Lemma lexleb_antisym a b : length a = length b -> lexleb a b = true -> lexleb b a = true -> a = b.
Proof.
  revert b. induction a as [|x a IH]; intros [|y b] Hlen; try discriminate; [auto|].
  cbn [lexleb]. destruct (Z.ltb_spec x y), (Z.ltb_spec y x); try lia.
  - destruct (Z.eqb_spec y x); [lia|discriminate].
  - destruct (Z.eqb_spec x y); [lia|discriminate].
  - destruct (Z.eqb_spec x y) as [->|]; [|discriminate]. rewrite Z.eqb_refl.
    intros H1 H2. f_equal. apply IH; auto.
Qed.

Section SelectSiblings.
  Variable ci : cpuinfo.
  Hypothesis Hwf : wf_ci ci.
  Variable s : scope.
  Variable unum : tline -> Z.
  Variable ord : level.
  Variable k : tline -> list Z.
  Hypothesis Hklen : forall a b, length (k a) = length (k b).
  Hypothesis Htkey : forall t, tkey ord t = k t ++ [t_cpu t].
  Hypothesis Hun : forall t u, In t (ci_topo ci) -> In u (ci_topo ci) -> cpu_line t ->
    (samekey unum t u = true <-> unit_id s t = unit_id s u).
  Hypothesis Hkc : forall t u, In t (ci_topo ci) -> In u (ci_topo ci) -> cpu_line t ->
    k t = k u <-> unit_id s t = unit_id s u.
  Hypothesis Hio : forall t u, In t (ci_topo ci) -> In u (ci_topo ci) -> cpu_line t ->
    unit_id s t = unit_id s u -> cpu_line u.

  Let rows := get_topology ci ord.
  Let kle (a b : tline) := lexleb (k a) (k b) = true.

  Lemma rows_sorted2 :
    StronglySorted (fun a b => kle a b /\ (k a = k b -> t_cpu a <= t_cpu b)) rows.
  Proof.
    eapply StronglySorted_impl; [|apply get_topology_sorted].
    intros a b _ _ H. cbn beta in H. rewrite !Htkey in H.
    apply lexleb_app_prefix in H; [|apply Hklen]. destruct H as (H1 & H2).
    split; [exact H1|]. intros E. specialize (H2 E). cbn in H2.
    destruct (Z.ltb_spec (t_cpu a) (t_cpu b)); [lia|].
    destruct (Z.eqb_spec (t_cpu a) (t_cpu b)); [lia|discriminate].
  Qed.

  Lemma sibling_index_l c :
    In c (ci_online ci) ->
    exists i, dget Z.eqb (sib_index_loop unum None 0 rows []) c = Some i /\
              rank_in_unit (ci_topo ci) s c i.
  Proof.
    intros Hc. apply (wf_online ci Hwf) in Hc. destruct Hc as (t & Ht & Hl & Ec).
    assert (Htr : In t rows) by (apply get_topology_In; exact Ht).
    destruct (in_split _ _ Htr) as (r1 & r2 & Er).
    assert (Hnd : forall u, In u (r1 ++ r2) -> t_cpu u <> t_cpu t).
    { intros u Hu E.
      assert (Hur : In u (ci_topo ci)).
      { apply (get_topology_In ci ord). fold rows. rewrite Er. apply in_app_iff in Hu.
        rewrite in_app_iff. cbn. tauto. }
      assert (t = u) by (eapply cpu_line_unique; eauto). subst u.
      (* t occurs twice in the table: contradicts NoDup of CPU numbers *)
      assert (Hndf : NoDup (map t_cpu (filter (fun t => negb (t_cpu t =? NA)) rows))).
      { eapply Permutation_NoDup; [|apply (wf_cpus_nodup ci Hwf)].
        apply Permutation_map, Permutation_filter, Permutation_sym, sort_by_perm. }
      rewrite Er, filter_app in Hndf. cbn [filter] in Hndf.
      destruct (Z.eqb_spec (t_cpu t) NA) as [|_] in Hndf; [contradiction|]. cbn [negb] in Hndf.
      rewrite map_app in Hndf. cbn [map] in Hndf. apply NoDup_remove_2 in Hndf. apply Hndf.
      rewrite <- map_app. apply in_map. rewrite <- filter_app, filter_In. split; [exact Hu|].
      unfold cpu_line in Hl. lia. }
    assert (Hgt : forall a, In a rows <-> In a (ci_topo ci)) by (intros; apply get_topology_In).
    exists (cnt unum t r1). split.
    - rewrite <- Ec. change None with (last_opt unum []).
      change r1 with ([] ++ r1) at 1.
      apply (sib_loop_spec unum k kle rows) with (r2 := r2); auto.
      + intros a b Ha Hb Hal E. rewrite Hgt in Ha, Hb.
        apply (Hkc a b Ha Hb Hal) in E. split; [exact (Hio a b Ha Hb Hal E)|]. now apply Hun.
      + intros a b Ha Hb Hal E. rewrite Hgt in Ha, Hb. apply Hkc; auto. now apply Hun.
      + intros a b. apply lexleb_antisym. apply Hklen.
      + intros a b d E. unfold kle. now rewrite E.
      + eapply StronglySorted_impl; [|apply rows_sorted2]. intros a b _ _ [H _]; exact H.
      + intros Hin. apply in_map_iff in Hin. destruct Hin as (u & E & Hu).
        apply (Hnd u); [apply in_app_iff; auto|auto].
    - unfold cnt. exists (map t_cpu (filter (samekey unum t) r1)).
      assert (Hsame : forall u, In u r1 -> samekey unum t u = true -> cpu_line u /\ In u (ci_topo ci)).
      { intros u Hu E.
        assert (Hin : In u (ci_topo ci)) by (apply Hgt; rewrite Er, in_app_iff; auto).
        split; [|exact Hin]. apply (Hio t u); auto. apply Hun; auto. }
      pose proof rows_sorted2 as Hs. rewrite Er in Hs.
      split; [|split].
      + (* NoDup *)
        assert (Hndf : NoDup (map t_cpu (filter (fun t => negb (t_cpu t =? NA)) rows))).
        { eapply Permutation_NoDup; [|apply (wf_cpus_nodup ci Hwf)].
          apply Permutation_map, Permutation_filter, Permutation_sym, sort_by_perm. }
        rewrite Er, filter_app, map_app in Hndf. apply NoDup_app_l in Hndf.
        clear -Hndf Hsame. induction r1 as [|u r IH]; cbn [filter map]; [constructor|].
        assert (IH' : NoDup (map t_cpu (filter (samekey unum t) r))).
        { apply IH; [intros; apply Hsame; auto; now right|]. cbn [filter] in Hndf.
          destruct (negb _); [|exact Hndf]. cbn [map] in Hndf. now inversion Hndf. }
        destruct (samekey unum t u) eqn:E; [|exact IH']. cbn [map]. constructor; [|exact IH'].
        intros Hin. apply in_map_iff in Hin. destruct Hin as (v & Ev & Hv).
        apply filter_In in Hv. destruct Hv as (Hv & Ekv).
        destruct (Hsame u) as (Hul & _); [now left|exact E|].
        cbn [filter] in Hndf. destruct (Z.eqb_spec (t_cpu u) NA) as [|_]; [contradiction|].
        cbn [negb map] in Hndf. inversion Hndf as [|? ? Hni _]; subst. apply Hni.
        rewrite <- Ev. apply in_map. apply filter_In. split; [exact Hv|].
        destruct (Hsame v) as (Hvl & _); [now right|exact Ekv|]. unfold cpu_line in Hvl. lia.
      + rewrite map_length. reflexivity.
      + intros x. rewrite in_map_iff. split.
        * intros (u & Eu & Hu). apply filter_In in Hu. destruct Hu as (Hu & E).
          destruct (Hsame u Hu E) as (Hul & Hin). split.
          -- exists t, u. repeat split; auto. apply Hun; auto.
          -- assert (Ek : k u = k t). { symmetry. apply Hkc; auto. apply Hun; auto. }
             assert (Hle : t_cpu u <= t_cpu t).
             { clear -Hs Hu Ek. induction r1 as [|z q IHq]; [destruct Hu|]. cbn [app] in Hs.
               inversion Hs as [|? ? Hs' Hall]; subst. destruct Hu as [->|Hu]; [|auto].
               rewrite Forall_forall in Hall. apply (Hall t); [|exact Ek].
               apply in_app_iff. right. now left. }
             assert (t_cpu u <> t_cpu t) by (apply Hnd, in_app_iff; auto). lia.
        * intros ((v & u & Hv & Hu & Hvl & Hul & Ev & Eu & E) & Hlt).
          assert (v = t) by (eapply cpu_line_unique; eauto; congruence). subst v.
          exists u. split; [exact Eu|]. apply filter_In. split; [|apply Hun; auto].
          assert (Hur : In u rows) by (apply Hgt; exact Hu).
          rewrite Er, in_app_iff in Hur. destruct Hur as [|[->|Hur]]; [auto|lia|exfalso].
          assert (Ek : k t = k u) by (apply Hkc; auto).
          assert (Hle : t_cpu t <= t_cpu u).
          { clear -Hs Hur Ek. induction r1 as [|z q IHq]; cbn [app] in Hs.
            - inversion Hs as [|? ? Hs' Hall]; subst. rewrite Forall_forall in Hall.
              now apply (Hall u).
            - inversion Hs; subst. auto. }
          lia.
  Qed.

  Lemma index_offline c :
    ~ In c (ci_online ci) -> c <> NA ->
    dget Z.eqb (sib_index_loop unum None 0 rows []) c = None.
  Proof.
    intros Hc Hna. rewrite sib_loop_frame; [reflexivity|].
    intros Hin. apply Hc. apply in_map_iff in Hin. destruct Hin as (t & E & Ht).
    apply get_topology_In in Ht. apply (wf_online ci Hwf). exists t.
    unfold cpu_line. repeat split; auto. congruence.
  Qed.

  Lemma rank_functional c i j :
    rank_in_unit (ci_topo ci) s c i -> rank_in_unit (ci_topo ci) s c j -> i = j.
  Proof.
    intros (l & Hl & <- & Il) (m & Hm & <- & Im). f_equal.
    apply Permutation_length. apply NoDup_Permutation; auto.
    intros x. rewrite Il, Im. tauto.
  Qed.

  Lemma select_by_index_l l indexes :
    (forall c, In c l -> In c (ci_all ci)) ->
    forall c, In c (select_by_index (sib_index_loop unum None 0 rows []) l indexes) <->
              In c l /\ In c (ci_online ci) /\
              exists i, In i indexes /\ rank_in_unit (ci_topo ci) s c i.
  Proof.
    intros Hl c. unfold select_by_index. rewrite filter_In.
    assert (Hna : In c l -> c <> NA).
    { intros Hin ->. apply (wf_no_na ci Hwf). auto. }
    split.
    - intros (Hin & E). split; [exact Hin|].
      destruct (in_dec Z.eq_dec c (ci_online ci)) as [Hon|Hoff].
      + split; [exact Hon|]. destruct (sibling_index_l c Hon) as (i & Ei & Hi).
        rewrite Ei in E. exists i. split; [now apply inb_In|exact Hi].
      + rewrite index_offline in E by auto. discriminate.
    - intros (Hin & Hon & i & Hi & Hr). split; [exact Hin|].
      destruct (sibling_index_l c Hon) as (j & Ej & Hj). rewrite Ej.
      rewrite (rank_functional c j i Hj Hr). now apply inb_In.
  Qed.
End SelectSiblings.

Lemma select_core_siblings_l ci cpus indexes r :
  wf_ci ci -> select_core_siblings ci cpus indexes = Ok r ->
  in_order_of cpus r /\
  forall c, In c r <-> In c cpus /\ In c (ci_online ci) /\
                       exists i, In i indexes /\ rank_in_unit (ci_topo ci) SCore c i.
Proof.
  intros Hwf. unfold select_core_siblings.
  destruct (normalize_cpus ci (Some cpus) true) as [l|] eqn:El; [|discriminate]. cbn [rbind].
  destruct (normalize_cpus_ok_l _ _ _ _ El) as (Hl & Hav & Hord). intros [= <-]. split.
  { apply in_order_filter, Hord. }
  intros c. rewrite (select_by_index_l ci Hwf SCore t_core LCore (fun t => [t_pkg t; t_core t])).
  - rewrite Hl. reflexivity.
  - reflexivity.
  - reflexivity.
  - intros t u _ _ _. rewrite samekey_eq. cbn. split; [intros (-> & ->); auto|intros [= -> ->]; auto].
  - intros t u _ _ _. reflexivity.
  - intros t u Ht Hu Htl [= E1 E2]. destruct (wf_cpu_lines ci Hwf t Ht Htl) as (?&?&?&?&?).
    intros Hna. destruct (wf_io_lines ci Hwf u Hu) as (?&?&?&?&?); [unfold cpu_line; lia|]. lia.
  - exact Hav.
Qed.

Lemma select_module_siblings_l ci cpus indexes r :
  wf_ci ci -> modules_unique (ci_topo ci) -> select_module_siblings ci cpus indexes = Ok r ->
  in_order_of cpus r /\
  forall c, In c r <-> In c cpus /\ In c (ci_online ci) /\
                       exists i, In i indexes /\ rank_in_unit (ci_topo ci) SModule c i.
Proof.
  intros Hwf Hm. unfold select_module_siblings.
  destruct (normalize_cpus ci (Some cpus) true) as [l|] eqn:El; [|discriminate]. cbn [rbind].
  destruct (normalize_cpus_ok_l _ _ _ _ El) as (Hl & Hav & Hord). intros [= <-]. split.
  { apply in_order_filter, Hord. }
  assert (Hcl : forall t u, In t (ci_topo ci) -> In u (ci_topo ci) -> cpu_line t ->
                            t_module t = t_module u -> cpu_line u).
  { intros t u Ht Hu Htl E. destruct (wf_cpu_lines ci Hwf t Ht Htl) as (?&?&?&?&?).
    intros Hna. destruct (wf_io_lines ci Hwf u Hu) as (?&?&?&?&?); [unfold cpu_line; lia|]. lia. }
  intros c. rewrite (select_by_index_l ci Hwf SModule t_module LModule (fun t => [t_module t])).
  - rewrite Hl. reflexivity.
  - reflexivity.
  - reflexivity.
  - intros t u _ _ _. rewrite samekey_eq. cbn. split; [intros (-> & ->); auto|intros [= -> ->]; auto].
  - intros t u Ht Hu Htl. split; [|intros [= _ ->]; reflexivity].
    intros [= E]. cbn. rewrite E. rewrite (Hm t u); auto. eapply Hcl; eauto.
  - intros t u Ht Hu Htl [= E1 E2]. eapply Hcl; eauto.
  - exact Hav.
Qed.
