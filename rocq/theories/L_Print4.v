(** The texts of numbers. *)
From Coq Require Import Ascii String ZifyBool Permutation.
From Verif Require Import Base L_Base M_CPUInfo S_CPUInfo L_CPUInfo L_CPUInfo2 M_Text L_Text M_Props M_OpTarget M_Print S_Print.

Lemma rangify_gives l : (forall x, In x l -> 0 <= x) -> NoDup l -> gives_nums (rangify l) l.
Proof.
  intros H ND. destruct (rangify_round_trip_dedup l) as (r & E & P & _); [now apply Forall_forall|exact ND|].
  exists r. split; [exact E|]. intros x. split; apply Permutation_in; [exact P|now apply Permutation_sym].
Qed.

Lemma rangify_one x : rangify [x] = dec x.
Proof. reflexivity. Qed.

Lemma len1 {A} (l : list A) : len l = 1 -> exists x, l = [x].
Proof. unfold len. destruct l as [|x [|y t]]; cbn [length]; intros H; [lia|eauto|lia]. Qed.

Lemma same_set_spec a b : same_set a b = true <-> forall x, In x a <-> In x b.
Proof.
  unfold same_set, subsetb. rewrite andb_true_iff, !forallb_forall. split.
  - intros (H1 & H2) x. split; intros I; [specialize (H1 x I)|specialize (H2 x I)]; now apply inb_In in H1 || apply inb_In in H2.
  - intros H. split; intros x I; apply inb_In; now apply H.
Qed.

Lemma same_set_false a b : same_set a b = false -> ~ forall x, In x a <-> In x b.
Proof. intros E H. apply same_set_spec in H. congruence. Qed.

Lemma fmt_cpus_ok ci l t : wf_ci ci -> NoDup l -> (forall x, In x l -> 0 <= x) -> (forall p, is_pkg (ci_topo ci) p -> 0 <= p) ->
  fmt_cpus ci l = Ok t -> cpus_text ci t l.
Proof.
  intros W ND NN NP. unfold fmt_cpus. destruct (Z.eqb_spec (len l) 1) as [E|N].
  { destruct (len1 _ E) as (x & ->). intros [= <-]. right. left. exists x. split; [reflexivity|]. cbn. intuition congruence. }
  destruct (same_set l (get_cpus ci)) eqn:Es.
  { intros [= <-]. left. split; [reflexivity|]. intros c. rewrite (proj1 (same_set_spec _ _) Es c). unfold get_cpus. now rewrite zsort_In. }
  destruct (cpus_div_packages ci (Some l) None) as [[pkgs rem]|] eqn:Ed; cbn [rbind]; [|discriminate].
  destruct (cpus_div_packages_l _ _ _ _ W Ed) as (NDp & Fp & Rp & _).
  assert (gives_nums (rangify l) l) as G by (now apply rangify_gives).
  destruct (negb (len pkgs =? 0) && (len rem =? 0)) eqn:Ec.
  - apply andb_prop in Ec. destruct Ec as (_ & Er). assert (rem = []) as -> by (destruct rem; [reflexivity|unfold len in Er; cbn [length] in Er; lia]).
    assert (gives_nums (rangify pkgs) pkgs) as Gp.
    { apply rangify_gives; [|exact NDp]. intros p I. apply Fp in I. apply NP. exact (proj1 I). }
    assert (forall c, In c l <-> exists p, In p pkgs /\ cpu_in_pkg (ci_topo ci) p c) as HU.
    { intros c. split.
      - intros I. destruct (in_dec Z.eq_dec c []) as [[]|_].
        assert (~ (In c l /\ ~ exists u, In u pkgs /\ cpu_in_pkg (ci_topo ci) u c)) as NN' by (intros X; apply Rp in X; destruct X).
        assert (In c (ci_all ci)) as Ia.
        { unfold cpus_div_packages in Ed. destruct (normalize_cpus ci (Some l) true) as [r|] eqn:En; [|discriminate].
          destruct (normalize_cpus_ok_l _ _ _ _ En) as (H1 & H2 & _). apply (H2 c). now apply H1. }
        (* decidability of membership *)
        destruct (existsb (fun t => negb (t_cpu t =? NA) && (t_cpu t =? c) && inb (t_pkg t) pkgs) (ci_topo ci)) eqn:Ex.
        + apply existsb_exists in Ex. destruct Ex as (t0 & It & Ht). apply andb_prop in Ht. destruct Ht as (Ht & Hp).
          apply andb_prop in Ht. destruct Ht as (Hn & Hc). apply inb_In in Hp. exists (t_pkg t0). split; [exact Hp|].
          exists t0. unfold cpu_line. repeat split; [exact It|lia|lia].
        + exfalso. apply NN'. split; [exact I|]. intros (u & Iu & t0 & It & Hl & Hc & Hp).
          assert (existsb (fun t => negb (t_cpu t =? NA) && (t_cpu t =? c) && inb (t_pkg t) pkgs) (ci_topo ci) = true); [|congruence].
          apply existsb_exists. exists t0. split; [exact It|]. unfold cpu_line in Hl. apply andb_true_intro. split; [lia|].
          apply inb_In. now rewrite Hp.
      - intros (p & Ip & Hp). apply Fp in Ip. exact (proj2 Ip c Hp). }
    destruct (len pkgs =? 1); intros [= <-]; right; right; right.
    + exists (rangify l), " (package "%string, (rangify pkgs), pkgs. split; [reflexivity|]. auto.
    + exists (rangify l), " (packages "%string, (rangify pkgs), pkgs. split; [reflexivity|]. auto.
  - intros [= <-]. right. right. left. exists (rangify l). now split.
Qed.

Lemma fmt_cpus_live ci l : wf_ci ci -> (forall x, In x l -> In x (ci_online ci)) -> exists t, fmt_cpus ci l = Ok t.
Proof.
  intros W H. unfold fmt_cpus. destruct (len l =? 1); [eauto|]. destruct (same_set l (get_cpus ci)); [eauto|].
  destruct (cpus_div_packages_succeeds_l ci l W) as (f & r & ->); [intros c I; now apply (wf_online_all ci W), H|].
  cbn [rbind]. destruct (negb _ && _); [destruct (len f =? 1)|]; eauto.
Qed.

Lemma fmt_packages_ok ci l t : wf_ci ci -> NoDup l -> (forall x, In x l -> 0 <= x) -> fmt_packages ci l = Ok t -> packages_text ci t l.
Proof.
  intros W ND NN. unfold fmt_packages. destruct (get_packages_l ci W) as (r & -> & NDr & Hr). cbn [rbind].
  destruct (same_set l r) eqn:Es.
  - assert (forall p, In p l <-> is_pkg (ci_topo ci) p) as HA by (intros p; rewrite (proj1 (same_set_spec _ _) Es p); apply Hr).
    destruct (len r =? 1); intros [= <-]; left; auto.
  - destruct (Z.eqb_spec (len l) 1) as [E|N]; intros [= <-].
    + destruct (len1 _ E) as (x & ->). right. left. exists x. split; [reflexivity|]. cbn. intuition congruence.
    + right. right. exists (rangify l). split; [reflexivity|]. now apply rangify_gives.
Qed.

Lemma fmt_packages_live ci l : wf_ci ci -> exists t, fmt_packages ci l = Ok t.
Proof.
  intros W. unfold fmt_packages. destruct (get_packages_l ci W) as (r & -> & _). cbn [rbind].
  destruct (same_set l r); [destruct (len r =? 1)|destruct (len l =? 1)]; eauto.
Qed.

Lemma dies_count ci p : wf_ci ci -> is_pkg (ci_topo ci) p -> exists r, get_dies_count ci p = Ok (len r) /\ NoDup r /\
  forall k, In k r <-> is_die (ci_topo ci) (p, k).
Proof.
  intros W H. destruct (package_to_dies_l ci p W H) as (r & E & ND & Hr). exists r. split; [|now split].
  unfold get_dies_count, get_dies. unfold package_to_dies in E. rewrite E. reflexivity.
Qed.

Lemma full_set (l r : list Z) : NoDup l -> NoDup r -> incl l r -> len l = len r -> forall x, In x l <-> In x r.
Proof.
  intros N1 N2 I E x. split; [apply I|]. apply (NoDup_length_incl N1); [|exact I]. unfold len in E. lia.
Qed.

Lemma fmt_pkg_dies_ok ci pd t : wf_ci ci -> NoDup (snd pd) -> (forall x, In x (snd pd) -> 0 <= x) ->
  (forall x, In x (snd pd) -> is_die (ci_topo ci) (fst pd, x)) -> is_pkg (ci_topo ci) (fst pd) ->
  fmt_pkg_dies ci pd = Ok t -> pkg_dies_text ci pd t.
Proof.
  intros W ND NN HD HP. unfold fmt_pkg_dies. destruct (dies_count ci (fst pd) W HP) as (r & -> & NDr & Hr). cbn [rbind].
  intros [= <-]. eexists. split; [reflexivity|]. destruct (Z.eqb_spec (len (snd pd)) (len r)) as [E|N].
  - left. split; [reflexivity|]. intros d. rewrite <- Hr. apply full_set; [exact ND|exact NDr|intros x I; now apply Hr, HD|exact E].
  - destruct (Z.eqb_spec (len (snd pd)) 1) as [E|N'].
    + destruct (len1 _ E) as (x & Ex). right. left. exists x. rewrite Ex. split; [reflexivity|]. cbn. intuition congruence.
    + right. right. exists (rangify (snd pd)). split; [reflexivity|]. now apply rangify_gives.
Qed.

Lemma comma_eq l : join_comma l = comma_list l.
Proof. induction l as [|x [|y t] IH]; [reflexivity|reflexivity|]. cbn [join_comma comma_list] in *. now rewrite IH. Qed.

Lemma rmap_F2 {A B} (f : A -> res B) l r : rmap l f = Ok r -> Forall2 (fun x y => f x = Ok y) l r.
Proof.
  revert r. induction l as [|x t IH]; cbn [rmap]; intros r; [intros [= <-]; constructor|].
  destruct (f x) as [y|] eqn:E; cbn [rbind]; [|discriminate]. destruct (rmap t f) as [ys|]; cbn [rbind]; [|discriminate].
  intros [= <-]. constructor; [exact E|]. now apply IH.
Qed.

Lemma F2_In {A B} (P Q : A -> B -> Prop) l m : (forall x y, In x l -> P x y -> Q x y) -> Forall2 P l m -> Forall2 Q l m.
Proof.
  intros H F. induction F as [|x y l m Hxy _ IH]; constructor; [apply H; [now left|exact Hxy]|]. apply IH. intros x' y' I. apply H. now right.
Qed.

Section Dies.
  Variable ci : cpuinfo.
  Hypothesis W : wf_ci ci.
  Variable d : list (Z * list Z).
  Hypothesis Once : each_once RDie (NDict d).
  Hypothesis Ex : forall k, holds RDie (NDict d) k -> exists_num ci k /\ nonneg_num k.

  Lemma die_has p l x : In (p, l) d -> In x l -> is_die (ci_topo ci) (p, x) /\ 0 <= p /\ 0 <= x.
  Proof. intros I J. destruct (Ex (NumDie p x)) as (H & N); [exists l; auto|]. cbn in H, N. tauto. Qed.

  Lemma die_pkg p l : In (p, l) d -> is_pkg (ci_topo ci) p /\ 0 <= p.
  Proof.
    intros I. destruct Once as (_ & _ & H). destruct (H p l I) as (Hl & _). destruct l as [|x l]; [now elim Hl|].
    destruct (die_has p (x :: l) x I (or_introl eq_refl)) as ((t & It & E & _) & N & _). split; [exists t; auto|exact N].
  Qed.

  Lemma fmt_dies_ok t : fmt_dies ci d = Ok t -> dies_text ci t d.
  Proof.
    destruct Once as (Dn & NDk & NDl). unfold fmt_dies.
    match goal with |- rbind (rmap d ?f) _ = _ -> _ => destruct (rmap d f) as [full|] eqn:Ef end; cbn [rbind]; [|discriminate].
    destruct (get_packages_l ci W) as (r & -> & NDr & Hr). cbn [rbind].
    destruct (forallb (fun b => b) full && (len d =? len r)) eqn:Ec.
    - apply andb_prop in Ec. destruct Ec as (Ea & El). intros H. left. split; [destruct (len r =? 1); injection H as <-; auto|].
      assert (forall p l, In (p, l) d -> forall x, In x l <-> is_die (ci_topo ci) (p, x)) as Hfull.
      { intros p l I x. apply rmap_F2 in Ef. assert (exists b, In b full /\ (let? n := get_dies_count ci p in Ok (len l =? n)) = Ok b) as (b & Ib & Eb).
        { clear - Ef I. induction Ef as [|pd b d' full' E _ IH]; [destruct I|]. destruct I as [-> |I].
          - exists b. split; [now left|exact E].
          - destruct (IH I) as (b' & I' & E'). exists b'. split; [now right|exact E']. }
        rewrite forallb_forall in Ea. specialize (Ea b Ib). cbn in Ea. subst b.
        destruct (dies_count ci p W (proj1 (die_pkg p l I))) as (rd & E & ND & Hd). rewrite E in Eb. cbn [rbind] in Eb. injection Eb as Eb.
        rewrite <- Hd. apply full_set; [exact (proj2 (NDl p l I))|exact ND|intros y J; apply Hd; exact (proj1 (die_has p l y I J))|lia]. }
      assert (forall p, In p (map fst d) <-> In p r) as Hp.
      { apply full_set; [exact NDk|exact NDr| |unfold len in *; rewrite map_length; lia].
        intros p I. apply in_map_iff in I. destruct I as ([p' l] & <- & I). apply Hr. exact (proj1 (die_pkg _ _ I)). }
      intros p x. cbn [holds]. split.
      + intros (l & I & J). now apply (Hfull p l I).
      + intros HD. assert (In p r) as Ip by (apply Hr; destruct HD as (t0 & It & E & _); exists t0; auto).
        apply Hp in Ip. apply in_map_iff in Ip. destruct Ip as ([p' l] & <- & I). exists l. split; [exact I|]. now apply (Hfull _ l I).
    - match goal with |- rbind (rmap d ?f) _ = _ -> _ => destruct (rmap d f) as [l|] eqn:El end; cbn [rbind]; [|discriminate].
      intros [= <-]. right. left. exists l. split; [apply comma_eq|]. apply rmap_F2 in El.
      eapply F2_In; [|exact El]. intros [p ds] y I E. apply (fmt_pkg_dies_ok ci _ _ W); cbn [fst snd]; [| | | |exact E].
      + exact (proj2 (NDl p ds I)).
      + intros x J. now apply (die_has p ds x I).
      + intros x J. now apply (die_has p ds x I).
      + exact (proj1 (die_pkg p ds I)).
  Qed.

  Lemma fmt_dies_live : exists t, fmt_dies ci d = Ok t.
  Proof.
    unfold fmt_dies.
    match goal with |- exists _, rbind (rmap d ?f) _ = _ => destruct (rmap_total f d) as (full & Ef) end.
    { intros [p ds] I. cbn [fst snd]. destruct (dies_count ci p W (proj1 (die_pkg p ds I))) as (r & -> & _). cbn [rbind]. eauto. }
    rewrite Ef. cbn [rbind]. destruct (get_packages_l ci W) as (r & -> & _). cbn [rbind].
    destruct (_ && _); [destruct (len r =? 1); eauto|].
    destruct (rmap_total (fmt_pkg_dies ci) d) as (l & ->); [|cbn [rbind]; eauto].
    intros [p ds] I. unfold fmt_pkg_dies. cbn [fst snd]. destruct (dies_count ci p W (proj1 (die_pkg p ds I))) as (r' & -> & _).
    cbn [rbind]. eauto.
  Qed.

  Lemma fmt_nums_die_ok t : even_dies ci -> (forall p, is_pkg (ci_topo ci) p -> 0 <= p) ->
    fmt_nums ci RDie (NDict d) = Ok t -> dies_text ci t d.
  Proof.
    intros EV NP. unfold fmt_nums. destruct (get_dies_count ci 0) as [n0|] eqn:E0; cbn [rbind]; [|discriminate].
    destruct (Z.eqb_spec n0 1) as [->|N]; [|apply fmt_dies_ok].
    intros H. right. right. destruct Once as (Dn & NDk & NDl). split.
    - apply (fmt_packages_ok ci _ _ W NDk); [|exact H]. intros p I. apply in_map_iff in I. destruct I as ([p' l] & <- & I).
      exact (proj2 (die_pkg _ _ I)).
    - assert (forall p x x', is_die (ci_topo ci) (p, x) -> is_die (ci_topo ci) (p, x') -> x = x') as Uniq.
      { apply EV. intros x x' D D'. assert (is_pkg (ci_topo ci) 0) as P0 by (destruct D as (t0 & It & E & _); exists t0; auto).
        destruct (dies_count ci 0 W P0) as (r & E & ND & Hr). rewrite E in E0. injection E0 as E0. destruct (len1 _ E0) as (y & ->).
        apply Hr in D. apply Hr in D'. destruct D as [<-|[]]. destruct D' as [<-|[]]. reflexivity. }
      intros p x. cbn [holds]. split.
      + intros (l & I & J). split; [apply in_map_iff; exists (p, l); auto|]. exact (proj1 (die_has p l x I J)).
      + intros (I & D). apply in_map_iff in I. destruct I as ([p' l] & Ep & I). cbn in Ep. subst p'. exists l. split; [exact I|].
        destruct (NDl p l I) as (Hl & _). destruct l as [|y l]; [now elim Hl|]. left.
        apply (Uniq p); [exact (proj1 (die_has p _ y I (or_introl eq_refl)))|exact D].
  Qed.
End Dies.

Lemma fmt_nums_ok ci sn n t : wf_ci ci -> even_dies ci -> (forall k, exists_num ci k -> nonneg_num k) -> each_once sn n ->
  (forall k, holds sn n k -> exists_num ci k) -> fmt_nums ci sn n = Ok t -> nums_text ci sn n t.
Proof.
  intros W EV NN Once Ex. assert (forall p, is_pkg (ci_topo ci) p -> 0 <= p) as NP by (intros p H; exact (NN (NumPkg p) H)).
  destruct sn, n as [l|d]; try (now destruct Once); cbn [nums_text].
  - intros HF. cbn in Once. apply fmt_cpus_ok; [exact W|exact (proj2 Once)| |exact NP|exact HF].
    intros x I. apply (NN (NumCPU x)). now apply Ex.
  - intros HF. apply fmt_nums_die_ok; [exact W|exact Once| |exact EV|exact NP|exact HF].
    intros k Hk. split; [now apply Ex|now apply NN, Ex].
  - intros HF. cbn in Once. apply fmt_packages_ok; [exact W|exact (proj2 Once)| |exact HF].
    intros x I. apply (NN (NumPkg x)). now apply Ex.
Qed.

Lemma fmt_nums_live ci sn n : wf_ci ci -> (forall k, exists_num ci k -> nonneg_num k) -> is_pkg (ci_topo ci) 0 -> each_once sn n ->
  (forall k, holds sn n k -> exists_num ci k) -> exists t, fmt_nums ci sn n = Ok t.
Proof.
  intros W NN P0 Once Ex. destruct sn, n as [l|d]; try (now destruct Once); cbn [fmt_nums].
  - apply fmt_cpus_live; [exact W|]. intros x I. exact (Ex (NumCPU x) I).
  - destruct (dies_count ci 0 W P0) as (r & -> & _). cbn [rbind]. destruct (len r =? 1); [now apply fmt_packages_live|].
    apply fmt_dies_live; [exact W|exact Once|]. intros k Hk. split; [now apply Ex|now apply NN, Ex].
  - now apply fmt_packages_live.
Qed.
