(** Lemmas about operation targets: the CPUs. *)
From Coq Require Import ZifyBool.
From Verif Require Import Base L_Base M_CPUInfo S_CPUInfo L_CPUInfo L_CPUInfo2 M_OpTarget S_OpTarget L_OpTarget.

Record ot_good (ci : cpuinfo) (ot : optarget) : Prop := {
  og_cpus : forall c, In c (ot_cpus ot) -> available ci (ot_offline_ok ot) c;
  og_cores : forall p l, In (p, l) (ot_cores ot) ->
    is_pkg (ci_topo ci) p /\ forall k, In k l -> is_core (ci_topo ci) (p, k);
  og_modules : forall m, In m (ot_modules ot) -> is_module (ci_topo ci) m;
  og_dies : forall p l, In (p, l) (ot_dies ot) ->
    is_pkg (ci_topo ci) p /\ forall d, In d l -> is_die (ci_topo ci) (p, d);
  og_packages : forall p, In p (ot_packages ot) -> is_pkg (ci_topo ci) p }.

(** The CPUs before the sibling filters, in terms of the object's attributes. *)
Definition raw_cpu (ci : cpuinfo) (ot : optarget) (c : Z) : Prop :=
  In c (ot_cpus ot) \/
  (exists p k, in_dict (ot_cores ot) p k /\ cpu_in_core (ci_topo ci) (p, k) c) \/
  (exists t, In t (ci_topo ci) /\ cpu_line t /\ t_cpu t = c /\ In (t_module t) (ot_modules ot)) \/
  (exists p d, in_dict (ot_dies ot) p d /\ cpu_in_die (ci_topo ci) (p, d) c) \/
  (ot_cores ot = [] /\ ot_dies ot = [] /\
   exists p, In p (ot_packages ot) /\ cpu_in_pkg (ci_topo ci) p c).

Lemma in_pkg_online ci p c : wf_ci ci -> cpu_in_pkg (ci_topo ci) p c -> In c (ci_online ci).
Proof. intros Hwf (t & Ht & Hl & E & _). apply (wf_online ci Hwf). eauto. Qed.
Lemma in_core_online ci p c : wf_ci ci -> cpu_in_core (ci_topo ci) p c -> In c (ci_online ci).
Proof. intros Hwf (t & Ht & Hl & E & _). apply (wf_online ci Hwf). eauto. Qed.
Lemma in_die_online ci p c : wf_ci ci -> cpu_in_die (ci_topo ci) p c -> In c (ci_online ci).
Proof. intros Hwf (t & Ht & Hl & E & _). apply (wf_online ci Hwf). eauto. Qed.
Lemma online_available ci off c : wf_ci ci -> In c (ci_online ci) -> available ci off c.
Proof. intros Hwf H. unfold available. destruct off; [|exact H]. now apply (wf_online_all ci Hwf). Qed.
Lemma available_all ci off c : wf_ci ci -> available ci off c -> In c (ci_all ci).
Proof. intros Hwf. unfold available. destruct off; [auto|]. apply (wf_online_all ci Hwf). Qed.

Lemma pkg_line ci p : wf_ci ci -> is_pkg (ci_topo ci) p ->
  exists t, In t (ci_topo ci) /\ lget LPkg t <> NA /\ lget LPkg t = p.
Proof. intros Hwf (t & Ht & E). exists t. destruct (line_pkg_ok ci t Hwf Ht). cbn. auto. Qed.

Lemma cores_cpus_live ci p l : wf_ci ci -> is_pkg (ci_topo ci) p ->
  (forall k, In k l -> is_core (ci_topo ci) (p, k)) ->
  exists r, cores_to_cpus ci (Some l) (Some [p]) = Ok r.
Proof.
  intros Hwf Hp Hk. unfold cores_to_cpus.
  destruct (proj2 (level_query_ok_iff ci LCPU LCore l LCPU ltac:(cbn; lia))) as (r1 & ->).
  { intros k Hi. destruct (Hk k Hi) as (t & Ht & Hl & _ & E). exists t.
    destruct (wf_cpu_lines ci Hwf t Ht Hl) as (?&?&?&?&?). cbn in *. auto. }
  destruct (proj2 (level_query_ok_iff ci LCPU LPkg [p] LCPU ltac:(cbn; lia))) as (r2 & ->).
  { intros q [<-|[]]. now apply pkg_line. }
  cbn. eauto.
Qed.
Lemma dies_cpus_live ci p l : wf_ci ci -> is_pkg (ci_topo ci) p ->
  (forall k, In k l -> is_die (ci_topo ci) (p, k)) ->
  exists r, dies_to_cpus ci (Some l) (Some [p]) = Ok r.
Proof.
  intros Hwf Hp Hk. unfold dies_to_cpus.
  destruct (proj2 (level_query_ok_iff ci LCPU LDie l LCPU ltac:(cbn; lia))) as (r1 & ->).
  { intros k Hi. destruct (Hk k Hi) as (t & Ht & _ & E). exists t.
    destruct (line_pkg_ok ci t Hwf Ht) as (?&?). cbn in *. auto. }
  destruct (proj2 (level_query_ok_iff ci LCPU LPkg [p] LCPU ltac:(cbn; lia))) as (r2 & ->).
  { intros q [<-|[]]. now apply pkg_line. }
  cbn. eauto.
Qed.

(** CPUs of the items of a dictionary. *)
Lemma units_cpus_spec ci (to_cpus : nums_t -> nums_t -> res (list Z)) (member : Z * Z -> Z -> Prop) d :
  (forall p l, In (p, l) d -> exists r, to_cpus (Some l) (Some [p]) = Ok r /\
     forall c, In c r <-> exists u, In u l /\ member (p, u) c) ->
  wf_ci ci ->
  exists r, units_cpus to_cpus d = Ok r /\
    forall c, In c r <-> exists p u, in_dict d p u /\ member (p, u) c.
Proof.
  intros H Hwf. unfold units_cpus.
  destruct (rmap_succeeds (fun e : Z * list Z => to_cpus (Some (snd e)) (Some [fst e])) d) as (ls & E).
  { intros (p & l) Hi. destruct (H p l Hi) as (r & Er & _). eauto. }
  rewrite E. cbn [rbind]. exists (concat ls). split; [reflexivity|]. apply rmap_ok in E.
  intros c. rewrite in_concat. split.
  - intros (r & Hr & Hc). destruct (Forall2_In_r _ _ _ _ E Hr) as ((p & l) & Hi & Er). cbn in Er.
    destruct (H p l Hi) as (r' & Er' & Hr'). rewrite Er in Er'. injection Er' as <-.
    apply (proj1 (Hr' c)) in Hc. destruct Hc as (u & Hu & Hm). exists p, u. split; [exists l; auto|exact Hm].
  - intros (p & u & (l & Hi & Hu) & Hm). destruct (Forall2_In_l _ _ _ _ E Hi) as (r & Hr & Er).
    cbn in Er. exists r. split; [exact Hr|]. destruct (H p l Hi) as (r' & Er' & Hr').
    rewrite Er in Er'. injection Er' as <-. apply Hr'. eauto.
Qed.

Lemma cores_part ci ot : wf_ci ci -> ot_good ci ot ->
  exists r, units_cpus (cores_to_cpus ci) (ot_cores ot) = Ok r /\
    forall c, In c r <-> exists p k, in_dict (ot_cores ot) p k /\ cpu_in_core (ci_topo ci) (p, k) c.
Proof.
  intros Hwf G. apply (units_cpus_spec ci (cores_to_cpus ci) (cpu_in_core (ci_topo ci))); [|exact Hwf].
  intros p l Hi. destruct (og_cores ci ot G p l Hi) as (Hp & Hk).
  destruct (cores_cpus_live ci p l Hwf Hp Hk) as (r & Er). exists r. split; [exact Er|].
  destruct (cores_to_cpus_l _ _ _ _ Hwf Er) as (_ & Hr). intros c. rewrite Hr. cbn. split.
  - intros (q & u & [<-|[]] & Hu & Hm). eauto.
  - intros (u & Hu & Hm). exists p, u. auto.
Qed.
Lemma dies_part ci ot : wf_ci ci -> ot_good ci ot ->
  exists r, units_cpus (dies_to_cpus ci) (ot_dies ot) = Ok r /\
    forall c, In c r <-> exists p k, in_dict (ot_dies ot) p k /\ cpu_in_die (ci_topo ci) (p, k) c.
Proof.
  intros Hwf G. apply (units_cpus_spec ci (dies_to_cpus ci) (cpu_in_die (ci_topo ci))); [|exact Hwf].
  intros p l Hi. destruct (og_dies ci ot G p l Hi) as (Hp & Hk).
  destruct (dies_cpus_live ci p l Hwf Hp Hk) as (r & Er). exists r. split; [exact Er|].
  destruct (dies_to_cpus_l _ _ _ _ Hwf Er) as (_ & Hr). intros c. rewrite Hr. cbn. split.
  - intros (q & u & [<-|[]] & Hu & Hm). eauto.
  - intros (u & Hu & Hm). exists p, u. auto.
Qed.
Lemma modules_part ci ot : wf_ci ci -> ot_good ci ot ->
  exists r, (if truthy (ot_modules ot) then modules_to_cpus ci (Some (ot_modules ot)) else Ok []) = Ok r /\
    forall c, In c r <-> exists t, In t (ci_topo ci) /\ cpu_line t /\ t_cpu t = c /\ In (t_module t) (ot_modules ot).
Proof.
  intros Hwf G. destruct (truthy (ot_modules ot)) eqn:T.
  - destruct (proj2 (level_query_ok_iff ci LCPU LModule (ot_modules ot) LCPU ltac:(cbn; lia))) as (r & Er).
    { intros m Hm. destruct (og_modules ci ot G m Hm) as (t & Ht & Hl & E). exists t.
      destruct (wf_cpu_lines ci Hwf t Ht Hl) as (?&?&?&?&?). cbn in *. auto. }
    exists r. split; [exact Er|]. now destruct (modules_to_cpus_l _ _ _ Hwf Er) as (_ & Hr).
  - apply truthy_false in T. rewrite T. exists []. split; [reflexivity|]. intros c. cbn. split; [tauto|].
    intros (t & _ & _ & _ & []).
Qed.
Lemma packages_part ci ot : wf_ci ci -> ot_good ci ot ->
  exists r, (if truthy (ot_packages ot) && negb (truthy (ot_cores ot) || truthy (ot_dies ot))
             then packages_to_cpus ci (Some (ot_packages ot)) else Ok []) = Ok r /\
    forall c, In c r <-> ot_cores ot = [] /\ ot_dies ot = [] /\
                         exists p, In p (ot_packages ot) /\ cpu_in_pkg (ci_topo ci) p c.
Proof.
  intros Hwf G. destruct (truthy (ot_packages ot)) eqn:T; cbn [andb].
  - destruct (truthy (ot_cores ot)) eqn:T1; cbn [orb negb].
    { exists []. split; [reflexivity|]. apply truthy_spec in T1. intros c. cbn. tauto. }
    destruct (truthy (ot_dies ot)) eqn:T2; cbn [orb negb].
    { exists []. split; [reflexivity|]. apply truthy_spec in T2. intros c. cbn. tauto. }
    apply truthy_false in T1, T2.
    destruct (proj2 (level_query_ok_iff ci LCPU LPkg (ot_packages ot) LCPU ltac:(cbn; lia))) as (r & Er).
    { intros p Hp. apply pkg_line; [exact Hwf|]. now apply (og_packages ci ot G). }
    exists r. split; [exact Er|]. destruct (packages_to_cpus_l _ _ _ Hwf Er) as (_ & Hr).
    intros c. rewrite Hr. cbn. tauto.
  - apply truthy_false in T. rewrite T. exists []. split; [reflexivity|]. intros c. cbn. split; [tauto|].
    intros (_ & _ & p & [] & _).
Qed.

Lemma normalize_cpus_live ci l off : (forall c, In c l -> available ci off c) ->
  exists r, normalize_cpus ci (Some l) off = Ok r /\ NoDup r /\ forall c, In c r <-> In c l.
Proof.
  intros H. destruct (normalize_cpus ci (Some l) off) as [r|e] eqn:E.
  - exists r. split; [reflexivity|]. destruct (normalize_cpus_ok_l _ _ _ _ E) as (A & _ & C).
    split; [now apply in_order_NoDup in C|exact A].
  - exfalso. destruct (proj1 (normalize_cpus_fails_l ci l off)) as (x & Hx & Hn); [eauto|]. auto.
Qed.
Lemma core_sib_live ci l idx : wf_ci ci -> (forall c, In c l -> In c (ci_all ci)) ->
  exists r, select_core_siblings ci l idx = Ok r /\ NoDup r /\
    forall c, In c r <-> In c l /\ In c (ci_online ci) /\ exists i, In i idx /\ rank_in_unit (ci_topo ci) SCore c i.
Proof.
  intros Hwf H. destruct (select_core_siblings ci l idx) as [r|e] eqn:E.
  - exists r. split; [reflexivity|]. destruct (select_core_siblings_l _ _ _ _ Hwf E) as (A & B).
    split; [now apply in_order_NoDup in A|exact B].
  - exfalso. unfold select_core_siblings in E.
    destruct (normalize_cpus_live ci l true H) as (r & Er & _). rewrite Er in E. discriminate.
Qed.
Lemma module_sib_live ci l idx : wf_ci ci -> (forall c, In c l -> In c (ci_all ci)) ->
  exists r, select_module_siblings ci l idx = Ok r /\
    (forall c, In c r -> In c l) /\
    (modules_unique (ci_topo ci) -> NoDup r /\
     forall c, In c r <-> In c l /\ In c (ci_online ci) /\ exists i, In i idx /\ rank_in_unit (ci_topo ci) SModule c i).
Proof.
  intros Hwf H. unfold select_module_siblings.
  destruct (normalize_cpus_live ci l true H) as (r & Er & _ & Hr). rewrite Er. cbn [rbind].
  eexists. split; [reflexivity|]. split.
  - intros c Hc. unfold select_by_index in Hc. apply filter_In in Hc as (Hc & _). now apply Hr.
  - intros Hm.
    assert (E : select_module_siblings ci l idx = Ok (select_by_index
      (sib_index_loop t_module None 0 (get_topology ci LModule) []) r idx)).
    { unfold select_module_siblings. now rewrite Er. }
    destruct (select_module_siblings_l _ _ _ _ Hwf Hm E) as (A & B).
    split; [now apply in_order_NoDup in A|exact B].
Qed.

(** ** _get_cpus() *)
Lemma get_cpus_impl_spec ci ot : wf_ci ci -> ot_good ci ot ->
  exists r, get_cpus_impl ci ot [] = Ok r /\ (forall c, In c r -> In c (ci_all ci)) /\
    (ot_module_sib ot = [] \/ modules_unique (ci_topo ci) -> NoDup r /\
     forall c, In c r <-> raw_cpu ci ot c /\ passes ci SCore (ot_core_sib ot) c /\
                          passes ci SModule (ot_module_sib ot) c).
Proof.
  intros Hwf G. unfold get_cpus_impl. cbn [excluded existsb].
  destruct (cores_part ci ot Hwf G) as (r1 & -> & H1). cbn [rbind].
  destruct (modules_part ci ot Hwf G) as (r2 & -> & H2). cbn [rbind].
  destruct (dies_part ci ot Hwf G) as (r3 & -> & H3). cbn [rbind].
  destruct (packages_part ci ot Hwf G) as (r4 & -> & H4). cbn [rbind].
  set (l := ot_cpus ot ++ r1 ++ r2 ++ r3 ++ r4).
  assert (Hl : forall c, In c l <-> raw_cpu ci ot c).
  { intros c. unfold l, raw_cpu. rewrite !in_app_iff, H1, H2, H3, H4. tauto. }
  assert (Hav : forall c, In c l -> available ci (ot_offline_ok ot) c).
  { intros c Hc. apply Hl in Hc.
    destruct Hc as [Hc|[(p & k & _ & Hc)|[(t & Ht & Hl' & E & _)|[(p & d & _ & Hc)|(_ & _ & p & _ & Hc)]]]].
    - now apply (og_cpus ci ot G).
    - apply online_available; [exact Hwf|]. now apply in_core_online in Hc.
    - apply online_available; [exact Hwf|]. apply (wf_online ci Hwf). eauto.
    - apply online_available; [exact Hwf|]. now apply in_die_online in Hc.
    - apply online_available; [exact Hwf|]. now apply in_pkg_online in Hc. }
  clearbody l. clear H1 H2 H3 H4.
  assert (S1 : exists l1, (if truthy (ot_core_sib ot) then select_core_siblings ci l (ot_core_sib ot) else Ok l) = Ok l1 /\
           forall c, In c l1 <-> In c l /\ passes ci SCore (ot_core_sib ot) c).
  { unfold passes. destruct (truthy (ot_core_sib ot)) eqn:T.
    - destruct (core_sib_live ci l (ot_core_sib ot) Hwf) as (l1 & -> & _ & Hl1).
      { intros c Hc. eapply available_all; eauto. }
      exists l1. split; [reflexivity|]. apply truthy_spec in T. intros c. rewrite Hl1. tauto.
    - apply truthy_false in T. exists l. split; [reflexivity|]. intros c. tauto. }
  destruct S1 as (l1 & -> & Hl1). cbn [rbind].
  assert (Hav1 : forall c, In c l1 -> available ci (ot_offline_ok ot) c) by (intros c Hc; apply Hav, Hl1, Hc).
  destruct (truthy (ot_module_sib ot)) eqn:T.
  - destruct (module_sib_live ci l1 (ot_module_sib ot) Hwf) as (r & E & Hsub & Hr).
    { intros c Hc. eapply available_all; eauto. }
    exists r. split; [exact E|]. split.
    + intros c Hc. eapply available_all; [exact Hwf|]. now apply Hav1, Hsub.
    + apply truthy_spec in T. intros [Hm|Hm]; [contradiction|]. destruct (Hr Hm) as (Hnd & Hin).
      split; [exact Hnd|]. intros c. rewrite Hin, Hl1, Hl. unfold passes at 3. tauto.
  - apply truthy_false in T. rewrite T.
    destruct (normalize_cpus_live ci l1 (ot_offline_ok ot) Hav1) as (r & E & Hnd & Hr).
    exists r. split; [exact E|]. split.
    + intros c Hc. eapply available_all; [exact Hwf|]. now apply Hav1, Hr.
    + intros _. split; [exact Hnd|]. intros c. rewrite Hr, Hl1, Hl. unfold passes at 3. tauto.
Qed.

(** ** The constructor *)

Record init_facts (ci : cpuinfo) (a : otargs) (ot : optarget) : Prop := {
  if_cpus : forall c, In c (ot_cpus ot) <-> wants_cpu ci a c;
  if_modules : forall m, In m (ot_modules ot) <-> is_module (ci_topo ci) m /\ wants_module a m;
  if_packages : forall p, In p (ot_packages ot) <-> is_pkg (ci_topo ci) p /\ wants_pkg a p;
  if_cores : forall p k, in_dict (ot_cores ot) p k <-> is_core (ci_topo ci) (p, k) /\ wants_core a (p, k);
  if_dies : forall p d, in_dict (ot_dies ot) p d <-> is_die (ci_topo ci) (p, d) /\ wants_die a (p, d);
  if_cores_named : ot_cores ot <> [] -> names_units (oa_cores a);
  if_dies_named : ot_dies ot <> [] -> names_units (oa_dies a) \/ everything a;
  if_cores_empty : names_units (oa_cores a) -> ot_cores ot = [] -> ot_packages ot = [];
  if_dies_empty : names_units (oa_dies a) -> ot_dies ot = [] -> ot_packages ot = [];
  if_core_sib : forall i, In i (ot_core_sib ot) <-> In i (oa_core_sib a);
  if_module_sib : forall i, In i (ot_module_sib ot) <-> In i (oa_module_sib a);
  if_off : ot_offline_ok ot = oa_offline_ok a;
  if_good : ot_good ci ot;
  if_c_dies : ot_c_dies ot = None;
  if_c_packages : ot_c_packages ot = None;
  if_c_cpus : forall l, ot_c_cpus ot = Some l -> get_cpus_impl ci ot [] = Ok l }.

Definition nothingb (a : otargs) : bool :=
  negb (given_nums (oa_cpus a)) && negb (given_units (oa_cores a)) &&
  negb (given_nums (oa_modules a)) && negb (given_units (oa_dies a)) &&
  negb (given_nums (oa_packages a)).
Lemma nothingb_spec a : nothingb a = true <-> everything a.
Proof.
  unfold nothingb, everything. rewrite !andb_true_iff, !negb_true_iff, !given_nums_false, !given_units_false.
  tauto.
Qed.

Definition e_cpus (a : otargs) := if nothingb a then Some None else oa_cpus a.
Definition e_dies (a : otargs) := if nothingb a then UNums None else oa_dies a.
Definition e_packages (a : otargs) : option nums_t :=
  let dies := e_dies a in
  let packages := if nothingb a then Some None else oa_packages a in
  if negb (given_nums packages) && (given_units dies || given_units (oa_cores a)) &&
                     (units_all dies || units_all (oa_cores a))
                  then Some None else packages.

Lemma e_packages_given a : given_nums (e_packages a) = true <-> everything a \/ qualified a.
Proof.
  unfold e_packages, e_dies. rewrite <- nothingb_spec. destruct (nothingb a) eqn:N; [cbn; tauto|].
  unfold qualified. rewrite <- given_nums_spec, <- !units_all_spec.
  destruct (given_nums (oa_packages a)) eqn:G; cbn [negb andb]; [rewrite G; tauto|].
  destruct (units_all (oa_dies a)) eqn:U1.
  - apply units_all_spec in U1. rewrite U1. cbn. tauto.
  - destruct (units_all (oa_cores a)) eqn:U2.
    + apply units_all_spec in U2. rewrite U2. cbn. rewrite orb_true_r. cbn. tauto.
    + cbn [orb]. rewrite andb_false_r, G. split; [discriminate|]. intros [H|[H|[H|H]]]; discriminate.
Qed.

Lemma e_packages_chosen a p : given_nums (e_packages a) = true ->
  (chosen (e_packages a) p <-> wants_pkg a p).
Proof.
  intros H. pose proof (proj1 (e_packages_given a) H) as Hq.
  unfold wants_pkg. unfold e_packages, e_dies in *.
  destruct (nothingb a) eqn:N.
  - apply nothingb_spec in N. cbn. split; [|tauto]. intros _. right. split; [|auto]. now destruct N as (_&_&_&_&?).
  - assert (Hne : ~ everything a) by (rewrite <- nothingb_spec; congruence).
    destruct (given_nums (oa_packages a)) eqn:G; cbn [negb andb] in *.
    + apply given_nums_spec in G. tauto.
    + apply given_nums_false in G.
      destruct ((given_units (oa_dies a) || given_units (oa_cores a)) && (units_all (oa_dies a) || units_all (oa_cores a))) eqn:E.
      * cbn. split; [tauto|auto].
      * exfalso. apply given_nums_spec in H. auto.
Qed.

Lemma e_packages_list a l : e_packages a = Some (Some l) -> oa_packages a = Some (Some l).
Proof.
  unfold e_packages. destruct (nothingb a); [now destruct (_ && _)|]. now destruct (_ && _).
Qed.

Lemma parse_has n u : nums_has (parse_nums n) u <-> nums_has n u.
Proof. destruct n; cbn; [apply dedup_In|tauto]. Qed.

(** One simple argument. *)
Definition resolve_nums (norm : nums_t -> res (list Z)) (arg : option nums_t) : res (list Z) :=
  match arg with
  | Some n => if given_nums arg then norm (parse_nums n) else Ok []
  | None => Ok []
  end.

Lemma resolve_nums_ok norm arg r (exists_ : Z -> Prop) :
  (forall n r, norm n = Ok r -> (forall x, In x r <-> exists_ x /\ nums_has n x) /\
                                (forall l, n = Some l -> forall x, In x l -> exists_ x)) ->
  resolve_nums norm arg = Ok r ->
  (forall x, In x r <-> exists_ x /\ chosen arg x) /\
  (forall l, arg = Some (Some l) -> forall x, In x l -> exists_ x).
Proof.
  intros Hn. unfold resolve_nums. destruct arg as [n|].
  - destruct (given_nums (Some n)) eqn:G.
    + intros H. apply Hn in H as (A & B). split.
      * intros x. rewrite A, parse_has. reflexivity.
      * intros l [= ->] x Hx. apply (B (dedup l)); [reflexivity|]. now rewrite dedup_In.
    + destruct n as [l|]; [|discriminate]. cbn in G. apply truthy_false in G. subst l.
      intros [= <-]. split; [cbn; tauto|]. intros l [= <-] x [].
  - intros [= <-]. split; [cbn; tauto|discriminate].
Qed.
Lemma resolve_nums_succeeds norm arg (exists_ : Z -> Prop) :
  (forall n, (forall l, n = Some l -> forall x, In x l -> exists_ x) -> exists r, norm n = Ok r) ->
  (forall l, arg = Some (Some l) -> forall x, In x l -> exists_ x) ->
  exists r, resolve_nums norm arg = Ok r.
Proof.
  intros Hn H. unfold resolve_nums. destruct arg as [n|]; [|eauto]. destruct (given_nums (Some n)); [|eauto].
  apply Hn. intros l El x Hx. destruct n as [l'|]; [|discriminate]. cbn in El. injection El as <-.
  rewrite dedup_In in Hx. now apply (H l').
Qed.

Lemma norm_cpus_ok ci off : wf_ci ci -> forall n r, normalize_cpus ci n off = Ok r ->
  (forall x, In x r <-> available ci off x /\ nums_has n x) /\
  (forall l, n = Some l -> forall x, In x l -> available ci off x).
Proof.
  intros Hwf n r E. destruct n as [l|].
  - destruct (normalize_cpus_ok_l _ _ _ _ E) as (A & B & _). split.
    + intros x. rewrite A. cbn. split; [|tauto]. intros Hx. split; [apply B; now apply A|exact Hx].
    + intros l' [= <-] x Hx. apply B. now apply A.
  - destruct (normalize_cpus_all_l ci off Hwf) as (r' & E' & _ & H). rewrite E in E'. injection E' as <-.
    split; [|discriminate]. intros x. rewrite H. cbn. tauto.
Qed.
Lemma norm_cpus_succ ci off : wf_ci ci -> forall n,
  (forall l, n = Some l -> forall x, In x l -> available ci off x) -> exists r, normalize_cpus ci n off = Ok r.
Proof.
  intros Hwf n H. destruct n as [l|].
  - destruct (normalize_cpus_live ci l off) as (r & E & _); [now apply H|eauto].
  - destruct (normalize_cpus_all_l ci off Hwf) as (r & E & _). eauto.
Qed.
Lemma get_modules_l ci : wf_ci ci -> exists r, get_modules ci = Ok r /\ forall m, In m r <-> is_module (ci_topo ci) m.
Proof.
  intros Hwf. destruct (get_level_nums_succeeds ci LModule LModule None LModule) as (r & E); [cbn; lia|discriminate|].
  exists r. split; [exact E|]. destruct (get_level_nums_ok _ _ _ _ _ _ E) as (_ & Hin & _ & _).
  intros m. rewrite Hin. cbn [lget]. split.
  - intros (t & Ht & Hn & _ & <- & _). exists t. repeat split; auto. intros Hc.
    destruct (wf_io_lines ci Hwf t Ht) as (?&?&?&?&?); [unfold cpu_line; lia|]. contradiction.
  - intros (t & Ht & Hl & <-). exists t. destruct (wf_cpu_lines ci Hwf t Ht Hl) as (?&?&?&?&?). cbn. auto.
Qed.
Lemma norm_modules_ok ci : wf_ci ci -> forall n r, normalize_modules ci n = Ok r ->
  (forall x, In x r <-> is_module (ci_topo ci) x /\ nums_has n x) /\
  (forall l, n = Some l -> forall x, In x l -> is_module (ci_topo ci) x).
Proof.
  intros Hwf n r. unfold normalize_modules. destruct (get_modules_l ci Hwf) as (av & E & Hav).
  rewrite E. cbn [rbind]. destruct n as [l|].
  - intros H. apply normalize_in_ok in H as (-> & H). split.
    + intros u. rewrite dedup_In. cbn. split; [|tauto]. intros Hu. split; [now apply Hav, H|auto].
    + intros l' [= <-] u Hu. now apply Hav, H.
  - intros [= <-]. split; [|discriminate]. intros u. rewrite Hav. cbn. tauto.
Qed.
Lemma norm_modules_succ ci : wf_ci ci -> forall n,
  (forall l, n = Some l -> forall x, In x l -> is_module (ci_topo ci) x) -> exists r, normalize_modules ci n = Ok r.
Proof.
  intros Hwf n H. unfold normalize_modules. destruct (get_modules_l ci Hwf) as (av & E & Hav).
  rewrite E. cbn [rbind]. destruct n as [l|]; [|eauto]. rewrite normalize_in_succeeds; [eauto|].
  intros u Hu. apply Hav. now apply (H l).
Qed.

Lemma core_pkg ci p k : is_core (ci_topo ci) (p, k) -> is_pkg (ci_topo ci) p.
Proof. intros (t & Ht & _ & E & _). exists t. auto. Qed.
Lemma die_pkg ci p k : is_die (ci_topo ci) (p, k) -> is_pkg (ci_topo ci) p.
Proof. intros (t & Ht & E & _). exists t. auto. Qed.
Lemma normalize_cores_U ci n p : normalize_cores ci n p = normU (package_to_cores ci) n p.
Proof. reflexivity. Qed.

(** The constructor, in terms of the effective arguments. *)
Lemma ot_init_eq ci a :
  ot_init ci a =
  (let? r_cpus := resolve_nums (fun n => normalize_cpus ci n (oa_offline_ok a)) (e_cpus a) in
   let? r_modules := resolve_nums (normalize_modules ci) (oa_modules a) in
   let? r_packages := resolve_nums (normalize_packages ci) (e_packages a) in
   let? r_cores := resolve_units ci (package_to_cores ci) (normU (package_to_cores ci)) (oa_cores a)
                     (given_nums (e_packages a)) r_packages in
   let? r_dies := resolve_units ci (package_to_dies ci) (normU (package_to_dies ci)) (e_dies a)
                    (given_nums (e_packages a)) r_packages in
   let ot c_sib m_sib cache := OT r_cpus r_cores r_modules r_dies r_packages c_sib m_sib
                                 (oa_offline_ok a) cache None None in
   let c_sib := dedup (oa_core_sib a) in
   let m_sib := dedup (oa_module_sib a) in
   let? cache := if truthy (oa_core_sib a)
                 then let? c := get_cpus_impl ci (ot c_sib [] None) [] in
                      let? _ := select_core_siblings ci c c_sib in Ok (Some c)
                 else Ok None in
   let? cache := if truthy (oa_module_sib a)
                 then let? c := get_cpus_impl ci (ot c_sib m_sib None) [] in
                      let? _ := select_core_siblings ci c m_sib in Ok (Some c)
                 else Ok cache in
   Ok (ot c_sib m_sib cache)).
Proof. reflexivity. Qed.
