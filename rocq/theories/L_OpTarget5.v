(** Lemmas about operation targets: histories of questions. *)
From Coq Require Import ZifyBool.
From Verif Require Import Base L_Base L_Monad M_CPUInfo S_CPUInfo L_CPUInfo L_CPUInfo2 M_OpTarget S_OpTarget
  L_OpTarget L_OpTarget2 L_OpTarget3 L_OpTarget4.

Definition with_caches (o : optarget) c d p : optarget :=
  OT (ot_cpus o) (ot_cores o) (ot_modules o) (ot_dies o) (ot_packages o) (ot_core_sib o)
     (ot_module_sib o) (ot_offline_ok o) c d p.

(** Everything fresh computations would give. *)
Record answers (ci : cpuinfo) (a : otargs) (o : optarget) (T : list Z) (D : list (Z * Z)) (P : list Z) : Prop := {
  an_cpus : get_cpus_impl ci o [] = Ok T;
  an_T_nd : NoDup T;
  an_T : forall c, In c T <-> target_cpu ci a c;
  an_dies : compute_dies ci o false = Ok D;
  an_D_nd : NoDup D;
  an_D : forall pd, In pd D <-> full_die ci a pd \/ named_die ci a pd;
  an_D_strict : (dies_only ci a /\ compute_dies ci o true = Ok D) \/
                (~ dies_only ci a /\ compute_dies ci o true = Exn ENoTarget);
  an_pkgs : compute_packages ci o false = Ok P;
  an_P_nd : NoDup P;
  an_P : forall p, In p P <-> full_package ci a p \/ named_package ci a p;
  an_P_strict : (packages_only ci a /\ compute_packages ci o true = Ok P) \/
                (~ packages_only ci a /\ compute_packages ci o true = Exn ENoTarget)
}.

(** The caches: [ds], [ps] tell whether only strict questions about dies, packages were asked. *)
Inductive caches (ci : cpuinfo) (a : otargs) (o : optarget) T D P (ds ps : bool) : optarget -> Prop :=
| Caches c d p :
    (forall x, c = Some x -> x = T) ->
    (forall x, d = Some x -> x = D /\ (ds = true -> dies_only ci a)) ->
    (forall x, p = Some x -> x = P /\ (ps = true -> packages_only ci a)) ->
    caches ci a o T D P ds ps (with_caches o c d p).

Section Hist.
Variable ci : cpuinfo.
Variable a : otargs.
Variable o : optarget.
Variable T : list Z.
Variable D : list (Z * Z).
Variable P : list Z.
Hypothesis wf : wf_ci ci.
Hypothesis F : init_facts ci a o.
Hypothesis Hio : io_dies_exact ci.
Hypothesis AN : answers ci a o T D P.

Notation CA := (caches ci a o T D P).

Lemma caches_weaken ds ps ds' ps' s : (ds' = true -> ds = true) -> (ps' = true -> ps = true) ->
  CA ds ps s -> CA ds' ps' s.
Proof.
  intros H1 H2 H. destruct H as [c d p Hc Hd Hp]. constructor; auto.
  - intros x E. destruct (Hd x E). auto.
  - intros x E. destruct (Hp x E). auto.
Qed.

Lemma get_dies_run ds ps strict s : CA ds ps s ->
  exists s', CA (ds && strict) ps s' /\
   ((ot_get_dies ci strict s = (Ok D, s') /\ (ds && strict = true -> dies_only ci a)) \/
    (ot_get_dies ci strict s = (Exn ENoTarget, s') /\ strict = true /\ ~ dies_only ci a)).
Proof.
  intros H. destruct H as [c d p Hc Hd Hp]. unfold ot_get_dies, mbind, gets. cbn [with_caches ot_c_dies].
  destruct d as [x|].
  - destruct (Hd x eq_refl) as (-> & Hs). eexists. split; [|left; split; [reflexivity|]].
    + apply (caches_weaken ds ps); [now destruct ds|auto|]. now constructor.
    + intros E. apply Hs. now destruct ds.
  - change (compute_dies ci (with_caches o c None p) strict) with (compute_dies ci o strict).
    destruct strict.
    + destruct (an_D_strict _ _ _ _ _ _ AN) as [(H1 & ->)|(H1 & ->)].
      * unfold lift, modify, ret. eexists. split; [|left; split; [reflexivity|auto]].
        apply (Caches ci a o T D P _ _ c (Some D) p); auto. intros x [= <-]. auto.
      * unfold lift. eexists. split; [|right; split; [reflexivity|auto]].
        apply (caches_weaken ds ps); [now destruct ds|auto|]. now constructor.
    + rewrite (an_dies _ _ _ _ _ _ AN). unfold lift, modify, ret. eexists. split; [|left; split; [reflexivity|]].
      * apply (Caches ci a o T D P _ _ c (Some D) p); auto. intros x [= <-]. split; [auto|]. now destruct ds.
      * now destruct ds.
Qed.

Lemma get_packages_run ds ps strict s : CA ds ps s ->
  exists s', CA ds (ps && strict) s' /\
   ((ot_get_packages ci strict s = (Ok P, s') /\ (ps && strict = true -> packages_only ci a)) \/
    (ot_get_packages ci strict s = (Exn ENoTarget, s') /\ strict = true /\ ~ packages_only ci a)).
Proof.
  intros H. destruct H as [c d p Hc Hd Hp]. unfold ot_get_packages, mbind, gets. cbn [with_caches ot_c_packages].
  destruct p as [x|].
  - destruct (Hp x eq_refl) as (-> & Hs). eexists. split; [|left; split; [reflexivity|]].
    + apply (caches_weaken ds ps); [auto|now destruct ps|]. now constructor.
    + intros E. apply Hs. now destruct ps.
  - change (compute_packages ci (with_caches o c d None) strict) with (compute_packages ci o strict).
    destruct strict.
    + destruct (an_P_strict _ _ _ _ _ _ AN) as [(H1 & ->)|(H1 & ->)].
      * unfold lift, modify, ret. eexists. split; [|left; split; [reflexivity|auto]].
        apply (Caches ci a o T D P _ _ c d (Some P)); auto. intros x [= <-]. auto.
      * unfold lift. eexists. split; [|right; split; [reflexivity|auto]].
        apply (caches_weaken ds ps); [auto|now destruct ps|]. now constructor.
    + rewrite (an_pkgs _ _ _ _ _ _ AN). unfold lift, modify, ret. eexists. split; [|left; split; [reflexivity|]].
      * apply (Caches ci a o T D P _ _ c d (Some P)); auto. intros x [= <-]. split; [auto|]. now destruct ps.
      * now destruct ps.
Qed.

Lemma no_cpus_dies_only : T = [] -> dies_only ci a.
Proof. intros -> c Hc. apply (an_T _ _ _ _ _ _ AN) in Hc. destruct Hc. Qed.
Lemma no_cpus_D : T = [] -> ot_dies o <> [] ->
  forall pd, In pd D <-> is_die (ci_topo ci) pd /\ wants_die a pd.
Proof.
  intros HT Hn pd. rewrite (an_D _ _ _ _ _ _ AN). split.
  - intros [((c & Hc) & H)|(H1 & [H2|(H2 & _)])]; [| auto |].
    + apply H in Hc. apply (an_T _ _ _ _ _ _ AN) in Hc. rewrite HT in Hc. destruct Hc.
    + exfalso. destruct H2 as (Hp & _ & _ & _ & Hd).
      destruct (if_dies_named ci a o F Hn) as [H|(_ & _ & _ & _ & H)]; auto.
  - intros (H1 & H2). right. split; auto.
Qed.

(** What get_cpus() raises when there is no CPU. *)
Notation only_io := (only_io_dies_named ci a).

Lemma only_io_run ds ps s : T = [] -> ot_dies o <> [] -> CA ds ps s ->
  exists s' b, only_io_dies ci s = (Ok b, s') /\ CA ds ps s' /\ (b = true <-> only_io).
Proof.
  intros HT Hn H. destruct (get_dies_run ds ps true s H) as (s' & H' & [(E & _)|(_ & _ & E)]);
    [|exfalso; apply E; now apply no_cpus_dies_only].
  replace (ds && true) with ds in H' by now destruct ds.
  unfold only_io_dies, mbind. rewrite E. unfold only_io_dies_named.
  pose proof (no_cpus_D HT Hn) as HD. clear E.
  destruct (truthy D) eqn:ET.
  - destruct (rmap_succeeds (fun pd => let? io := M_CPUInfo.get_dies ci (fst pd) false true in
                                         Ok (inb (snd pd) io)) D) as (l & El).
    { intros (p & d) Hp. cbn [fst snd]. apply HD in Hp as (Hp & _).
      destruct (io_dies_of_pkg ci wf p) as (r & -> & _); [now apply die_pkg in Hp|]. cbn. eauto. }
    rewrite El. unfold lift, ret. do 2 eexists. split; [reflexivity|]. split; [exact H'|].
    apply rmap_ok in El.
    assert (K : forall pd b, In pd D -> (let? io := M_CPUInfo.get_dies ci (fst pd) false true in
                                         Ok (inb (snd pd) io)) = Ok b ->
                (b = true <-> ~ exists c, cpu_in_die (ci_topo ci) pd c)).
    { intros (p & d) b Hp Hb. cbn [fst snd] in Hb. apply HD in Hp as (Hp & _).
      destruct (io_dies_of_pkg ci wf p) as (r & Er & Hr); [now apply die_pkg in Hp|].
      rewrite Er in Hb. cbn in Hb. injection Hb as <-. rewrite inb_In, Hr. specialize (Hio (p, d) Hp). tauto. }
    rewrite forallb_forall. split.
    + intros Hb. split.
      * destruct D as [|pd t]; [discriminate|]. exists pd. apply HD. now left.
      * intros pd H1 H2. assert (Hp : In pd D) by (apply HD; auto).
        destruct (Forall2_In_l _ _ _ _ El Hp) as (b & Hb1 & Hb2). apply (K pd b Hp Hb2). now apply Hb.
    + intros (_ & Hb) b Hb1. destruct (Forall2_In_r _ _ _ _ El Hb1) as (pd & Hp & Hb2).
      apply (K pd b Hp Hb2). apply HD in Hp as (H1 & H2). auto.
  - unfold ret. do 2 eexists. split; [reflexivity|]. split; [exact H'|]. split; [discriminate|].
    intros ((pd & Hp) & _). apply HD in Hp. apply truthy_false in ET. rewrite ET in Hp. destruct Hp.
Qed.

Lemma get_cpus_run ds ps s : CA ds ps s ->
  exists s', CA ds ps s' /\
   ((ot_get_cpus ci s = (Ok T, s') /\ T <> []) \/
    (T = [] /\ only_io /\ ot_get_cpus ci s = (Exn ENoCPUTarget, s')) \/
    (T = [] /\ ~ only_io /\ ot_get_cpus ci s = (Exn ENoTarget, s'))).
Proof.
  intros H.
  set (m1 := let! c := gets ot_c_cpus in
      match c with
      | Some l => ret l
      | None => let! ot := gets (fun o => o) in
                let! l := lift (get_cpus_impl ci ot []) in
                modify (set_c_cpus (Some l)) ;; ret l
      end).
  set (m2 := fun cpus : list Z => if truthy cpus then ret cpus
     else let! ot := gets (fun o => o) in
      if truthy (ot_dies ot) then
        let! io := only_io_dies ci in
        if io then let! _ := ot_get_dies ci true in throw ENoCPUTarget
        else throw ENoTarget
      else throw ENoTarget).
  assert (E1 : exists s1, CA ds ps s1 /\ m1 s = (Ok T, s1)).
  { unfold m1. destruct H as [c d p Hc Hd Hp]. unfold mbind, gets. cbn [with_caches ot_c_cpus].
    destruct c as [x|].
    - rewrite (Hc x eq_refl). eexists. split; [|reflexivity]. constructor; auto. now intros y [= <-].
    - change (get_cpus_impl ci (with_caches o None d p) []) with (get_cpus_impl ci o []).
      rewrite (an_cpus _ _ _ _ _ _ AN). unfold lift, modify, ret. eexists. split; [|reflexivity].
      apply (Caches ci a o T D P _ _ (Some T) d p); auto. intros x [= <-]. auto. }
  destruct E1 as (s1 & H1 & E1). clear H.
  assert (E2 : ot_get_cpus ci s = m2 T s1).
  { change (ot_get_cpus ci s) with (mbind m1 m2 s). unfold mbind. now rewrite E1. }
  rewrite E2. clear E1 E2 m1. unfold m2. clear m2.
  destruct (truthy T) eqn:ET.
  - exists s1. split; [exact H1|]. left. split; [reflexivity|]. now apply truthy_spec in ET.
  - apply truthy_false in ET. unfold mbind, gets.
    assert (Ed : ot_dies s1 = ot_dies o) by now destruct H1. rewrite Ed.
    destruct (truthy (ot_dies o)) eqn:EO.
    + apply truthy_spec in EO. destruct (only_io_run ds ps s1 ET EO H1) as (s2 & b & E & H2 & Hb). rewrite E.
      destruct b.
      * destruct (get_dies_run ds ps true s2 H2) as (s3 & H3 & [(E3 & _)|(_ & _ & E3)]);
          [|exfalso; apply E3; now apply no_cpus_dies_only].
        replace (ds && true) with ds in H3 by now destruct ds.
        exists s3. split; [exact H3|]. right. left. split; [exact ET|]. split; [now apply Hb|]. now rewrite E3.
      * exists s2. split; [exact H2|]. right. right. split; [exact ET|]. split; [|reflexivity].
        intros K. apply Hb in K. discriminate.
    + exists s1. split; [exact H1|]. right. right. split; [exact ET|]. split; [|reflexivity].
      apply truthy_false in EO. intros (((p & d) & Hd & Hw) & _).
      destruct (proj2 (if_dies ci a o F p d)) as (l & Hi & _); [auto|]. rewrite EO in Hi. destruct Hi.
Qed.

Definition q_ds (q : question) : bool := match q with QDies s => s | _ => true end.
Definition q_ps (q : question) : bool := match q with QPackages s => s | _ => true end.

Lemma ask_inv q ds ps s : CA ds ps s -> CA (ds && q_ds q) (ps && q_ps q) (ask ci q s).
Proof.
  intros H. destruct q as [|b|b]; cbn [ask q_ds q_ps].
  - destruct (get_cpus_run ds ps s H) as (s' & H' & [(E & _)|[(_ & _ & E)|(_ & _ & E)]]); rewrite E; cbn [snd];
      now rewrite !andb_true_r.
  - destruct (get_dies_run ds ps b s H) as (s' & H' & [(E & _)|(E & _)]); rewrite E; cbn [snd];
      now rewrite !andb_true_r.
  - destruct (get_packages_run ds ps b s H) as (s' & H' & [(E & _)|(E & _)]); rewrite E; cbn [snd];
      now rewrite !andb_true_r.
Qed.

Lemma asked_inv qs : forall ds ps s, CA ds ps s ->
  CA (ds && forallb q_ds qs) (ps && forallb q_ps qs) (fold_left (fun o q => ask ci q o) qs s).
Proof.
  induction qs as [|q qs IH]; intros ds ps s H; cbn [fold_left forallb].
  - now rewrite !andb_true_r.
  - rewrite !andb_assoc. apply IH. now apply ask_inv.
Qed.
End Hist.

(** *** The whole picture of an object that was asked questions *)
Lemma asked_facts ci a qs ot : wf_ci ci -> io_dies_exact ci -> ci_online ci <> [] -> siblings_ok ci a ->
  args_proper a -> asked ci a qs ot ->
  exists o T D P, init_facts ci a o /\ answers ci a o T D P /\
    caches ci a o T D P (forallb q_ds qs) (forallb q_ps qs) ot.
Proof.
  intros wf Hio Hon Hsib Hpr (o & Ei & ->).
  destruct (ot_init_ok ci a wf o Hpr Ei) as (F & V).
  destruct (impl_target ci a wf Hsib o F) as (T & ET & TN & _ & HT).
  destruct (compute_dies_spec ci a o wf Hsib F V Hon Hio) as (D & D1 & D2 & D3 & D4).
  destruct (compute_packages_spec ci a o wf Hsib F) as (P & P1 & P2 & P3 & P4).
  assert (AN : answers ci a o T D P) by (constructor; assumption).
  exists o, T, D, P. split; [exact F|]. split; [exact AN|].
  apply (asked_inv ci a o T D P wf F Hio AN qs true true o).
  assert (Eo : with_caches o (ot_c_cpus o) (ot_c_dies o) (ot_c_packages o) = o) by now destruct o.
  cut (caches ci a o T D P true true (with_caches o (ot_c_cpus o) (ot_c_dies o) (ot_c_packages o)));
    [now rewrite Eo|].
  constructor.
  - intros x E. apply (if_c_cpus ci a o F) in E. congruence.
  - intros x E. rewrite (if_c_dies ci a o F) in E. discriminate.
  - intros x E. rewrite (if_c_packages ci a o F) in E. discriminate.
Qed.

(** *** The properties *)
Section Props.
Variable ci : cpuinfo.
Variable a : otargs.
Variable qs : list question.
Variable ot : optarget.
Hypothesis wf : wf_ci ci.
Hypothesis Hio : io_dies_exact ci.
Hypothesis Hon : ci_online ci <> [].
Hypothesis Hsib : siblings_ok ci a.
Hypothesis Hpr : args_proper a.
Hypothesis As : asked ci a qs ot.

Lemma cpus_l r ot' : ot_get_cpus ci ot = (Ok r, ot') ->
  r <> [] /\ NoDup r /\ forall c, In c r <-> target_cpu ci a c.
Proof.
  intros E. destruct (asked_facts ci a qs ot wf Hio Hon Hsib Hpr As) as (o & T & D & P & F & AN & C).
  destruct (get_cpus_run ci a o T D P wf F Hio AN _ _ ot C) as (s' & _ & [(K & H)|[(_ & _ & K)|(_ & _ & K)]]);
    rewrite E in K; try discriminate. apply pair_equal_spec in K as (K & _). injection K as ->.
  split; [exact H|]. split; [apply AN|apply AN].
Qed.

Lemma no_cpus_l e ot' : ot_get_cpus ci ot = (Exn e, ot') ->
  (~ exists c, target_cpu ci a c) /\
  ((only_io_dies_named ci a /\ e = ENoCPUTarget) \/ (~ only_io_dies_named ci a /\ e = ENoTarget)).
Proof.
  intros E. destruct (asked_facts ci a qs ot wf Hio Hon Hsib Hpr As) as (o & T & D & P & F & AN & C).
  assert (N : T = [] -> ~ exists c, target_cpu ci a c).
  { intros HT (c & Hc). apply (an_T _ _ _ _ _ _ AN) in Hc. rewrite HT in Hc. destruct Hc. }
  destruct (get_cpus_run ci a o T D P wf F Hio AN _ _ ot C) as (s' & _ & [(K & H)|[(H1 & H2 & K)|(H1 & H2 & K)]]);
    rewrite E in K; try discriminate; apply pair_equal_spec in K as (K & _); injection K as ->; split; auto.
Qed.

Lemma cpus_live_l : (exists c, target_cpu ci a c) -> exists r ot', ot_get_cpus ci ot = (Ok r, ot').
Proof.
  intros Hc. destruct (ot_get_cpus ci ot) as ([r|e] & ot') eqn:E; [eauto|].
  now apply no_cpus_l in E as (N & _).
Qed.

Lemma dies_l strict r ot' : ot_get_dies ci strict ot = (Ok r, ot') ->
  NoDup r /\ (forall pd, In pd r <-> full_die ci a pd \/ named_die ci a pd) /\
  (strict = true -> ~ In (QDies false) qs -> dies_only ci a).
Proof.
  intros E. destruct (asked_facts ci a qs ot wf Hio Hon Hsib Hpr As) as (o & T & D & P & F & AN & C).
  destruct (get_dies_run ci a o T D P AN _ _ strict ot C) as (s' & _ & [(K & H)|(K & H)]);
    rewrite E in K; try discriminate. apply pair_equal_spec in K as (K & _). injection K as ->.
  split; [apply AN|]. split; [apply AN|]. intros -> Hq. apply H. rewrite andb_true_r. apply forallb_forall.
  intros [|[]|[]] Hi; auto.
Qed.
Lemma dies_fail_l strict e ot' : ot_get_dies ci strict ot = (Exn e, ot') ->
  e = ENoTarget /\ strict = true /\ ~ dies_only ci a.
Proof.
  intros E. destruct (asked_facts ci a qs ot wf Hio Hon Hsib Hpr As) as (o & T & D & P & F & AN & C).
  destruct (get_dies_run ci a o T D P AN _ _ strict ot C) as (s' & _ & [(K & H)|(K & H)]);
    rewrite E in K; try discriminate. apply pair_equal_spec in K as (K & _). injection K as ->. auto.
Qed.

Lemma packages_l strict r ot' : ot_get_packages ci strict ot = (Ok r, ot') ->
  NoDup r /\ (forall p, In p r <-> full_package ci a p \/ named_package ci a p) /\
  (strict = true -> ~ In (QPackages false) qs -> packages_only ci a).
Proof.
  intros E. destruct (asked_facts ci a qs ot wf Hio Hon Hsib Hpr As) as (o & T & D & P & F & AN & C).
  destruct (get_packages_run ci a o T D P AN _ _ strict ot C) as (s' & _ & [(K & H)|(K & H)]);
    rewrite E in K; try discriminate. apply pair_equal_spec in K as (K & _). injection K as ->.
  split; [apply AN|]. split; [apply AN|]. intros -> Hq. apply H. rewrite andb_true_r. apply forallb_forall.
  intros [|[]|[]] Hi; auto.
Qed.
Lemma packages_fail_l strict e ot' : ot_get_packages ci strict ot = (Exn e, ot') ->
  e = ENoTarget /\ strict = true /\ ~ packages_only ci a.
Proof.
  intros E. destruct (asked_facts ci a qs ot wf Hio Hon Hsib Hpr As) as (o & T & D & P & F & AN & C).
  destruct (get_packages_run ci a o T D P AN _ _ strict ot C) as (s' & _ & [(K & H)|(K & H)]);
    rewrite E in K; try discriminate. apply pair_equal_spec in K as (K & _). injection K as ->. auto.
Qed.

(** What a property of a given scope is accessed on. *)
Lemma scope_l sname : all_strict qs ->
  let on_cpus := (exists r, fst (sname_and_nums ci sname ot) = Ok (OnCPUs r) /\ r <> [] /\ NoDup r /\
                    forall c, In c r <-> target_cpu ci a c) in
  match sname with
  | SPackage =>
      (packages_only ci a /\ exists r, fst (sname_and_nums ci sname ot) = Ok (OnPackages r) /\ NoDup r /\
         forall p, In p r <-> full_package ci a p \/ named_package ci a p) \/
      (~ packages_only ci a /\ on_cpus)
  | SDie =>
      (dies_only ci a /\ exists r, fst (sname_and_nums ci sname ot) = Ok (OnDies r) /\ NoDup r /\
         forall pd, In pd r <-> full_die ci a pd \/ named_die ci a pd) \/
      (~ dies_only ci a /\ on_cpus)
  | _ => on_cpus \/
      ((~ exists c, target_cpu ci a c) /\
       ((only_io_dies_named ci a /\ fst (sname_and_nums ci sname ot) = Exn ENoCPUTarget) \/
        (~ only_io_dies_named ci a /\ fst (sname_and_nums ci sname ot) = Exn ENoTarget)))
  end.
Proof.
  intros (Q1 & Q2). destruct (asked_facts ci a qs ot wf Hio Hon Hsib Hpr As) as (o & T & D & P & F & AN & C).
  assert (E1 : forallb q_ds qs = true) by (apply forallb_forall; intros [|[]|[]] Hi; auto).
  assert (E2 : forallb q_ps qs = true) by (apply forallb_forall; intros [|[]|[]] Hi; auto).
  rewrite E1, E2 in C.
  assert (N : T = [] -> ~ exists c, target_cpu ci a c).
  { intros HT (c & Hc). apply (an_T _ _ _ _ _ _ AN) in Hc. rewrite HT in Hc. destruct Hc. }
  intros on_cpus.
  assert (G : forall s, caches ci a o T D P true true s ->
     let m := (let! l := ot_get_cpus ci in ret (OnCPUs l)) s in
     (exists r, fst m = Ok (OnCPUs r) /\ r <> [] /\ NoDup r /\ forall c, In c r <-> target_cpu ci a c) \/
     ((~ exists c, target_cpu ci a c) /\
       ((only_io_dies_named ci a /\ fst m = Exn ENoCPUTarget) \/
        (~ only_io_dies_named ci a /\ fst m = Exn ENoTarget)))).
  { intros s Cs. cbv zeta. unfold mbind.
    destruct (get_cpus_run ci a o T D P wf F Hio AN _ _ s Cs) as (s' & _ & [(K & H)|[(H1 & H2 & K)|(H1 & H2 & K)]]);
      rewrite K; cbn [fst ret].
    - left. exists T. split; [reflexivity|]. split; [exact H|]. split; apply AN.
    - right. split; auto.
    - right. split; auto. }
  destruct sname; try exact (G ot C).
  - unfold on_cpus. cbn [sname_and_nums]. unfold catch_no_target, mbind at 1 3.
    destruct (get_dies_run ci a o T D P AN _ _ true ot C) as (s' & C' & [(K & H)|(K & _ & H)]); rewrite K; cbn [ret fst].
    + left. split; [now apply H|]. exists D. split; [reflexivity|]. split; apply AN.
    + right. split; [exact H|]. destruct (G s' C') as [K'|(K' & _)]; [exact K'|].
      exfalso. apply H. intros c Hc. exfalso. eauto.
  - unfold on_cpus. cbn [sname_and_nums]. unfold catch_no_target, mbind at 1 3.
    destruct (get_packages_run ci a o T D P AN _ _ true ot C) as (s' & C' & [(K & H)|(K & _ & H)]); rewrite K; cbn [ret fst].
    + left. split; [now apply H|]. exists P. split; [reflexivity|]. split; apply AN.
    + right. split; [exact H|]. destruct (G s' C') as [K'|(K' & _)]; [exact K'|].
      exfalso. apply H. intros c Hc. exfalso. eauto.
Qed.
End Props.
