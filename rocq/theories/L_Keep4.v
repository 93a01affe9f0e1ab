(** Lemmas for C72: restoring succeeds. *)
From Coq Require Import Ascii String ZifyBool.
From Verif Require Import Base L_Base L_Monad M_CPUInfo S_CPUInfo L_CPUInfo L_CPUInfo2 M_Text L_Text M_Props S_Props L_Props L_Props2 L_Props3 L_Props4
  L_Remote4 M_OpTarget L_OpTarget M_Print S_Print L_Print L_Print2 L_Print3 L_Print4 L_Print5 S_Keep L_Keep L_Keep2 L_Keep3.

Section Live.
  Context {St V : Type}.
  Variable cls : pclass St V.
  Let ci := pc_ci cls.
  Let topo := ci_topo ci.
  Hypothesis Hwf : wf_ci ci.
  Variable sees : St -> Z -> Z -> option V.
  Variable shares : Z -> Z -> Z -> Prop.
  Hypothesis MA : machine cls sees shares.

  Lemma live_cpus p l v0 v s : accepts cls p -> pc_norm cls p v0 = Ok v -> l <> [] -> (forall c, In c l -> In c (ci_online ci)) ->
    whole cls p (fun c => In c l) -> exists m s', set_prop_cpus cls p (Some v0) (Some l) None s = (Ok m, s').
  Proof.
    intros (d & m & rest & sc & Hd & Hw & Hm & Hsc & Hst) Hn Hne Hon Hwh.
    destruct (Hst (ps_st s)) as (st1 & K & Esc & _ & Hset).
    destruct (set_prop_cpus cls p (Some v0) (Some l) None s) as [r s'] eqn:E.
    destruct (set_outcome_l cls Hwf p (Some v0) (Some l) None s (dedup l) st1 sc r s') as (w0 & w & l1 & ms & tried & [= <-] & Hw1 & Hreq & Hal & HM & _);
      [| | |exact K|exact Esc|exact Hsc| |exact E|].
    - intros [X|[(q & X & Y)|[X|[(x & e & [= <-] & X)|(q & x & y & _ & X & _)]]]]; congruence.
    - split; [apply NoDup_dedup|]. split; [|intros c; apply dedup_In]. intros c I. apply Hon. now apply dedup_In.
    - intros X. destruct l as [|c t]; [congruence|]. assert (In c (dedup (c :: t))) as I by (apply dedup_In; now left). rewrite X in I. destruct I.
    - intros c x I H. apply dedup_In. apply (Hwh st1 sc c x Esc H). now apply dedup_In.
    - assert (w = v) as -> by congruence. destruct Hal as (q & Hq & Hal). assert (q = d) as -> by congruence. cbn in Hal. subst ms. rewrite Hm in HM.
      destruct Hreq as (_ & R1 & R2). destruct (Hset v0 v l1 Hn) as (st2 & Es); [|exact R1|].
      { intros ->. destruct l as [|c t]; [congruence|]. destruct (proj2 (R2 c)). now left. }
      assert (forall st3 ms, ~ all_refuse cls p v l1 (m :: ms) st1 st3) as NR.
      { intros st3 ms X. inversion X as [|m0 ms0 sa sb sc0 Hr _]; subst. destruct Hr as [Hr|Hr]; congruence. }
      destruct HM as [(pre & m1 & post & st3 & Eq & _ & Har & Ho)|(_ & Har & _)]; [|destruct (NR _ _ Har)].
      destruct pre as [|m2 pre]; [|injection Eq as -> _; destruct (NR _ _ Har)]. injection Eq as <- _. inversion Har; subst.
      destruct Ho as [(_ & ->)|(e & _ & _ & X & _)]; [eauto|congruence].
  Qed.

  Lemma reduce_live cpus io : sc_ok cls io -> (forall c, In c cpus -> In c (ci_online ci)) -> exists w, reduce_cpus_ioscope cls cpus (Some io) = Ok w.
  Proof.
    intros Hs Hon. unfold reduce_cpus_ioscope. destruct io; try (eexists; reflexivity).
    all: match goal with |- context [reduce_loop cls ?sc _ _ _] => destruct (reduce_loop_l cls Hwf sc Hs cpus [] [] Hon) as (r & Er & _); [intros h []|] end;
      rewrite Er; cbn [rbind]; eauto.
  Qed.

  Lemma units_live p v0 v uc m rest s ll io sc :
    uc = Ok ll -> (forall c, In c (concat ll) -> In c (ci_online ci)) -> concat ll <> [] ->
    pc_iosname cls (ps_st s) p = Some io -> pc_sname cls (ps_st s) p = Some sc ->
    (forall x c, In x (concat ll) -> same_unit topo sc x c -> In c (concat ll)) ->
    (exists d, dget Z.eqb (pc_props cls) p = Some d) -> pc_norm cls p v0 = Ok v ->
    (forall v0 v w, pc_norm cls p v0 = Ok v -> w <> [] -> (forall c, In c w -> In c (ci_online ci)) -> exists st2, pc_set cls p v w m (ps_st s) = (Ok tt, st2)) ->
    exists s', set_loop (set_units cls p v uc) ENotSupported (m :: rest) s = (Ok m, s').
  Proof.
    intros -> Hon Hne Hio Hsc Hcl (d & Hd) Hn Hset. cbn [set_loop].
    assert (sc_ok cls io) as Hs by (intros ->; exact (ma_modules _ _ _ MA _ _ Hio)).
    destruct (reduce_live (concat ll) io Hs Hon) as (w & Ew).
    destruct (reduce_cpus_l cls Hwf _ _ _ Hon (ma_modules _ _ _ MA (ps_st s) p) (eq_trans (f_equal _ Hio) Ew)) as [(X & _)|(sc' & Eio & Hw)]; [congruence|].
    assert (sc' = io) as -> by congruence.
    assert (w <> []) as Hwne.
    { intros ->. destruct (concat ll) as [|c t] eqn:Ec; [congruence|]. rewrite <- Ec in *.
      assert (In c (concat ll)) as Ic by (rewrite Ec; now left).
      destruct (lowest_exists cls Hwf io c Hs (Hon c Ic)) as (x & Lx).
      apply (Hw x). split.
      - apply (Hcl c); [exact Ic|]. apply (ma_sname _ _ _ MA _ _ _ _ _ Hsc). apply (ma_io _ _ _ MA _ _ _ _ _ Hio), Lx.
      - eapply lowest_ext; [|exact Lx]. apply (unit_ext cls Hwf), Lx. }
    destruct (Hset v0 v w Hn Hwne) as (st2 & Es); [intros c I; apply Hon; now apply Hw in I|].
    unfold set_units. unfold mbind at 1, lift at 1. unfold mbind at 1, gets at 1. cbv beta iota. rewrite Hio. unfold mbind at 1, lift at 1. rewrite Ew.
    unfold set_prop_cpus_mnames, prop_of. rewrite Hd. unfold mbind at 1, lift. unfold mbind at 1. cbn [or_default set_loop]. unfold do_set. unfold mbind at 1, modify. unfold on_st. cbn [ps_st]. rewrite Es.
    eexists. reflexivity.
  Qed.

  Lemma norm_in p d v0 v : dget Z.eqb (pc_props cls) p = Some d -> pd_writable d = true -> pc_norm cls p v0 = Ok v -> normalize_inprop cls p (Some v0) = Ok v.
  Proof. intros H1 H2 H3. unfold normalize_inprop, validate_pname. rewrite H1. cbn [rbind]. now rewrite H2. Qed.
  Lemma norm_mn p d : dget Z.eqb (pc_props cls) p = Some d -> normalize_mnames cls p None false = Ok (pd_mnames d).
  Proof. intros H. unfold normalize_mnames. now rewrite H. Qed.

  Lemma live_packages p l v0 v s : accepts cls p -> pc_norm cls p v0 = Ok v -> by_scope cls p RPkg ->
    (exists q, In q l) -> (forall q, In q l -> is_pkg topo q /\ exists c, cpu_in_pkg topo q c) ->
    exists m s', set_prop_packages cls p (Some v0) (Some l) None s = (Ok m, s').
  Proof.
    intros (d & m & rest & sc & Hd & Hw & Hm & _ & Hst) Hn HB (q0 & Iq0) Hq.
    destruct (Hst (ps_st s)) as (st1 & K & Esc & (io & Hio) & Hset). pose proof (HB _ _ Esc) as X. cbn in X. subst sc.
    unfold set_prop_packages. rewrite (norm_mn p d Hd), (norm_in p d v0 v Hd Hw Hn), Hm.
    destruct (normalize_packages_succeeds ci Hwf (Some l)) as (l1 & El); [intros l' [= <-] q I; now apply Hq|].
    destruct (normalize_packages_req cls Hwf _ _ El) as (_ & _ & N3). cbn in N3.
    unfold mbind at 1, lift at 1. unfold mbind at 1, lift at 1. unfold mbind at 1, lift at 1. fold ci. rewrite El.
    destruct l as [|q1 t]; [destruct Iq0|]. unfold mbind at 1, on_st at 1. rewrite K. unfold mbind at 1, gets at 1. cbn [ps_st]. rewrite Esc.
    unfold mbind at 1, lift at 1. cbn [validate_prop_vs_scope]. unfold prop_of. rewrite Hd. unfold mbind at 1, lift at 1. cbn [or_default].
    destruct (rmap_total (fun q => packages_to_cpus ci (Some [q])) l1) as (ll & Ell).
    { intros q I. apply packages_to_cpus_ok_iff_l. intros x [<- |[]]. apply N3 in I. destruct I as ((t0 & Ht & E) & _). exists t0.
      destruct (line_pkg_ok ci t0 Hwf Ht). auto. }
    pose proof (pkgs_cpus_l cls Hwf l1 ll Ell) as Hll.
    destruct (units_live p v0 v (pkgs_cpus cls l1) m rest (PS st1 (ps_gets s) (ps_sets s)) ll io SPackage Ell) as (s' & ->); cbn [ps_st]; auto; [| | |eauto|eauto].
    - intros c I. apply Hll in I. destruct I as (q & _ & I). exact (in_pkg_online cls Hwf _ _ I).
    - destruct (Hq q1 (or_introl eq_refl)) as (P1 & c & Hc). intros X. assert (In c (concat ll)) as I; [|rewrite X in I; destruct I].
      apply Hll. exists q1. split; [|exact Hc]. apply N3. split; [exact P1|now left].
    - intros x c I Hs. apply Hll in I. destruct I as (q & I & J). apply Hll. exists q. split; [exact I|]. exact (same_pkg cls Hwf _ _ _ Hs J).
  Qed.

  Lemma norm_dies (ds : list (Z * nums_t)) : (forall q a, In (q, a) ds -> exists l, a = Some l /\ l <> [] /\ forall x, In x l -> is_die topo (q, x)) -> NoDup (map fst ds) ->
    exists nd, normalize_dies_arg cls ds = Ok nd.
  Proof.
    intros H ND. unfold normalize_dies_arg.
    assert (forall q, In q (map fst ds) -> is_pkg topo q) as Hp.
    { intros q I. apply in_map_iff in I. destruct I as ([q0 a] & <- & I). destruct (H _ _ I) as (l & _ & Hne & Hl).
      destruct l as [|x t]; [congruence|]. destruct (Hl x (or_introl eq_refl)) as (t0 & Ht & E & _). exists t0. auto. }
    destruct (normalize_packages_succeeds ci Hwf (Some (map fst ds))) as (l1 & El); [intros l' [= <-] q I; now apply Hp|].
    destruct (normalize_packages_req cls Hwf _ _ El) as (_ & _ & N3). cbn in N3. fold ci. rewrite El. cbn [rbind].
    match goal with |- context [rmap l1 ?f] => destruct (rmap_total f l1) as (ll & ->) end; [|cbn [rbind]; eauto].
    intros q I. apply N3 in I. destruct I as (P & I). apply in_map_iff in I. destruct I as ([q0 a] & <- & I). cbn [fst] in *.
    rewrite (In_dget _ Zeqb_spec ds q0 a ND I). destruct (H _ _ I) as (l & -> & _ & Hl). unfold normalize_dies.
    destruct (package_to_dies_l ci q0 Hwf P) as (av & Ea & _ & Hav). rewrite Ea. cbn [rbind].
    rewrite (normalize_in_succeeds av l); [cbn [rbind]; eauto|]. intros x Ix. apply Hav. now apply Hl.
  Qed.

  Lemma live_dies p (ds : list (Z * nums_t)) v0 v s : accepts cls p -> pc_norm cls p v0 = Ok v -> by_scope cls p RDie -> ds <> [] -> NoDup (map fst ds) ->
    (forall q a, In (q, a) ds -> exists l, a = Some l /\ l <> [] /\ forall x, In x l -> is_die topo (q, x) /\ exists c, cpu_in_die topo (q, x) c) ->
    exists m s', set_prop_dies cls p (Some v0) (Some ds) None s = (Ok m, s').
  Proof.
    intros (d & m & rest & sc & Hd & Hw & Hm & _ & Hst) Hn HB Hne ND Hds.
    destruct (Hst (ps_st s)) as (st1 & K & Esc & (io & Hio) & Hset). pose proof (HB _ _ Esc) as X. cbn in X. subst sc.
    destruct (norm_dies ds) as (nd & End); [|exact ND|].
    { intros q a I. destruct (Hds q a I) as (l & E & N & Hl). exists l. split; [exact E|]. split; [exact N|]. intros x Ix. now apply Hl. }
    pose proof (normalize_dies_arg_l cls Hwf _ _ End) as Hnd.
    unfold set_prop_dies. rewrite (norm_mn p d Hd), (norm_in p d v0 v Hd Hw Hn), Hm, End.
    unfold mbind at 1, lift at 1. unfold mbind at 1, lift at 1. unfold mbind at 1, lift at 1.
    assert (existsb (fun d => is_empty_dies (snd d)) ds = false) as ->.
    { destruct (existsb _ ds) eqn:E; [|reflexivity]. apply existsb_exists in E. destruct E as ([q a] & I & E). destruct (Hds q a I) as (l & -> & N & _).
      cbn in E. destruct l; [congruence|discriminate]. }
    destruct ds as [|[q1 a1] t]; [congruence|]. unfold mbind at 1, on_st at 1. rewrite K. unfold mbind at 1, gets at 1. cbn [ps_st]. rewrite Esc.
    unfold mbind at 1, lift at 1. cbn [validate_prop_vs_scope]. unfold prop_of. rewrite Hd. unfold mbind at 1, lift at 1. cbn [or_default].
    destruct (rmap_total (fun pd => dies_to_cpus ci (Some [snd pd]) (Some [fst pd])) nd) as (ll & Ell).
    { intros [q x] I. apply Hnd in I. destruct (die_cpus_one ci q x Hwf (proj1 I)) as (r & E & _). eauto. }
    pose proof (dies_cpus_l cls Hwf nd ll Ell) as Hll.
    destruct (units_live p v0 v (dies_cpus cls nd) m rest (PS st1 (ps_gets s) (ps_sets s)) ll io SDie Ell) as (s' & ->); cbn [ps_st]; auto; [| | |eauto|eauto].
    - intros c I. apply Hll in I. destruct I as (q & _ & I). exact (in_die_online cls Hwf _ _ I).
    - destruct (Hds q1 a1 (or_introl eq_refl)) as (l & -> & N & Hl). destruct l as [|x l]; [congruence|]. destruct (Hl x (or_introl eq_refl)) as (P1 & c & Hc).
      intros X. assert (In c (concat ll)) as I; [|rewrite X in I; destruct I].
      apply Hll. exists (q1, x). split; [|exact Hc]. apply Hnd. split; [exact P1|]. exists (Some (x :: l)). cbn [fst snd dget]. rewrite Z.eqb_refl. split; [reflexivity|now left].
    - intros x c I Hs. apply Hll in I. destruct I as (q & I & J). apply Hll. exists q. split; [exact I|]. exact (same_die cls Hwf _ _ _ Hs J).
  Qed.

  Lemma set_prop_live p y n s : accepts cls p -> settable cls p y -> parse_ynums (y_nums y) = Ok n ->
    exists s', set_prop cls p (y_sname y) (y_value y) n s = (Ok tt, s').
  Proof.
    intros HA (v0 & v & n' & -> & Hn & En' & HB & O & He & Hwh) En. assert (n' = n) as -> by congruence.
    destruct (y_sname y) eqn:Es; destruct n as [l|d]; cbn [well_formed] in O; try (destruct O; fail); cbn [set_prop].
    - destruct (live_cpus p l v0 v s HA Hn O) as (m & s' & E); [intros c I; exact (proj1 (He (NumCPU c) I))|exact Hwh|].
      exists s'. unfold mbind. now rewrite E.
    - destruct O as (O1 & O2 & O3). unfold dies_arg_of.
      destruct (live_dies p (map (fun pl => (fst pl, Some (snd pl))) d) v0 v s HA Hn HB) as (m & s' & E).
      + destruct d; [congruence|discriminate].
      + rewrite map_map. exact O2.
      + intros q a I. apply in_map_iff in I. destruct I as ([q0 l] & [= <- <-] & I). exists l. split; [reflexivity|].
        split; [exact (O3 _ _ I)|]. intros x Ix. apply (He (NumDie q0 x)). exists l. auto.
      + exists s'. unfold mbind. match goal with |- match ?x with _ => _ end = _ => replace x with (Ok m, s') by (symmetry; exact E) end. reflexivity.
    - destruct (live_packages p l v0 v s HA Hn HB) as (m & s' & E).
      + destruct l as [|q t]; [congruence|]. exists q. now left.
      + intros q I. exact (He (NumPkg q) I).
      + exists s'. unfold mbind. now rewrite E.
  Qed.

  Lemma restore_succeeds known f s :
    (forall p ys, In (p, ys) f -> In p known /\ accepts cls p /\ forall y, In y ys -> settable cls p y) ->
    exists s', restore (set_prop cls) known f s = (Ok tt, s').
  Proof.
    intros H. apply restore_live.
    - intros p ys I. destruct (H _ _ I) as (A & _ & B). split; [exact A|]. intros y J. destruct (B y J) as (v0 & v & n & _ & _ & E & _). eauto.
    - intros p ys y n s0 I J En. destruct (H _ _ I) as (_ & HA & B). exact (set_prop_live p y n s0 HA (B y J) En).
  Qed.
End Live.

Section RoundLive.
  Context {St V : Type}.
  Variable cls : pclass St V.
  Let ci := pc_ci cls.
  Let topo := ci_topo ci.
  Hypothesis Hwf : wf_ci ci.
  Variable sees : St -> Z -> Z -> option V.
  Variable shares : Z -> Z -> Z -> Prop.
  Hypothesis MA : machine cls sees shares.
  Hypothesis Hv : forall x y, pc_veqb cls x y = true <-> x = y.
  Hypothesis Hone : one_value_per_cpu cls.
  Hypothesis Hkey : keyed cls.
  Hypothesis NN : forall k, exists_num ci k -> nonneg_num k.

  Lemma well_same sn n n' : each_once sn n -> (forall k, holds sn n' k <-> holds sn n k) -> parse_ynums (yaml_nums n) = Ok n' -> well_formed sn n'.
  Proof.
    intros O H E. pose proof (parse_keys _ _ _ O E) as K. destruct (each_some _ _ O) as (k0 & Hk0). apply H in Hk0.
    destruct n as [l|d]; cbn [yaml_nums parse_ynums] in E.
    - destruct (parse_int_list "," true [NStr (rangify l)]) as [l'|] eqn:E1; [|discriminate]. injection E as <-.
      destruct sn; cbn in O |- *; try (destruct O; fail); intros ->; destruct k0; destruct Hk0.
    - match type of E with rbind ?r _ = _ => destruct r as [dd|] eqn:E1 end; [|discriminate]. injection E as <-.
      destruct sn; cbn [each_once] in O; cbn [well_formed]; try (destruct O; fail).
      split; [intros ->; destruct k0; try (destruct Hk0; fail); destruct Hk0 as (l & [] & _)|]. split; [exact K|].
      intros p l I. destruct O as (_ & O2 & O3). pose proof (rmap_F2 _ _ _ E1) as F.
      assert (exists l0, In (p, l0) d) as (l0 & I0).
      { clear - F I. remember (map (fun pd : Z * list Z => (fst pd, rangify (snd pd))) d) as dm. revert d Heqdm.
        induction F as [|x y a b Hx _ IH]; intros d Ed; [destruct I|]. destruct d as [|[p1 l1] d]; [discriminate|]. injection Ed as -> ->.
        destruct I as [-> |I].
        - cbn [fst snd] in Hx. destruct (parse_int_list "," true [NStr (rangify l1)]) as [r|] eqn:E; [|discriminate]. injection Hx as -> ->. exists l1. now left.
        - destruct (IH I d eq_refl) as (l0 & A). exists l0. now right. }
      intros ->. destruct (O3 _ _ I0) as (N & _). destruct l0 as [|x l0]; [congruence|].
      assert (holds RDie (NDict dd) (NumDie p x)) as (l' & I' & J').
      { apply H. exists (x :: l0). split; [exact I0|now left]. }
      assert (l' = []) as ->; [|destruct J']. cbn in K. pose proof (In_dget _ Zeqb_spec _ _ _ K I). pose proof (In_dget _ Zeqb_spec _ _ _ K I'). congruence.
  Qed.

  Lemma yaml_some (a : @aggr V) p ys : In (p, ys) (yaml_pinfo a) -> exists y, In y ys.
  Proof.
    assert (forall f : @ydict V, (forall p ys, In (p, ys) f -> exists y, In y ys) -> forall p ys, In (p, ys)
      (fold_left (fun yd md => fold_left (fun yd pi => yaml_add yd (fst pi) (fst (snd pi)) (snd (snd pi))) (snd md) yd) a f) -> exists y, In y ys) as H.
    { induction a as [|[m d] t IH]; intros f Hf; cbn [fold_left snd]; [exact Hf|]. apply IH. clear IH. revert f Hf.
      induction d as [|[q [sn vals]] d IH]; intros f Hf; cbn [fold_left fst snd]; [exact Hf|]. apply IH. clear IH. revert f Hf.
      unfold yaml_add. induction vals as [|[v n] vals IH]; intros f Hf; cbn [fold_left fst snd]; [exact Hf|]. apply IH. clear IH.
      intros p0 ys0 I. apply In_dset in I. destruct I as [I|[= -> ->]]; [exact (Hf _ _ I)|].
      eexists. apply in_or_app. right. now left. }
    apply H. intros p0 ys0 [].
  Qed.

  Lemma nodup_fst {A B} (eqb : A -> A -> bool) (d : list (A * B)) k x y : NoDup (map fst d) -> In (k, x) d -> In (k, y) d -> x = y.
  Proof.
    induction d as [|[q m] t IH]; [intros _ []|]. cbn. intros K I J. inversion K as [|? ? N K']; subst.
    destruct I as [[= -> ->]|I], J as [J|J]; auto.
    - now injection J.
    - exfalso. apply N. change k with (fst (k, y)). now apply in_map.
    - injection J as -> ->. exfalso. apply N. change k with (fst (k, x)). now apply in_map.
  Qed.

  Lemma reading_names {S} (rd : Z -> bool -> M S (list (@pitem V))) props ro names s l s' p items :
    reading rd props ro names s l s' -> In (p, items) l -> In p names.
  Proof. induction 1; intros I; [destruct I|right; auto|destruct I as [[= <- <-]|I]; [now left|right; auto]|destruct I as [[= <- <-]|I]; [now left|right; auto]]. Qed.

  Lemma round_succeeds pnames s f s' : NoDup (asked_pnames (pc_props cls) pnames) -> save_props cls pnames s = (Ok f, s') ->
    exists names l,
      (forall p, In p names <-> In p (asked_pnames (pc_props cls) pnames) /\
                   exists d, dget Z.eqb (pc_props cls) p = Some d /\ pd_writable d = true) /\
      reading (get_prop_sname cls None) (pc_props cls) true names s l s' /\
      forall known r,
        (forall p, In p names -> In p known /\ accepts cls p) ->
        (forall p items v, In (p, items) l -> whole cls p (fun c => sees (ps_st (fst s)) p c = v) /\
                            whole cls p (fun c => exists v m, In (NumCPU c, v, m) items)) ->
        exists r', restore (set_prop cls) known f r = (Ok tt, r').
  Proof.
    intros ND HS. unfold save_props, mbind in HS.
    destruct (aggr_props _ _ _ _ _ _ s) as [[a|e] s1] eqn:Ea; [|discriminate HS]. injection HS as <- <-.
    destruct (print_ok cls Hv _ _ _ _ _ _ _ Hone ND Ea) as (names & l & Hn & R & NR & L & Once & U).
    pose proof (print_printable cls Hv _ _ _ _ _ _ _ Hone Hwf ND Ea) as PR.
    exists names, l. split; [intros p; rewrite (Hn p); split; intros (A & B); split; auto|]. split; [exact R|].
    intros known r HK HW. apply (restore_succeeds cls Hwf sees shares MA).
    destruct (yaml_pinfo_ok a) as (NDf & HY).
    assert (forall p y, yent (yaml_pinfo a) p y -> (In p names /\ settable cls p y)) as HE.
    { intros p y Hy. apply HY in Hy. destruct Hy as (m & sn & v & n & He & ->). destruct (PR _ _ _ _ _ He) as (O & X).
      destruct (parse_ynums_ok sn n O) as (n' & En & Hn'); [intros k Hk; now apply NN, X|].
      assert (forall k, holds sn n k <-> listed a m p v k /\ num_sname k = sn) as HLk.
      { intros k. destruct He as (d & vals & A & B & C). split.
        - intros Hk. split; [exists d, sn, vals, n; auto|exact (holds_sname _ _ _ Hk)].
        - intros ((d2 & sn2 & vals2 & n2 & A2 & B2 & C2 & Hk) & Ek). rewrite (holds_sname _ _ _ Hk) in Ek. subst sn2.
          destruct NR as (ND1 & NR). assert (d2 = d) as -> by exact (nodup_fst Z.eqb _ _ _ _ ND1 A2 A).
          destruct (NR _ _ A) as (_ & ND2 & NR2). pose proof (nodup_fst Z.eqb _ _ _ _ ND2 B2 B) as Eq. injection Eq as ->.
          destruct (NR2 _ _ _ B) as (_ & ND3 & _). assert (n2 = n) as -> by exact (nodup_fst (fun _ _ => true) _ _ _ _ ND3 C2 C). exact Hk. }
      assert (forall k, holds sn n k -> exists items, In (p, items) l /\ In (k, v, m) items /\ v <> None) as HI.
      { intros k Hk. apply HLk in Hk. destruct Hk as (Lk & _). apply L in Lk. destruct Lk as (items & I2 & J2 & Sh).
        exists items. split; [exact I2|]. split; [exact J2|]. exact (Sh eq_refl). }
      assert (forall items, In (p, items) l -> forall k w q, In (k, w, q) items ->
        by_scope cls p (num_sname k) /\ (w <> None -> forall c, cpu_of topo k c -> sees (ps_st (fst s)) p c = w) /\
        (w <> None -> exists c, cpu_of topo k c) /\
        forall x k' v' m', k = NumCPU x -> In (k', v', m') items -> m' = q /\ exists x', k' = NumCPU x' /\ (w <> None -> sees (ps_st (fst s)) p x' = v')) as HR.
      { intros items I0 k w q J. destruct (reading_each cls sees shares MA _ _ _ _ _ _ _ R _ _ I0) as (ov & a1 & a2 & S1 & E).
        destruct (read_seen cls Hwf sees shares MA Hv Hone Hkey _ _ _ _ _ _ E _ _ _ J) as (A & B).
        destruct (read_some cls Hwf sees shares MA Hv Hone Hkey _ _ _ _ _ _ E _ _ _ J) as (C & D). split; [exact A|]. split; [|split; [exact C|]].
        - intros Hw c Hc. rewrite <- (S1 p c). now apply B.
        - intros x k' v' m' Ek J'. destruct (D x k' v' m' Ek J') as (D1 & x' & D2 & D3). split; [exact D1|]. exists x'. split; [exact D2|].
          intros Hw. rewrite <- (S1 p x'). now apply D3. }
      destruct (each_some _ _ O) as (k0 & Hk0). destruct (HI k0 Hk0) as (items0 & I0 & J0 & Hne).
      destruct (HR _ I0 _ _ _ J0) as (B1 & B2 & B3 & _). split; [exact (reading_names _ _ _ _ _ _ _ _ _ R I0)|].
      destruct (B3 Hne) as (c0 & Hc0). pose proof (B2 Hne c0 Hc0) as Sv.
      destruct v as [v|]; [|congruence]. pose proof (ma_value _ _ _ MA _ _ _ _ Sv) as Hno.
      exists v, v, n'. cbn [y_value y_nums y_sname]. split; [reflexivity|]. split; [exact Hno|]. split; [exact En|].
      split; [rewrite <- (holds_sname _ _ _ Hk0); exact B1|]. split; [exact (well_same _ _ _ O Hn' En)|]. split.
      - intros k Hk. apply Hn' in Hk. split; [exact (X k Hk)|]. destruct (HI k Hk) as (it & Ii & Ji & _).
        destruct (HR _ Ii _ _ _ Ji) as (_ & _ & B & _). exact (B Hne).
      - intros st sc x c Hsc Hu Hx. apply Hn' in Hx. apply Hn'. apply HLk. split; [|exact (holds_sname _ _ _ Hx)].
        destruct (HI _ Hx) as (it & Ii & Ji & _). destruct (HW p it (Some v) Ii) as (W1 & W2).
        apply L. exists it. split; [exact Ii|]. split; [|intros _; discriminate].
        destruct (W2 _ _ _ _ Hsc Hu) as (w & q & Iw); [eauto|].
        destruct (HR _ Ii _ _ _ Ji) as (_ & C2 & _ & C4). destruct (C4 x _ _ _ eq_refl Iw) as (-> & x' & [= <-] & Es).
        assert (sees (ps_st (fst s)) p c = Some v) as Ec.
        { apply (W1 _ _ _ _ Hsc Hu). apply C2; [discriminate|reflexivity]. }
        rewrite <- Ec, Es by discriminate. exact Iw. }
    intros p ys I. destruct (yaml_some _ _ _ I) as (y0 & J0). destruct (HE p y0) as (Hp & _); [exists ys; auto|].
    destruct (HK p Hp) as (K1 & K2). split; [exact K1|]. split; [exact K2|]. intros y J. apply HE. exists ys. auto.
  Qed.
End RoundLive.
