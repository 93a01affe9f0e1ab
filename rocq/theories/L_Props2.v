(** Lemmas for C20 and C21. *)
From Verif Require Import Base L_Base L_Monad M_CPUInfo S_CPUInfo L_CPUInfo L_CPUInfo2 L_Text M_Props S_Props L_Props.
From Coq Require Import Sorted ZifyBool.

(** Division by dies, whatever the cached set of I/O dies is. *)
Lemma cpus_div_dies_sound ci cpus found rem :
  wf_ci ci -> cpus_div_dies ci (Some cpus) = Ok (found, rem) ->
  (forall u c, In u found -> cpu_in_die (ci_topo ci) u c -> In c cpus) /\
  (forall c, In c rem <-> In c cpus /\ ~ exists u, In u found /\ cpu_in_die (ci_topo ci) u c).
Proof.
  intros Hwf. unfold cpus_div_dies.
  destruct (normalize_cpus ci (Some cpus) true) as [l|] eqn:El; [|discriminate]. cbn [rbind].
  destruct (normalize_cpus_ok_l _ _ _ _ El) as (Hl & _ & Hord).
  destruct (get_packages_l ci Hwf) as (pkgs & Ep & Hpnd & Hpin). rewrite Ep. cbn [rbind].
  destruct (div_pkgs_units_loop_l ci (cpu_in_die (ci_topo ci)) (is_die (ci_topo ci))
              (package_to_dies ci) (fun p u => dies_to_cpus ci (Some [u]) (Some [p]))
              (fun p d => pair_inb (p, d) (ci_io ci))
              (fun p => package_to_dies_l ci p Hwf)
              (fun p u => die_cpus_one ci p u Hwf)
              (fun a b c => die_member_disj ci a b c Hwf) pkgs l Hpnd)
    as (f & cs & E & F1 & F2 & F3).
  { intros p. apply Hpin. } { eapply in_order_NoDup, Hord. }
  rewrite E. cbn [rbind]. intros [= <- <-]. split.
  - intros u c Hu Hc. apply F2 in Hu as (_ & _ & H). apply Hl. auto.
  - intros c. rewrite filter_In, inb_In, F3, Hl. tauto.
Qed.

Lemma first_sorted_lowest (l : list Z) x t (P : Z -> Prop) :
  l = x :: t -> StronglySorted Z.lt l -> (forall c, In c l <-> P c) -> lowest P x.
Proof.
  intros -> Hs Hin. split; [apply Hin; now left|]. intros y Hy. apply Hin in Hy as [->|Hy]; [lia|].
  inversion Hs as [|? ? _ Hf]. rewrite Forall_forall in Hf. specialize (Hf y Hy). lia.
Qed.

Lemma pair_dec (a b : Z * Z) : {a = b} + {a <> b}.
Proof. decide equality; apply Z.eq_dec. Defined.

Section C2021.
  Context {St V : Type}.
  Variable cls : pclass St V.
  Let ci := pc_ci cls.
  Let topo := ci_topo ci.
  Hypothesis Hwf : wf_ci ci.

  Definition sc_ok (sc : scope) : Prop := sc = SModule -> modules_unique topo.

  Lemma siblings_any sc c : sc_ok sc -> In c (ci_online ci) ->
    exists l, get_cpu_siblings ci c sc = Ok l /\ StronglySorted Z.lt l /\
              forall x, In x l <-> same_unit topo sc c x.
  Proof.
    intros Hs Hc. now apply siblings_spec_l.
  Qed.

  (** ** C21 *)
  Lemma validate_whole sn l :
    (forall c, In c l -> In c (ci_online ci)) ->
    validate_cpus_vs_scope cls sn l = Ok tt ->
    exists sc, sn = Some sc /\ (sc = SCPU \/ sc = SGlobal \/ sc = SPackage \/ sc = SDie \/ sc = SCore) /\
      whole_units cls sc l.
  Proof.
    intros Hon H. unfold validate_cpus_vs_scope in H.
    assert (Hrow : forall c, In c l -> exists t, In t topo /\ cpu_line t /\ t_cpu t = c).
    { intros c Hc. apply (wf_online _ Hwf). now apply Hon. }
    destruct sn as [[]|]; try discriminate; fold ci in H.
    - exists SCPU. split; [reflexivity|]. split; [tauto|]. intros c x Hc (t & u & _ & _ & _ & _ & <- & <- & Hu).
      cbn in Hu. injection Hu as <-. exact Hc.
    - exists SCore. split; [reflexivity|]. split; [tauto|].
      destruct (cpus_div_cores ci (Some l)) as [[f r]|] eqn:E; [|discriminate]. cbn [rbind snd] in H.
      destruct r; [|discriminate]. destruct (cpus_div_cores_l _ _ _ _ Hwf E) as (_ & F & R & _).
      intros c x Hc (t & u & Ht & Hu & Lt & Lu & Et & <- & Eu). cbn in Eu.
      assert (Ep : t_pkg t = t_pkg u) by congruence. assert (Ec : t_core t = t_core u) by congruence. clear Eu.
      destruct (in_dec pair_dec (t_pkg t, t_core t) f) as [Hi|Hi].
      + apply F in Hi as (_ & Hi). apply Hi. exists u. cbn. auto.
      + exfalso. apply (R c). split; [exact Hc|]. intros (k & Hk & (t2 & Ht2 & L2 & E2 & Ep2 & Ek2)).
        assert (t2 = t) by (eapply cpu_line_unique; eauto; congruence). subst t2.
        apply Hi. rewrite Ep2, Ek2. now destruct k.
    - exists SDie. split; [reflexivity|]. split; [tauto|].
      destruct (cpus_div_dies ci (Some l)) as [[f r]|] eqn:E; [|discriminate]. cbn [rbind snd] in H.
      destruct r; [|discriminate]. destruct (cpus_div_dies_sound _ _ _ _ Hwf E) as (F & R).
      intros c x Hc (t & u & Ht & Hu & Lt & Lu & Et & <- & Eu). cbn in Eu.
      assert (Ep : t_pkg t = t_pkg u) by congruence. assert (Ec : t_die t = t_die u) by congruence. clear Eu.
      destruct (in_dec pair_dec (t_pkg t, t_die t) f) as [Hi|Hi].
      + apply (F _ _ Hi). exists u. cbn. auto.
      + exfalso. apply (R c). split; [exact Hc|]. intros (k & Hk & (t2 & Ht2 & L2 & E2 & Ep2 & Ek2)).
        assert (t2 = t) by (eapply cpu_line_unique; eauto; congruence). subst t2.
        apply Hi. rewrite Ep2, Ek2. now destruct k.
    - exists SPackage. split; [reflexivity|]. split; [tauto|].
      destruct (cpus_div_packages ci (Some l) None) as [[f r]|] eqn:E; [|discriminate]. cbn [rbind snd] in H.
      destruct r; [|discriminate]. destruct (cpus_div_packages_l _ _ _ _ Hwf E) as (_ & F & R & _).
      intros c x Hc (t & u & Ht & Hu & Lt & Lu & Et & <- & Eu). cbn in Eu.
      assert (Ep : t_pkg t = t_pkg u) by congruence. clear Eu.
      destruct (in_dec Z.eq_dec (t_pkg t) f) as [Hi|Hi].
      + apply F in Hi as (_ & Hi). apply Hi. exists u. auto.
      + exfalso. apply (R c). split; [exact Hc|]. intros (k & Hk & (t2 & Ht2 & L2 & E2 & Ep2)).
        assert (t2 = t) by (eapply cpu_line_unique; eauto; congruence). subst t2.
        apply Hi. now rewrite Ep2.
    - exists SGlobal. split; [reflexivity|]. split; [tauto|].
      destruct (subsetb (get_cpus ci) l) eqn:E; [|discriminate]. rewrite subsetb_incl in E.
      intros c x Hc Hs. apply E. apply same_unit_online in Hs as (_ & Hx); [|exact Hwf].
      unfold get_cpus. now rewrite zsort_In.
  Qed.

  Lemma validate_accepts sc l :
    (forall c, In c l -> In c (ci_online ci)) -> l <> [] ->
    (sc = SCPU \/ sc = SGlobal \/ sc = SPackage \/ sc = SDie /\ io_dies_exact ci \/ sc = SCore) ->
    whole_units cls sc l -> validate_cpus_vs_scope cls (Some sc) l = Ok tt.
  Proof.
    intros Hon Hne Hsc Hw.
    assert (Hrow : forall c, In c l -> exists t, In t topo /\ cpu_line t /\ t_cpu t = c).
    { intros c Hc. apply (wf_online _ Hwf). now apply Hon. }
    assert (Hall : forall c, In c l -> In c (ci_all ci)).
    { intros c Hc. apply (wf_online_all _ Hwf). now apply Hon. }
    unfold validate_cpus_vs_scope. fold ci.
    destruct Hsc as [->|[->|[->|[[-> Hio]| ->]]]]; [reflexivity| | | |].
    - assert (E : subsetb (get_cpus ci) l = true).
      { apply subsetb_incl. intros c Hc. unfold get_cpus in Hc. rewrite zsort_In in Hc.
        destruct l as [|c0 t0]; [congruence|]. apply (Hw c0); [now left|].
        assert (H0 : In c0 (ci_online ci)) by (apply Hon; now left).
        apply (wf_online _ Hwf) in H0 as (t & Ht & Lt & Et). apply (wf_online _ Hwf) in Hc as (u & Hu & Lu & Eu).
        exists t, u. repeat split; auto. }
      now rewrite E.
    - destruct (cpus_div_packages_succeeds_l ci l Hwf Hall) as (f & r & E). rewrite E. cbn [rbind snd].
      destruct (cpus_div_packages_l _ _ _ _ Hwf E) as (_ & F & R & _).
      destruct r as [|c r]; [reflexivity|]. exfalso. destruct (proj1 (R c) (or_introl eq_refl)) as (Hc & Hn).
      destruct (Hrow c Hc) as (t & Ht & Lt & Et). apply Hn. exists (t_pkg t). split.
      + apply F. split; [now exists t|]. intros x (u & Hu & Lu & Eu & Ep). apply (Hw c); [exact Hc|].
        exists t, u. repeat split; auto. cbn. congruence.
      + exists t. auto.
    - destruct (cpus_div_dies_succeeds_l ci l Hwf Hall) as (f & r & E). rewrite E. cbn [rbind snd].
      destruct (cpus_div_dies_l _ _ _ _ Hwf Hio E) as (_ & F & R & _).
      destruct r as [|c r]; [reflexivity|]. exfalso. destruct (proj1 (R c) (or_introl eq_refl)) as (Hc & Hn).
      destruct (Hrow c Hc) as (t & Ht & Lt & Et). apply Hn. exists (t_pkg t, t_die t). split.
      + apply F. split; [exists c, t; cbn; auto|]. intros x (u & Hu & Lu & Eu & Ep & Ed). apply (Hw c); [exact Hc|].
        exists t, u. repeat split; auto. cbn in *. congruence.
      + exists t. cbn. auto.
    - destruct (cpus_div_cores_succeeds_l ci l Hwf Hall) as (f & r & E). rewrite E. cbn [rbind snd].
      destruct (cpus_div_cores_l _ _ _ _ Hwf E) as (_ & F & R & _).
      destruct r as [|c r]; [reflexivity|]. exfalso. destruct (proj1 (R c) (or_introl eq_refl)) as (Hc & Hn).
      destruct (Hrow c Hc) as (t & Ht & Lt & Et). apply Hn. exists (t_pkg t, t_core t). split.
      + apply F. split; [exists t; cbn; auto|]. intros x (u & Hu & Lu & Eu & Ep & Ed). apply (Hw c); [exact Hc|].
        exists t, u. repeat split; auto. cbn in *. congruence.
      + exists t. cbn. auto.
  Qed.

  Lemma scope_accepted_l pname val cpus mnames s m s' :
    set_prop_cpus cls pname val cpus mnames s = (Ok m, s') ->
    exists st1 sc l, scope_known cls pname (ps_st s) st1 /\ pc_sname cls st1 pname = Some sc /\
      (sc = SCPU \/ sc = SGlobal \/ sc = SPackage \/ sc = SDie \/ sc = SCore) /\
      req_cpus cls cpus l /\ whole_units cls sc l.
  Proof.
    intros H. unfold set_prop_cpus in H.
    apply lift_bind in H as [(ms & Hms & H)|(e & _ & [=] & _)].
    apply lift_bind in H as [(v & Hv & H)|(e & _ & [=] & _)].
    apply lift_bind in H as [(l & Hl & H)|(e & _ & [=] & _)].
    pose proof (normalize_cpus_req cls _ _ Hwf Hl) as Hreq.
    assert (H' : (on_st (pc_set_sname cls pname) ;;
      let! sn := gets (fun s => pc_sname cls (ps_st s) pname) in
      lift (validate_cpus_vs_scope cls sn l) ;;
      set_prop_cpus_mnames cls pname v l ms) s = (Ok m, s')) by (destruct l; [discriminate|exact H]).
    clear H. unfold mbind at 1 in H'.
    destruct (on_st (pc_set_sname cls pname) s) as [[[]|e] s1] eqn:E1; [|discriminate].
    destruct (on_st_run _ _ _ _ E1) as (K1 & K2 & K3).
    unfold mbind at 1, gets in H'. cbv beta iota in H'.
    apply lift_bind in H' as [([] & Hval & H')|(e & _ & [=] & _)].
    destruct (validate_whole _ l (proj1 (proj2 Hreq)) Hval) as (sc & Hsc & Hcase & Hw).
    exists (ps_st s1), sc, l. auto.
  Qed.

  Lemma scope_rejected_l pname val cpus mnames s st1 sc c x :
    scope_known cls pname (ps_st s) st1 -> pc_sname cls st1 pname = Some sc ->
    nums_has cpus c -> In c (ci_online ci) -> same_unit topo sc c x -> ~ nums_has cpus x ->
    exists e s', set_prop_cpus cls pname val cpus mnames s = (Exn e, s') /\
      (ps_st s' = ps_st s \/ ps_st s' = st1) /\ ps_sets s' = ps_sets s.
  Proof.
    intros Hk Hsn Hc Hon Hs Hnx.
    unfold set_prop_cpus, mbind at 1, lift at 1.
    destruct (normalize_mnames _ _ _ _) as [ms|e]; [|exists e, s; auto].
    unfold mbind at 1, lift at 1. destruct (normalize_inprop _ _ _) as [v|e]; [|exists e, s; auto].
    unfold mbind at 1, lift at 1. destruct (normalize_cpus (pc_ci cls) cpus false) as [l|e] eqn:El; [|exists e, s; auto].
    pose proof (normalize_cpus_req cls _ _ Hwf El) as (R1 & R2 & R3).
    assert (Hcl : In c l). { apply R3. now destruct cpus. }
    assert (Hxl : ~ In x l). { rewrite R3. destruct cpus; [exact Hnx|]. cbn in Hnx. tauto. }
    destruct l as [|c0 lt]; [destruct Hcl|].
    unfold mbind at 1. unfold on_st at 1. unfold scope_known in Hk. rewrite Hk. cbv beta iota.
    unfold mbind at 1, gets at 1. cbv beta iota. cbn [ps_st]. unfold mbind at 1, lift at 1.
    destruct (validate_cpus_vs_scope cls (pc_sname cls st1 pname) (c0 :: lt)) as [[]|e] eqn:Ev.
    - exfalso. destruct (validate_whole _ _ R2 Ev) as (sc' & E & _ & Hw). rewrite Hsn in E. injection E as <-.
      apply Hxl, (Hw c); auto.
    - eexists _, _. split; [reflexivity|]. cbn. auto.
  Qed.

  (** ** C20 *)
  Lemma lowest_unique (P : Z -> Prop) a b : lowest P a -> lowest P b -> a = b.
  Proof. intros (A1 & A2) (B1 & B2). specialize (A2 b B1). specialize (B2 a A1). lia. Qed.

  Lemma lowest_ext (P Q : Z -> Prop) a : (forall x, P x <-> Q x) -> lowest P a -> lowest Q a.
  Proof. intros H (A1 & A2). split; [now apply H|]. intros x Hx. apply A2. now apply H. Qed.

  Lemma unit_ext sc a b : same_unit topo sc a b -> forall x, same_unit topo sc a x <-> same_unit topo sc b x.
  Proof.
    intros H x. split; intros Hx.
    - eapply same_unit_trans; [exact Hwf| |exact Hx]. now apply same_unit_sym.
    - eapply same_unit_trans; [exact Hwf|exact H|exact Hx].
  Qed.

  Lemma lowest_exists sc c : sc_ok sc -> In c (ci_online ci) -> exists x, lowest (same_unit topo sc c) x.
  Proof.
    intros Hs Hc. destruct (siblings_any sc c Hs Hc) as (l & _ & Sl & Il). destruct l as [|x t].
    - exfalso. apply (Il c). now apply same_unit_refl.
    - exists x. eapply first_sorted_lowest; eauto.
  Qed.

  Lemma reduce_loop_l sc : sc_ok sc -> forall cpus handled red,
    (forall c, In c cpus -> In c (ci_online ci)) ->
    (forall h, In h handled -> exists x, In x red /\ lowest (same_unit topo sc h) x) ->
    exists r, reduce_loop cls sc cpus handled red = Ok r /\
      forall x, In x r <-> In x red \/ exists c, In c cpus /\ lowest (same_unit topo sc c) x.
  Proof.
    intros Hs. induction cpus as [|c t IH]; intros handled red Hon Hh; cbn [reduce_loop].
    - exists red. split; [reflexivity|]. intros x. split; [auto|]. intros [H|(c & [] & _)]; exact H.
    - destruct (inb c handled) eqn:Eh.
      + apply inb_In in Eh. destruct (Hh c Eh) as (y & Hy & Ly).
        destruct (IH handled red) as (r & Er & Ir); [intros; apply Hon; now right|exact Hh|].
        exists r. split; [exact Er|]. intros x. rewrite Ir. split.
        * intros [H|(c' & H & L)]; [auto|]. right. exists c'. split; [now right|exact L].
        * intros [H|(c' & [<-|H] & L)]; [auto| |]; [left|right; eauto].
          now rewrite (lowest_unique _ _ _ L Ly).
      + destruct (siblings_any sc c Hs) as (l & El & Sl & Il); [apply Hon; now left|].
        fold ci. rewrite El. cbn [rbind]. destruct l as [|y tl].
        { exfalso. apply (Il c). apply same_unit_refl; [exact Hwf|]. apply Hon; now left. }
        assert (Ly : lowest (same_unit topo sc c) y) by (eapply first_sorted_lowest; eauto).
        destruct (IH (handled ++ tl) (y :: red)) as (r & Er & Ir).
        { intros; apply Hon; now right. }
        { intros h Hin. apply in_app_iff in Hin as [Hin|Hin].
          - destruct (Hh h Hin) as (x & Hx & Lx). exists x. split; [now right|exact Lx].
          - exists y. split; [now left|]. eapply lowest_ext; [|exact Ly].
            apply unit_ext. apply Il. now right. }
        exists r. split; [exact Er|]. intros x. rewrite Ir. cbn [In]. split.
        * intros [[<-|H]|(c' & H & L)]; [right; exists c; auto|auto|right; exists c'; auto].
        * intros [H|(c' & [<-|H] & L)]; [auto| |right; eauto].
          left. left. symmetry. exact (lowest_unique _ _ _ L Ly).
  Qed.

  Lemma reduce_cpus_l cpus ios w :
    (forall c, In c cpus -> In c (ci_online ci)) ->
    (ios = Some SModule -> modules_unique topo) ->
    reduce_cpus_ioscope cls cpus ios = Ok w ->
    (ios = None /\ cpus = [] /\ w = []) \/
    exists sc, ios = Some sc /\
      forall c, In c w <-> In c cpus /\ lowest (same_unit topo sc c) c.
  Proof.
    intros Hon Hm H. destruct ios as [sc|].
    2: { left. cbn in H. destruct cpus; [|discriminate]. injection H as <-. auto. }
    right. exists sc. split; [reflexivity|].
    assert (Hs : sc_ok sc).
    { intros ->. now apply Hm. }
    destruct (scope_eqb sc SCPU) eqn:Esc.
    - assert (sc = SCPU) as -> by (destruct sc; discriminate || reflexivity). cbn in H. injection H as <-.
      intros c. split; [|tauto]. intros Hc. split; [exact Hc|]. split; [apply same_unit_refl; auto|].
      intros x (t & u & _ & _ & _ & _ & <- & <- & E). cbn in E. injection E as ->. lia.
    - assert (H2 : (let? reduced := reduce_loop cls sc cpus [] [] in
                   Ok (filter (fun c => inb c reduced) cpus)) = Ok w) by (destruct sc; try discriminate; exact H).
      destruct (reduce_loop_l sc Hs cpus [] [] Hon) as (r & Er & Ir); [intros h []|].
      rewrite Er in H2. cbn [rbind] in H2. injection H2 as <-. intros c. rewrite filter_In, inb_In, Ir.
      split; intros (Hc & H2); (split; [exact Hc|]).
      + destruct H2 as [[]|(c' & Hc' & L)]. eapply lowest_ext; [|exact L]. apply unit_ext, L.
      + right. exists c. auto.
  Qed.

  Definition calls_of (pre : list Z) (v : V) (calls : list (Z * V * list Z)) : Prop :=
    Forall (fun k => In (fst (fst k)) pre /\ snd (fst k) = v) calls.

  Lemma set_units_run pname v uc m s r s' :
    set_units cls pname v uc m s = (r, s') ->
    ps_gets s' = ps_gets s /\
    match r with
    | Ok _ => exists ll w, uc = Ok ll /\ reduce_cpus_ioscope cls (concat ll) (pc_iosname cls (ps_st s) pname) = Ok w /\
        pc_set cls pname v w m (ps_st s) = (Ok tt, ps_st s') /\ ps_sets s' = ps_sets s ++ [(m, v, w)]
    | Exn e => exists calls, ps_sets s' = ps_sets s ++ calls /\ calls_of [m] v calls
    end.
  Proof.
    intros H. unfold set_units in H.
    assert (Z0 : exists calls : list (Z * V * list Z), ps_sets s = ps_sets s ++ calls /\ calls_of [m] v calls).
    { exists []. rewrite app_nil_r. split; [reflexivity|constructor]. }
    apply lift_bind in H as [(ll & Hll & H)|(e & _ & -> & ->)]; [|auto].
    unfold mbind at 1, gets in H. cbv beta iota in H.
    apply lift_bind in H as [(w & Hw & H)|(e & _ & -> & ->)]; [|auto].
    unfold mbind at 1 in H. unfold set_prop_cpus_mnames in H. unfold mbind at 1, lift at 1 in H.
    destruct (prop_of cls pname) as [p|e]; [|apply pair_equal_spec in H as [<- <-]; auto].
    cbn [or_default set_loop] in H.
    destruct (do_set cls pname v w m s) as [[[]|e] s1] eqn:E; destruct (do_set_run _ _ _ _ _ _ _ _ E) as (K1 & K2 & K3).
    - apply pair_equal_spec in H as [<- <-]. split; [exact K2|]. exists ll, w. auto.
    - assert (s1 = s' /\ exists e', r = Exn e') as [<- (e' & ->)].
      { destruct e; apply pair_equal_spec in H as [<- <-]; eauto. }
      split; [exact K2|]. exists [(m, v, w)]. split; [exact K3|]. constructor; [|constructor]. cbn. auto.
  Qed.

  Lemma set_units_loop_ok pname v uc fail : forall ms s m s',
    set_loop (set_units cls pname v uc) fail ms s = (Ok m, s') ->
    exists pre st2 ll w calls, tried_first ms pre m /\ uc = Ok ll /\
      reduce_cpus_ioscope cls (concat ll) (pc_iosname cls st2 pname) = Ok w /\
      pc_set cls pname v w m st2 = (Ok tt, ps_st s') /\ ps_gets s' = ps_gets s /\
      ps_sets s' = ps_sets s ++ calls ++ [(m, v, w)] /\ calls_of pre v calls.
  Proof.
    induction ms as [|m0 rest IH]; intros s m s' H; cbn [set_loop] in H; [discriminate|].
    destruct (set_units cls pname v uc m0 s) as [[[]|e] s1] eqn:E;
      destruct (set_units_run _ _ _ _ _ _ _ E) as (H1 & H2).
    - apply pair_equal_spec in H as [Hm <-]. injection Hm as <-.
      destruct H2 as (ll & w & A1 & A2 & A3 & A4).
      exists [], (ps_st s), ll, w, []. split; [now exists rest|]. repeat (split; [assumption|]). constructor.
    - assert (Hl : set_loop (set_units cls pname v uc) fail rest s1 = (Ok m, s')).
      { destruct e; try discriminate; auto. }
      destruct H2 as (calls0 & A1 & A2).
      destruct (IH _ _ _ Hl) as (pre & st2 & ll & w & calls & (post & ->) & B1 & B2 & B3 & B4 & B5 & B6).
      exists (m0 :: pre), st2, ll, w, (calls0 ++ calls). split; [now exists post|]. split; [exact B1|].
      split; [exact B2|]. split; [exact B3|]. split; [congruence|]. split.
      { rewrite B5, A1. now rewrite <- !app_assoc. }
      apply Forall_app. split.
      + eapply Forall_impl; [|exact A2]. cbn. intros k ([Hk|[]] & Hv). auto.
      + eapply Forall_impl; [|exact B6]. cbn. intros k (Hk & Hv). auto.
  Qed.

  Lemma normalize_packages_req packages l :
    normalize_packages ci packages = Ok l ->
    NoDup l /\ (forall p, In p l -> is_pkg topo p) /\
    (forall p, In p l <-> is_pkg topo p /\ nums_has packages p).
  Proof.
    unfold normalize_packages. destruct (get_packages_l ci Hwf) as (av & Ea & Hnd & Hin). rewrite Ea. cbn [rbind].
    destruct packages as [l0|].
    - intros H. destruct (normalize_in_ok _ _ _ H) as (-> & Hav). split; [apply NoDup_dedup|]. split.
      + intros p. rewrite dedup_In. intros Hp. apply Hin. auto.
      + intros p. rewrite dedup_In. cbn. split; [|tauto]. intros Hp. split; [apply Hin; auto|exact Hp].
    - intros [= <-]. split; [exact Hnd|]. split; [intros p; apply Hin|]. intros p. rewrite Hin. cbn. tauto.
  Qed.

  Lemma pkgs_cpus_l l ll : pkgs_cpus cls l = Ok ll ->
    forall c, In c (concat ll) <-> exists p, In p l /\ cpu_in_pkg topo p c.
  Proof.
    intros H c. unfold pkgs_cpus in H. rewrite in_concat. split.
    - intros (x & Hx & Hc). rewrite (rmap_In _ _ _ H) in Hx. destruct Hx as (p & Hp & Ep).
      destruct (packages_to_cpus_l _ _ _ Hwf Ep) as (_ & Hin). apply Hin in Hc as (p' & Hp' & Hc).
      destruct Hp' as [<-|[]]. eauto.
    - intros (p & Hp & Hc).
      assert (exists r, packages_to_cpus ci (Some [p]) = Ok r) as (r & Er).
      { destruct Hc as (t & Ht & Lt & Et & Ep). apply packages_to_cpus_ok_iff_l. intros x [<-|[]]. exists t.
        destruct (line_pkg_ok ci t Hwf Ht). auto. }
      exists r. split. { rewrite (rmap_In _ _ _ H). eauto. }
      apply (packages_to_cpus_l _ _ _ Hwf Er). exists p. split; [now left|exact Hc].
  Qed.

  Lemma dies_cpus_l l ll : dies_cpus cls l = Ok ll ->
    forall c, In c (concat ll) <-> exists pd, In pd l /\ cpu_in_die topo pd c.
  Proof.
    intros H c. unfold dies_cpus in H. rewrite in_concat. split.
    - intros (x & Hx & Hc). rewrite (rmap_In _ _ _ H) in Hx. destruct Hx as (p & Hp & Ep).
      destruct (dies_to_cpus_l _ _ _ _ Hwf Ep) as (_ & Hin). apply Hin in Hc as (p' & d' & Hp' & Hd' & Hc).
      destruct Hp' as [<-|[]]. destruct Hd' as [<-|[]]. exists p. split; [exact Hp|]. now destruct p.
    - intros (pd & Hp & Hc).
      destruct (die_cpus_one ci (fst pd) (snd pd) Hwf) as (r & Er & Ir).
      { destruct Hc as (t & Ht & Lt & Et & A & B). exists t. auto. }
      exists r. split. { rewrite (rmap_In _ _ _ H). eauto. }
      apply Ir. now rewrite <- surjective_pairing.
  Qed.

  Lemma in_pkg_online p c : cpu_in_pkg topo p c -> In c (ci_online ci).
  Proof. intros (t & Ht & Lt & Et & _). apply (wf_online _ Hwf). now exists t. Qed.
  Lemma in_die_online p c : cpu_in_die topo p c -> In c (ci_online ci).
  Proof. intros (t & Ht & Lt & Et & _). apply (wf_online _ Hwf). now exists t. Qed.

  (** The common part of setting per package and per die. *)
  Lemma set_pkgs_l pname val packages mnames s m s' :
    (forall st, pc_iosname cls st pname = Some SModule -> modules_unique topo) ->
    set_prop_packages cls pname val packages mnames s = (Ok m, s') ->
    exists v0 v st1 ms pre st2 w calls,
      val = Some v0 /\ pc_norm cls pname v0 = Ok v /\ scope_known cls pname (ps_st s) st1 /\
      (pc_sname cls st1 pname = Some SPackage \/ pc_sname cls st1 pname = Some SGlobal) /\
      allowed cls pname mnames ms /\ tried_first ms pre m /\
      (forall p, match packages with Some l => In p l -> is_pkg topo p | None => True end) /\
      pc_set cls pname v w m st2 = (Ok tt, ps_st s') /\
      ps_sets s' = ps_sets s ++ calls ++ [(m, v, w)] /\ calls_of pre v calls /\
      (forall c, In c w -> exists p, nums_has packages p /\ cpu_in_pkg topo p c) /\
      (forall sc, pc_iosname cls st2 pname = Some sc ->
         forall c, In c w <-> (exists p, nums_has packages p /\ cpu_in_pkg topo p c) /\
                              lowest (same_unit topo sc c) c) /\
      (pc_iosname cls st2 pname = None -> ~ exists p c, nums_has packages p /\ cpu_in_pkg topo p c).
  Proof.
    intros Hmod H. unfold set_prop_packages in H.
    apply lift_bind in H as [(ms & Hms & H)|(e & _ & [=] & _)].
    apply lift_bind in H as [(v & Hv & H)|(e & _ & [=] & _)].
    apply lift_bind in H as [(l & Hl & H)|(e & _ & [=] & _)].
    destruct (normalize_inprop_ok _ _ _ _ Hv) as (v0 & p & -> & Hp & Hw & Hn).
    destruct (normalize_packages_req _ _ Hl) as (N1 & N2 & N3).
    assert (H' : (on_st (pc_set_sname cls pname) ;;
      let! sn := gets (fun s => pc_sname cls (ps_st s) pname) in
      lift (validate_prop_vs_scope sn SPackage) ;;
      let! p := lift (prop_of cls pname) in
      set_loop (set_units cls pname v (pkgs_cpus cls l)) ENotSupported (or_default p ms)) s = (Ok m, s')).
    { destruct packages as [[|x t]|]; [discriminate|exact H|exact H]. }
    clear H. unfold mbind at 1 in H'.
    destruct (on_st (pc_set_sname cls pname) s) as [[[]|e] s1] eqn:E1; [|discriminate].
    destruct (on_st_run _ _ _ _ E1) as (K1 & K2 & K3).
    unfold mbind at 1, gets in H'. cbv beta iota in H'.
    apply lift_bind in H' as [([] & Hval & H')|(e & _ & [=] & _)].
    apply lift_bind in H' as [(p' & Hp' & H')|(e & _ & [=] & _)].
    unfold prop_of in Hp'. rewrite Hp in Hp'. injection Hp' as <-.
    destruct (set_units_loop_ok _ _ _ _ _ _ _ _ H') as (pre & st2 & ll & w & calls & T & U1 & U2 & U3 & U4 & U5 & U6).
    assert (Hsel : forall c, In c (concat ll) <-> exists p, nums_has packages p /\ cpu_in_pkg topo p c).
    { intros c. rewrite (pkgs_cpus_l _ _ U1). split.
      - intros (q & Hq & Hc). exists q. split; [now apply N3|exact Hc].
      - intros (q & Hq & Hc). exists q. split; [|exact Hc]. apply N3. split; [|exact Hq].
        destruct Hc as (t & Ht & _ & _ & Ep). now exists t. }
    assert (Hon : forall c, In c (concat ll) -> In c (ci_online ci)).
    { intros c Hc. apply Hsel in Hc as (q & _ & Hc). now apply in_pkg_online in Hc. }
    pose proof (reduce_cpus_l _ _ _ Hon (Hmod st2) U2) as Hred.
    exists v0, v, (ps_st s1), (or_default p ms), pre, st2, w, calls.
    split; [reflexivity|]. split; [exact Hn|]. split; [exact K1|]. split.
    { unfold validate_prop_vs_scope in Hval. destruct (pc_sname cls (ps_st s1) pname) as [[]|]; try discriminate; auto. }
    split; [now apply (normalize_mnames_allowed _ _ _ _ _ Hms)|]. split; [exact T|]. split.
    { intros q. destruct packages as [l0|]; [|exact I]. intros Hq.
      destruct (get_packages_l ci Hwf) as (av & Ea & _ & Hin). unfold normalize_packages in Hl. fold ci in Hl.
      rewrite Ea in Hl. cbn [rbind] in Hl. destruct (normalize_in_ok _ _ _ Hl) as (_ & Hav). apply Hin. auto. }
    split; [exact U3|]. split; [congruence|]. split; [exact U6|]. split; [|split].
    - intros c Hc. apply Hsel. destruct Hred as [(_ & _ & ->)|(sc & _ & Hr)]; [destruct Hc|]. now apply Hr in Hc as (Hc & _).
    - intros sc Hsc c. rewrite <- Hsel. destruct Hred as [(Hno & _)|(sc' & Hsc' & Hr)]; [congruence|].
      rewrite Hsc in Hsc'. injection Hsc' as <-. apply Hr.
    - intros Hno (q & c & Hq & Hc). destruct Hred as [(_ & He & _)|(sc' & Hsc' & _)]; [|congruence].
      assert (In c (concat ll)) by (apply Hsel; eauto). rewrite He in *. contradiction.
  Qed.

  Lemma C20_packages_l pname val packages mnames s m s' :
    (forall st, pc_iosname cls st pname = Some SModule -> modules_unique topo) ->
    (forall st, pc_iosname cls st pname <> Some SGlobal /\ pc_iosname cls st pname <> Some SNode) ->
    set_prop_packages cls pname val packages mnames s = (Ok m, s') ->
    exists v st2 sets w, ps_sets s' = ps_sets s ++ sets ++ [(m, v, w)] /\
      pc_set cls pname v w m st2 = (Ok tt, ps_st s') /\
      (exists v0, val = Some v0 /\ pc_norm cls pname v0 = Ok v) /\
      (forall p c, nums_has packages p -> cpu_in_pkg topo p c ->
         exists sc x, pc_iosname cls st2 pname = Some sc /\ In x w /\ same_unit topo sc c x) /\
      (forall x, In x w -> exists p, nums_has packages p /\ cpu_in_pkg topo p x) /\
      (forall sc x y, pc_iosname cls st2 pname = Some sc -> In x w -> In y w -> same_unit topo sc x y -> x = y).
  Proof.
    intros Hmod Hfine H.
    destruct (set_pkgs_l _ _ _ _ _ _ _ Hmod H)
      as (v0 & v & st1 & ms & pre & st2 & w & calls & E0 & En & _ & _ & _ & _ & _ & Hset & Hlog & _ & Hin & Hw & Hno).
    exists v, st2, calls, w. split; [exact Hlog|]. split; [exact Hset|]. split; [eauto|]. split; [|split; [exact Hin|]].
    - intros p c Hp Hc. destruct (pc_iosname cls st2 pname) as [sc|] eqn:Eio.
      2: { exfalso. apply Hno; eauto. }
      assert (Hs : sc_ok sc).
      { intros ->. exact (Hmod st2 Eio). }
      destruct (lowest_exists sc c Hs (in_pkg_online _ _ Hc)) as (x & Lx).
      exists sc, x. split; [reflexivity|]. split; [|apply Lx]. apply (Hw sc eq_refl).
      split.
      + exists p. split; [exact Hp|]. destruct Lx as ((t & u & Ht & Hu & Lt & Lu & Et & Eu & Eid) & _).
        destruct Hc as (t2 & Ht2 & Lt2 & Et2 & Ep2).
        assert (t2 = t) by (eapply cpu_line_unique; eauto; congruence). subst t2.
        exists u. repeat split; auto. rewrite <- Ep2.
        destruct (Hfine st2) as (F1 & F2). rewrite Eio in F1, F2.
        destruct sc; cbn in Eid; try congruence. injection Eid as Eid.
        assert (t = u) by (eapply cpu_line_unique; eauto; congruence). congruence.
      + eapply lowest_ext; [|exact Lx]. apply unit_ext, Lx.
    - intros sc x y Eio Hx Hy Hs. apply (Hw sc Eio) in Hx as (_ & Lx). apply (Hw sc Eio) in Hy as (_ & Ly).
      eapply lowest_unique; [exact Lx|]. eapply lowest_ext; [|exact Ly].
      apply unit_ext. now apply same_unit_sym.
  Qed.
End C2021.
