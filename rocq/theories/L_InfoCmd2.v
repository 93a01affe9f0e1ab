(** Lemmas for C71: what is printed about C-states. *)
From Coq Require Import Ascii String ZifyBool.
From Verif Require Import Base L_Base L_Monad M_CPUInfo S_CPUInfo L_CPUInfo L_CPUInfo2 M_Text S_Text L_Text M_Human M_CPUIdle S_CPUIdle L_CPUIdle L_CPUIdle2 L_CPUIdle3 L_CPUIdle4 L_CPUIdle5 L_CPUIdle6 L_CPUIdle7
  M_CSave S_CSave L_CSave L_CSave2 L_CSave3 M_Props M_OpTarget M_Print S_Print L_Print4 M_InfoCmd S_InfoCmd L_InfoCmd.

Section Facts.
  Variables (mc : machine) (nst : Z -> Z).
  Hypothesis Hok : idle_ok mc nst.
  Variable flags : Z -> Z -> str.
  Hypothesis Hf : flags_ok mc nst flags.
  Variables (ops : list iop) (gov : str) (tick : Z) (wf : list bool) (csnames : csarg) (cpus : nums_t).
  Hypothesis Hs : is_all csnames -> same_names mc nst (cs_targets mc cpus).
  Notation s0 := (irun mc ops (idle_init flags gov tick [] wf)).

  (** A C-state of a CPU that is asked about. *)
  Definition meant (c i : Z) (n : str) : Prop :=
    In c (cs_targets mc cpus) /\ 0 <= i < nst c /\ n = cs_name mc c i /\ asked csnames (own_names mc nst c) n.

  Lemma aggr_facts a s' : aggr_cstates mc csnames cpus false s0 = (Ok (Some a), s') ->
    (forall l, cpus = Some l -> incl l (ci_online (mc_ci mc))) /\
    wfa (print_keys false) a /\ (forall nd, In nd a -> has_status nd = true) /\
    (forall n v l, says_cs a n (s2l "disable"%string) v l -> l <> [] /\ NoDup l /\ exists off : bool, v = CInt (if off then 1 else 0) /\
       forall c, In c l <-> exists i, meant c i n /\ id_flags s' c i = flag_text off) /\
    (forall c i n, meant c i n -> exists (off : bool) l, says_cs a n (s2l "disable"%string) (CInt (if off then 1 else 0)) l /\ In c l /\ id_flags s' c i = flag_text off) /\
    (forall n key v l, says_cs a n key v l -> In key cs_details -> exists c i t, meant c i n /\ v = says (mc_text mc c i key t)) /\
    (forall c i n key, meant c i n -> In key cs_details -> exists v l t, says_cs a n key v l /\ In c l /\ v = says (mc_text mc c i key t)).
  Proof.
    intros E. assert (E0 := E).
    unfold aggr_cstates in E. destruct (get_cstates_info mc cpus csnames _) as ([r|e], s1) eqn:Eg; [|destruct e; discriminate].
    assert (Ea : build_aggr_rcsinfo r (print_keys false) = a) by congruence. assert (E2 : s1 = s') by congruence. subst s1. clear E.
    destruct (info_exact mc nst Hok flags Hf ops gov tick wf cpus csnames r s' Eg Hs) as (R1 & R2 & R3).
    destruct (reach mc nst true flags gov tick [] wf ops Hok Hf ltac:(reflexivity)) as (HI & _).
    assert (H := post_run _ _ _ _ _ _ (info_post mc nst Hok (fun _ _ => False) true cpus csnames _ HI) Eg). cbn beta iota in H.
    destruct H as (_ & _ & Hk & l & _ & Hl & Hr & _). destruct (norm_cpus mc nst Hok cpus l Hl) as (_ & N2 & N3).
    assert (Hd : dict_items r).
    { split; [exact R1|]. intros c1 info H. destruct (R3 c1 info H) as (T1 & _ & T3). split; [exact T1|]. intros m cs Hcs.
      destruct (T3 m cs Hcs) as (i & o & _ & _ & _ & (D & _) & _). exact D. }
    destruct (rcs_partition r (print_keys false) Hd) as (P1 & P2 & _). destruct (build_spec (print_keys false) r (proj2 Hd)) as (W & Wn & _).
    rewrite Ea in *.
    assert (K : forall c n key v, known_cs r c n key v -> exists i info cs, meant c i n /\ In (c, info) r /\ In (n, cs) info /\ describes mc c i cs /\
                  In (key, v) cs /\ exists off : bool, dget str_eqb cs (s2l "disable"%string) = Some (CInt (if off then 1 else 0)) /\ id_flags s' c i = flag_text off).
    { intros c n key v (info & cs & H1 & H2 & H3). destruct (R3 c info H1) as (T1 & _ & T3). destruct (T3 n cs H2) as (i & o & Hi & -> & Ha & D & So & Fo).
      exists i, info, cs. split; [|split; [exact H1|split; [exact H2|split; [exact D|split; [exact H3|]]]]].
      - split; [apply R2, in_map_iff; now exists (c, info)|]. split; [exact Hi|]. split; [reflexivity|exact Ha].
      - exists o. split; [exact So|exact Fo]. }
    assert (M : forall c i n, meant c i n -> exists info cs, In (c, info) r /\ In (n, cs) info /\ describes mc c i cs /\
                  exists off : bool, dget str_eqb cs (s2l "disable"%string) = Some (CInt (if off then 1 else 0)) /\ id_flags s' c i = flag_text off).
    { intros c i n (Hc & Hi & -> & Ha). apply R2 in Hc as Hc'. apply in_map_iff in Hc' as ((c', info) & E & H1). cbn [fst] in E. subst c'.
      destruct (R3 c info H1) as (T1 & T2 & T3). destruct (T2 i Hi Ha) as (cs & H2).
      destruct (T3 _ cs H2) as (j & o & Hj & Ej & _ & D & So & Fj).
      destruct (cpu_facts mc nst Hok c) as (_ & _ & _ & _ & Hinj & _); [apply N2; now apply N3|].
      apply Hinj in Ej; [|exact Hi|exact Hj]. subst j. exists info, cs. split; [exact H1|]. split; [exact H2|]. split; [exact D|]. now exists o. }
    assert (MM : forall c i j n, meant c i n -> meant c j n -> i = j).
    { intros c i j n (Hc & Hi & -> & _) (_ & Hj & Ej & _). destruct (cpu_facts mc nst Hok c) as (_ & _ & _ & _ & Hinj & _); [apply N2; now apply N3|].
      now apply Hinj. }
    assert (Kd : In (s2l "disable"%string) (print_keys false)) by now left.
    assert (Kk : forall key, In key cs_details -> In key (print_keys false)).
    { unfold cs_details. cbn. intuition. }
    split; [exact Hk|]. split; [exact W|]. split; [|split; [|split; [|split]]].
    - intros (n, d) Hnd. destruct (proj1 (Wn n)) as (c & info & H1 & H2); [apply in_map_iff; now exists (n, d)|].
      apply in_map_iff in H2 as ((n', cs) & E & H2). cbn [fst] in E. subst n'. destruct (R3 c info H1) as (_ & _ & T3).
      destruct (T3 n cs H2) as (i & o & _ & _ & _ & _ & So & _). unfold shows_off in So.
      destruct (P2 c n (s2l "disable"%string) (CInt (if o then 1 else 0))) as (lc & (d' & k & A1 & A2 & _) & _); [|exact Kd|].
      + exists info, cs. split; [exact H1|]. split; [exact H2|]. now apply (dget_In _ str_eqb_spec).
      + unfold has_status. cbn [snd].
        assert (d' = d) as ->. { apply (In_dget _ str_eqb_spec _ _ _ (proj1 W)) in A1. apply (In_dget _ str_eqb_spec _ _ _ (proj1 W)) in Hnd. congruence. }
        rewrite (In_dget _ str_eqb_spec _ _ _ (proj1 (proj1 (proj2 W n d Hnd))) A2). reflexivity.
    - intros n v lc Hsay. destruct (P1 _ _ _ _ Hsay) as (Q1 & Q2 & _ & Q4). split; [exact Q1|]. split; [exact Q2|].
      destruct lc as [|c0 lt]; [contradiction|]. destruct (proj1 (Q4 c0) (or_introl eq_refl)) as (info0 & cs0 & H1 & H2 & H3).
      destruct (K c0 n _ v (ex_intro _ info0 (ex_intro _ cs0 (conj H1 (conj H2 H3))))) as (i0 & info1 & cs1 & _ & _ & _ & (D & _) & H3' & off & So & _).
      exists off. rewrite (In_dget _ str_eqb_spec _ _ _ D H3') in So. injection So as ->. split; [reflexivity|]. intros c. rewrite Q4. split.
      + intros Hkn. destruct (K _ _ _ _ Hkn) as (i & info & cs & Hm & _ & _ & (D' & _) & H3c & o & So & Fo). exists i. split; [exact Hm|].
        rewrite (In_dget _ str_eqb_spec _ _ _ D' H3c) in So. rewrite Fo. f_equal. injection So as So. destruct off, o; try reflexivity; discriminate So.
      + intros (i & Hm & Fo). destruct (M _ _ _ Hm) as (info & cs & A1 & A2 & _ & o & So & Fo'). exists info, cs. split; [exact A1|]. split; [exact A2|].
        rewrite Fo in Fo'. apply flag_inj in Fo'. subst o. now apply (dget_In _ str_eqb_spec).
    - intros c i n Hm. destruct (M _ _ _ Hm) as (info & cs & A1 & A2 & _ & o & So & Fo).
      destruct (P2 c n (s2l "disable"%string) (CInt (if o then 1 else 0))) as (lc & Hsay & Hc); [|exact Kd|now exists o, lc].
      exists info, cs. split; [exact A1|]. split; [exact A2|]. now apply (dget_In _ str_eqb_spec).
    - intros n key v lc Hsay Hkey. destruct (P1 _ _ _ _ Hsay) as (Q1 & _ & _ & Q4). destruct lc as [|c lt]; [contradiction|].
      destruct (K c n key v (proj1 (Q4 c) (or_introl eq_refl))) as (i & info & cs & Hm & _ & _ & (D & _ & _ & D4) & H3 & _).
      destruct (D4 key) as (t & Ht); [revert Hkey; unfold cs_details; cbn [map In]; intuition|]. rewrite (In_dget _ str_eqb_spec _ _ _ D H3) in Ht.
      exists c, i, t. split; [exact Hm|]. congruence.
    - intros c i n key Hm Hkey. destruct (M _ _ _ Hm) as (info & cs & A1 & A2 & (_ & _ & _ & D4) & _).
      destruct (D4 key) as (t & Ht); [revert Hkey; unfold cs_details; cbn [map In]; intuition|].
      destruct (P2 c n key (says (mc_text mc c i key t))) as (lc & Hsay & Hc).
      + exists info, cs. split; [exact A1|]. split; [exact A2|]. now apply (dget_In _ str_eqb_spec).
      + now apply Kk.
      + exists (says (mc_text mc c i key t)), lc, t. split; [exact Hsay|]. now split.
  Qed.
End Facts.

Lemma F2_right {A B} (R : A -> B -> Prop) l l' y : Forall2 R l l' -> In y l' -> exists x, In x l /\ R x y.
Proof. induction 1; intros I; [destruct I|]. destruct I as [<-|I]; [eexists; split; [now left|assumption]|]. destruct (IHForall2 I) as (z & A1 & A2). exists z. split; [now right|exact A2]. Qed.
Lemma F2_left {A B} (R : A -> B -> Prop) l l' x : Forall2 R l l' -> In x l -> exists y, In y l' /\ R x y.
Proof. induction 1; intros I; [destruct I|]. destruct I as [<-|I]; [eexists; split; [now left|assumption]|]. destruct (IHForall2 I) as (z & A1 & A2). exists z. split; [now right|exact A2]. Qed.
Lemma F2_map {A B C} (R : A -> B -> Prop) (f : A -> C) (g : B -> C) l l' : Forall2 R l l' -> (forall x y, In x l -> R x y -> f x = g y) -> map f l = map g l'.
Proof. induction 1; intros H1; cbn; [reflexivity|]. f_equal; [apply H1; [now left|assumption]|]. apply IHForall2. intros u v I. apply H1. now right. Qed.

Lemma details_In d key v : In (key, v) (details_of d) <-> In key cs_details /\ exists k l, In (key, k) d /\ In (v, l) k.
Proof.
  unfold details_of. rewrite in_flat_map. split.
  - intros ((key', k) & H1 & H2). cbn [fst snd] in H2. destruct (key_shown key') eqn:Ek; [|destruct H2].
    apply in_map_iff in H2 as ((v', l) & E & H2). cbn [fst] in E. injection E as <- <-. split; [now apply key_shown_In|]. now exists k, l.
  - intros (H & k & l & H1 & H2). exists (key, k). split; [exact H1|]. cbn [fst snd]. apply key_shown_In in H. rewrite H.
    apply in_map_iff. now exists (v, l).
Qed.

Lemma cstates_printed : forall (V : Type) mc nst, idle_ok mc nst -> forall flags, flags_ok mc nst flags ->
  (forall c, In c (ci_online (mc_ci mc)) -> 0 <= c) -> (forall p, is_pkg (ci_topo (mc_ci mc)) p -> 0 <= p) ->
  forall ops gov tick wf csnames cpus descr group action ls (n : Z) s',
  print_cstates (V := V) mc descr false csnames cpus group action (irun mc ops (idle_init flags gov tick [] wf)) = (Ok ([OCs ls], n), s') ->
  (csnames = s2l "all"%string -> same_names mc nst cpus) ->
  let about c i name := In c cpus /\ 0 <= i < nst c /\ name = cs_name mc c i /\ asked (CsText csnames) (own_names mc nst c) name in
  exists blocks, n = Z.of_nat (length blocks) /\ NoDup (map cb_name blocks) /\
    ls = (match blocks with [] => [s2l "This system does not support C-states"%string] | _ => cs_text action group descr blocks end) /\
    (forall b, In b blocks -> NoDup (map (fun st => fst (fst st)) (cb_status b)) /\
       forall off l t, In (off, l, t) (cb_status b) -> l <> [] /\ NoDup l /\ cpus_text (mc_ci mc) t l /\
         forall c, In c l <-> exists i, about c i (cb_name b) /\ id_flags s' c i = flag_text off) /\
    (forall c i name, about c i name -> exists b off l t, In b blocks /\ cb_name b = name /\ In (off, l, t) (cb_status b) /\ In c l) /\
    (forall b key v, In b blocks -> In (key, v) (cb_detail b) -> In key cs_details /\ exists c i t, about c i (cb_name b) /\ v = says (mc_text mc c i key t)) /\
    (forall c i name key, about c i name -> In key cs_details -> exists b t, In b blocks /\ cb_name b = name /\ In (key, says (mc_text mc c i key t)) (cb_detail b)).
Proof.
  intros V mc nst Hok flags Hf Hnn Hnp ops gov tick wf csnames cpus descr group action ls n s' E Hs about.
  unfold print_cstates, mbind in E.
  destruct (aggr_cstates mc (CsText csnames) (Some cpus) false _) as ([[a|]|e], s1) eqn:Ea; [|discriminate E|discriminate E].
  assert (Hs' : is_all (CsText csnames) -> same_names mc nst (cs_targets mc (Some cpus))).
  { unfold is_all. intros H. apply Hs. congruence. }
  destruct (rcs_human (mc_ci mc) descr group action a) as [(ls', n')|e] eqn:Er; cbn [lift ret] in E; [|discriminate E].
  injection E as <- <- <-. destruct (aggr_facts mc nst Hok flags Hf ops gov tick wf (CsText csnames) (Some cpus) Hs' a s1 Ea) as (F0 & W & Hst & F1 & F2 & F3 & F4).
  assert (Hfil : filter has_status a = a). { clear - Hst. induction a as [|x t IH]; cbn [filter]; [reflexivity|]. rewrite (Hst x) by now left. f_equal. apply IH. intros nd I. apply Hst. now right. }
  destruct a as [|x0 t0] eqn:Eqa.
  { cbn in Er. injection Er as <- <-. exists []. cbn [length map concat].
    assert (Hno : forall c i name, ~ about c i name).
    { intros c i name H. destruct (F2 c i name H) as (off & l & (d & k & [] & _) & _). }
    split; [reflexivity|]. split; [constructor|]. split; [reflexivity|]. split; [intros b []|]. split; [intros c i name H; now apply Hno in H|].
    split; [intros b key v []|]. intros c i name key H; now apply Hno in H. }
  rewrite <- Eqa in *. apply rcs_human_inv in Er as (blocks & -> & -> & HF); [|rewrite Eqa; discriminate]. rewrite Hfil in HF. clear Hfil.
  exists blocks. split; [reflexivity|]. split; [|split; [|split; [|split; [|split]]]].
  - rewrite <- (F2_map (block_of (mc_ci mc)) fst cb_name a blocks HF); [exact (proj1 W)|]. intros x y _ (B & _). now symmetry.
  - rewrite Eqa in HF. inversion HF. reflexivity.
  - intros b Hb. destruct (F2_right _ _ _ _ HF Hb) as ((nm, d) & Ha & (B1 & B2 & k & Bk & BF)). cbn [fst snd] in *. rewrite B1.
    apply (dget_In _ str_eqb_spec) in Bk.
    assert (Hv : forall v l, In (v, l) k -> says_cs a nm (s2l "disable"%string) v l) by (intros v l I; now exists d, k).
    split.
    + assert (Hm : map (fun vc : cval * list Z => M_CSave.truthy (fst vc)) k = map (fun st : bool * list Z * str => fst (fst st)) (cb_status b)).
      { apply (F2_map _ _ _ _ _ BF). intros u v _ (-> & _). reflexivity. }
      rewrite <- Hm. destruct (proj1 (proj2 W nm d Ha)) as (_ & Wk). destruct (Wk _ _ Bk) as (NDk & _).
      assert (Hinj : forall v l v' l', In (v, l) k -> In (v', l') k -> M_CSave.truthy v = M_CSave.truthy v' -> v = v').
      { intros v l v' l' I I' Ht. destruct (F1 _ _ _ (Hv _ _ I)) as (_ & _ & o & -> & _). destruct (F1 _ _ _ (Hv _ _ I')) as (_ & _ & o' & -> & _).
        destruct o, o'; try reflexivity; discriminate Ht. }
      clear - NDk Hinj. induction k as [|(v, l) t IH]; cbn [map]; [constructor|]. cbn [map fst] in NDk. inversion NDk as [|? ? N1 N2]; subst.
      constructor; [|apply IH; [exact N2|intros u lu w lw I1 I2; apply (Hinj u lu w lw); now right]].
      intros H. apply in_map_iff in H as ((v', l') & Ht & I). apply N1. cbn [fst] in Ht. rewrite (Hinj v l v' l'); [apply in_map_iff; now exists (v', l')|now left|now right|now symmetry].
    + intros off l tx I. destruct (F2_right _ _ _ _ BF I) as ((v, l') & Ik & (Ef & Et)). cbn [fst snd] in Ef, Et. injection Ef as -> ->.
      destruct (F1 _ _ _ (Hv _ _ Ik)) as (Q1 & Q2 & o & -> & Q3).
      assert (Ho : M_CSave.truthy (CInt (if o then 1 else 0)) = o) by (destruct o; reflexivity). rewrite Ho.
      split; [exact Q1|]. split; [exact Q2|]. split; [|exact Q3].
      apply fmt_cpus_ok; [exact (proj1 Hok)|exact Q2| |exact Hnp|exact Et].
      intros x Ix. apply Q3 in Ix as (i & (Hx & _) & _). apply Hnn. now apply (F0 cpus eq_refl).
  - intros c i name H. destruct (F2 c i name H) as (off & l & (d & k & A1 & A2 & A3) & Hc & _).
    destruct (F2_left _ _ _ _ HF A1) as (b & Hb & (B1 & B2 & k' & Bk & BF)). cbn [fst snd] in *.
    assert (k' = k) as ->. { rewrite (In_dget _ str_eqb_spec _ _ _ (proj1 (proj1 (proj2 W name d A1))) A2) in Bk. now injection Bk. }
    destruct (F2_left _ _ _ _ BF A3) as (((o, l'), tx) & It & (Ef & Et)). cbn [fst snd] in Ef. injection Ef as -> ->.
    eexists b, _, l, tx. split; [exact Hb|]. split; [exact B1|]. split; [exact It|exact Hc].
  - intros b key v Hb Hkv. destruct (F2_right _ _ _ _ HF Hb) as ((nm, d) & Ha & (B1 & B2 & _)). cbn [fst snd] in *. rewrite B1, B2 in *.
    apply details_In in Hkv as (Hkey & k & l & I1 & I2). split; [exact Hkey|]. apply (F3 nm key v l); [now exists d, k|exact Hkey].
  - intros c i name key H Hkey. destruct (F4 c i name key H Hkey) as (v & l & t & (d & k & A1 & A2 & A3) & _ & ->).
    destruct (F2_left _ _ _ _ HF A1) as (b & Hb & (B1 & B2 & _)). cbn [fst snd] in *.
    exists b, t. split; [exact Hb|]. split; [exact B1|]. rewrite B2. apply details_In. split; [exact Hkey|]. now exists k, l.
Qed.

Lemma cstates_print_live : forall (V : Type) mc nst, idle_ok mc nst -> forall flags, flags_ok mc nst flags ->
  forall ops gov tick wf csnames cpus descr group action, incl cpus (ci_online (mc_ci mc)) ->
  (csnames = s2l "all"%string -> same_names mc nst cpus) ->
  (forall c name, In c cpus -> asked (CsText csnames) (own_names mc nst c) name -> In name (own_names mc nst c)) ->
  exists ls n, fst (print_cstates (V := V) mc descr false csnames cpus group action (irun mc ops (idle_init flags gov tick [] wf))) = Ok ([OCs ls], n).
Proof.
  intros V mc nst Hok flags Hf ops gov tick wf csnames cpus descr group action Hin Hs Hn.
  assert (Hs' : is_all (CsText csnames) -> same_names mc nst (cs_targets mc (Some cpus))).
  { unfold is_all. intros H. apply Hs. congruence. }
  destruct (info_succeeds mc nst Hok flags Hf ops gov tick wf (Some cpus) (CsText csnames) Hin Hs' Hn) as (r & Er).
  unfold print_cstates, mbind. destruct (aggr_cstates mc (CsText csnames) (Some cpus) false _) as (o, s1) eqn:Ea.
  assert (Ea' := Ea). unfold aggr_cstates in Ea'. destruct (get_cstates_info mc (Some cpus) (CsText csnames) _) as (r', s2) eqn:Eg. cbn [fst] in Er. subst r'.
  injection Ea' as <- <-.
  destruct (aggr_facts mc nst Hok flags Hf ops gov tick wf (CsText csnames) (Some cpus) Hs' _ s2 Ea) as (_ & W & _).
  match goal with |- context [rcs_human ?ci ?d ?g ?act ?a] => destruct (rcs_human_live ci d act g a) as ((ls, n) & ->) end.
  2: { cbn [lift ret fst snd]. eauto. }
  intros n key v l Hsay. apply fmt_cpus_live; [exact (proj1 Hok)|]. intros x Hx.
  assert (Hd : dict_items r).
  { destruct (info_exact mc nst Hok flags Hf ops gov tick wf (Some cpus) (CsText csnames) r s2 Eg Hs') as (R1 & R2 & R3).
    split; [exact R1|]. intros c1 info H. destruct (R3 c1 info H) as (T1 & _ & T3). split; [exact T1|]. intros m cs Hcs.
    destruct (T3 m cs Hcs) as (i & o & _ & _ & _ & (D & _) & _). exact D. }
  destruct (rcs_partition r (print_keys false) Hd) as (P1 & _). destruct (P1 _ _ _ _ Hsay) as (_ & _ & _ & Q). apply Q in Hx as (info & cs & H1 & _).
  destruct (info_exact mc nst Hok flags Hf ops gov tick wf (Some cpus) (CsText csnames) r s2 Eg Hs') as (_ & R2 & _). apply Hin.
  apply (R2 x). apply in_map_iff. now exists (x, info).
Qed.
