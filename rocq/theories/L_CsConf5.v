(** Lemmas for C66: after success everything that was to be listed was. *)
From Coq Require Import Ascii String.
From Verif Require Import Base M_CPUInfo S_CPUInfo M_Text M_Human M_CPUIdle S_CPUIdle M_CsConf S_CsConf L_Base L_Monad L_CPUIdle4 L_CPUIdle5 L_CPUIdle6 L_CPUIdle7 L_CsConf L_CsConf2 L_CsConf3 L_CsConf4.

Definition nns {A} (m : M idle A) : Prop := forall s s', m s <> (Exn ENotSupported, s').

Lemma nns_bind {A B} (m : M idle A) (f : A -> M idle B) : nns m -> (forall a, nns (f a)) -> nns (mbind m f).
Proof.
  intros Hm Hf s s' H. unfold mbind in H. destruct (m s) as ([a|e], s1) eqn:E; [exact (Hf a s1 s' H)|].
  apply (Hm s s1). rewrite E. congruence.
Qed.
Lemma nns_ret {A} (a : A) : nns (ret a).
Proof. intros s s' H. discriminate. Qed.
Lemma nns_lift {A} (r : res A) : r <> Exn ENotSupported -> nns (lift r).
Proof. intros Hr s s' H. unfold lift in H. congruence. Qed.
Lemma nns_rd : nns rd_io.
Proof. intros s s' H. unfold rd_io in H. destruct (id_rf s) as [|[|] t]; congruence. Qed.
Lemma nns_mfor {A} (l : list A) (f : A -> M idle unit) : (forall a, nns (f a)) -> nns (mfor l f).
Proof. intros Hf. induction l as [|x l IH]; [apply nns_ret|]. cbn [mfor]. apply nns_bind; [apply Hf | intros _; exact IH]. Qed.

Lemma norm_ns ci cpus : normalize_cpus ci cpus false <> Exn ENotSupported.
Proof. unfold normalize_cpus. destruct cpus as [l|]; [|discriminate]. unfold normalize_in. cbn. match goal with |- context [if ?b then _ else _] => destruct b end; discriminate. Qed.

Lemma read_loop_ns l : forall info cs prev, snd (read_loop l info cs prev) <> Some ENotSupported.
Proof.
  assert (A : forall info cs, add_cstate info cs <> Exn ENotSupported).
  { intros info cs. unfold add_cstate. destruct (dget str_eqb cs (s2l "name"%string)) as [[n|n]|]; try discriminate.
    destruct (dget str_eqb cs (s2l "index"%string)); [|discriminate].
    assert (R : forall ks, rmap ks (fun key => match dget str_eqb cs key with Some v => Ok (key, v) | None => Exn EKey end) <> Exn ENotSupported).
    { induction ks as [|k ks IH]; [discriminate|]. cbn [rmap]. destruct (dget str_eqb cs k); cbn [rbind]; [|discriminate].
      destruct (rmap ks _) as [x|e]; cbn [rbind]; [discriminate | congruence]. }
    specialize (R cst_fnames). destruct (rmap cst_fnames _) as [x|e]; cbn [rbind]; [discriminate | congruence]. }
  assert (B : forall v, parse_val v <> Exn ENotSupported).
  { intros v. unfold parse_val. destruct (is_int v); [destruct (py_int v)|]; discriminate. }
  induction l as [|(p, v) l IH]; intros info cs prev; cbn [read_loop].
  - specialize (A info cs). destruct (add_cstate info cs) as [i|e]; [destruct prev as [(c, i')|]; discriminate | cbn; congruence].
  - destruct (parse_fpath (strip p)) as [[[cpu idx] key]|]; [|discriminate].
    specialize (B (strip v)). destruct (parse_val (strip v)) as [w|e]; [|cbn; congruence].
    destruct prev as [(pc, pi)|]; [|apply IH]. specialize (A info cs).
    destruct (negb (idx =? pi)).
    + destruct (add_cstate info cs) as [i|e]; cbn [rbind]; [|cbn; congruence].
      destruct (negb (cpu =? pc)).
      * specialize (IH [] (dset str_eqb (dset str_eqb [] (s2l "index"%string) (CInt idx)) key w) (Some (cpu, idx))).
        destruct (read_loop l [] _ _) as (rest, e). cbn [snd] in *. exact IH.
      * specialize (IH i (dset str_eqb (dset str_eqb [] (s2l "index"%string) (CInt idx)) key w) (Some (cpu, idx))).
        destruct (read_loop l i _ _) as (rest, e). cbn [snd] in *. exact IH.
    + destruct (negb (cpu =? pc)).
      * specialize (IH [] (dset str_eqb (dset str_eqb cs (s2l "index"%string) (CInt idx)) key w) (Some (cpu, idx))).
        destruct (read_loop l [] _ _) as (rest, e). cbn [snd] in *. exact IH.
      * specialize (IH info (dset str_eqb (dset str_eqb cs (s2l "index"%string) (CInt idx)) key w) (Some (cpu, idx))).
        destruct (read_loop l info _ _) as (rest, e). cbn [snd] in *. exact IH.
Qed.

Lemma pick_ns names info : forall acc, pick names info acc <> Exn ENotSupported.
Proof. induction names as [|n t IH]; intros acc; cbn [pick]; [discriminate|]. destruct (dget str_eqb info n); [apply IH | discriminate]. Qed.

Lemma with_ns mc names l : nns (with_cstates mc names l (fun cpu info => ret (cpu, info))).
Proof.
  unfold with_cstates. apply nns_bind; [intros s s' H; discriminate|]. intros rc. apply nns_bind.
  - destruct rc as [|c rc]; [apply nns_ret|].
    intros s s' H. unfold mbind in H. unfold read_cstates_info in H.
    assert (F : nns (read_fpaths_and_values mc (c :: rc))).
    { unfold read_fpaths_and_values. apply nns_bind; [apply nns_rd|]. intros _.
      cbn zeta. match goal with |- nns (match ?l with [] => _ | _ :: _ => _ end) => destruct l as [|f fs] end;
        [apply nns_bind; [apply nns_rd | intros _ s1 s2 K; discriminate]|]. apply nns_bind; [apply nns_rd|]. intros _. apply nns_bind; [intros s1 s2 K; discriminate|]. intros vals.
      match goal with |- context [if ?b then _ else _] => destruct b end; [apply nns_ret | intros s1 s2 K; discriminate]. }
    assert (Add : forall a : Z * csinfo, nns (cs_add mc (fst a) (snd a))).
    { intros a. unfold cs_add. destruct (mc_cache mc); [|apply nns_ret]. apply nns_bind; [apply nns_lift, norm_ns | intros x s1 s2 K; discriminate]. }
    assert (G : forall g : list (Z * csinfo) * option exc, snd g <> Some ENotSupported ->
              nns (mfor (fst g) (fun ci' => cs_add mc (fst ci') (snd ci')) ;; match snd g with None => ret tt | Some e => throw e end)).
    { intros g Hg. apply nns_bind; [apply nns_mfor; exact Add|]. intros _. destruct (snd g) as [e|]; [|apply nns_ret].
      intros s1 s2 K. unfold throw in K. congruence. }
    destruct (read_fpaths_and_values mc (c :: rc) s) as ([(fp, vals)|e], s1) eqn:E.
    + apply (G (read_loop (combine fp vals) [] [] None) (read_loop_ns _ _ _ _) s1 s'). exact H.
    + assert (e <> ENotSupported) by (intros ->; exact (F s s1 E)).
      assert (G1 : forall e0, e0 <> ENotSupported -> snd ([] : list (Z * csinfo), Some e0) <> Some ENotSupported) by (cbn; congruence).
      destruct e; try congruence;
        first [ match type of E with _ = (Exn ?e, _) => exact (G ([], Some e) (G1 e ltac:(discriminate)) s1 s' H) end
              | exact (G (map (fun c => (c, [])) (c :: rc), None) ltac:(discriminate) s1 s' H) ].
  - intros _. revert names. induction l as [|cpu l IH]; intros names; cbn [each_cpu]; [apply nns_ret|].
    apply nns_bind.
    + intros s s' H. unfold cs_get in H. destruct (if mc_cache mc then _ else _); discriminate.
    + intros info. cbn zeta. apply nns_bind; [apply nns_lift, pick_ns|]. intros r. apply nns_bind; [apply nns_ret|]. intros b.
      apply nns_bind; [apply IH | intros bs; apply nns_ret].
Qed.

Section Listed.
  Variables (mc : machine) (nst : Z -> Z) (Hok : idle_ok mc nst) (flags : Z -> Z -> str) (Hf : flags_ok mc nst flags).
  Variables (gov : str) (tick : Z) (rf wf : list bool) (cpus : list Z).
  Notation reaches := (reaches mc flags gov tick rf wf).

  Lemma info_ns csn s s' : reaches s -> get_cstates_info mc (Some cpus) csn s <> (Exn ENotSupported, s').
  Proof.
    intros (ops & ->) H. destruct (reach mc nst false flags gov tick rf wf ops Hok Hf ltac:(discriminate)) as (HI & _).
    set (s := irun mc ops _) in *. unfold get_cstates_info in H. unfold mbind in H.
    destruct (lift (normalize_cpus (mc_ci mc) (Some cpus) false) s) as ([l|e], s0) eqn:E0.
    2: { apply (nns_lift _ (norm_ns (mc_ci mc) (Some cpus)) s s0). rewrite E0. congruence. }
    assert (s0 = s) by (unfold lift in E0; congruence). subst s0.
    assert (D : forall e s1, get_idle_driver mc s = (Exn e, s1) -> e <> ENotSupported).
    { intros e s1 E. unfold get_idle_driver in E. destruct (if mc_cache mc then id_cdrv s else None); [discriminate|].
      destruct Hok as (_ & _ & _ & (t & Et & _) & _). rewrite Et in E. unfold mbind in E.
      destruct (rd_io s) as ([[]|e'], s2) eqn:R.
      - cbn zeta in E. destruct (add0 mc (id_set_cdrv (Some (strip t))) s2) as ([[]|e'], s3) eqn:A; [discriminate|].
        unfold add0 in A. destruct (mc_cache mc); [|discriminate]. unfold mbind in A.
        destruct (lift (normalize_cpus (mc_ci mc) (Some [0]) false) s2) as ([x|e2], s4) eqn:L; [discriminate|].
        intros ->. apply (nns_lift _ (norm_ns (mc_ci mc) (Some [0])) s2 s4). rewrite L. congruence.
      - intros ->. apply (nns_rd s s2). rewrite R. congruence. }
    assert (P := driver_post mc nst Hok (fun _ _ => False) false s HI). unfold post in P.
    destruct (get_idle_driver mc s) as ([d|e], s1) eqn:E1.
    - destruct P as (Hd & _). destruct d as [|c d]; [congruence|]. exact (with_ns mc _ _ s1 s' H).
    - apply (D e s1 eq_refl). congruence.
  Qed.

  Lemma print_ok csn s s' : reaches (cc_idle s) -> print_cstates mc cpus csn s = (Ok tt, s') ->
    exists l, cc_ev s' = cc_ev s ++ [EvList csn l] /\ get_cstates_info mc (Some cpus) csn (cc_idle s) = (Ok l, cc_idle s').
  Proof.
    intros HR H. unfold print_cstates, on_idle in H.
    destruct (get_cstates_info mc (Some cpus) csn (cc_idle s)) as ([l|e], s1) eqn:E.
    - unfold emit, modify in H. cbn [cc_idle cc_ev] in H. assert (s' = CC s1 (cc_ev s ++ [EvList csn l])) by congruence. subst s'.
      exists l. split; reflexivity.
    - destruct e; try discriminate H. exfalso. exact (info_ns csn _ _ HR E).
  Qed.

  Lemma set_ok t en s s' : reaches (cc_idle s) -> set_cstates mc cpus t en s = (Ok tt, s') ->
    exists l, cc_ev s' = cc_ev s ++ [EvList (CsText t) l].
  Proof.
    intros HR H. unfold set_cstates, mbind in H. unfold on_idle at 1 in H.
    assert (R1 := reach_step mc flags gov tick rf wf (IToggle (CsText t) (Some cpus) en) _ HR). cbn [istep] in R1.
    destruct (toggle_cstates mc (CsText t) (Some cpus) en (cc_idle s)) as ([ts|e], s1); [|discriminate]. cbn [snd] in R1.
    destruct (print_ok (CsText t) (CC s1 (cc_ev s)) s' R1 H) as (l & E & _). exists l. exact E.
  Qed.

  Lemma loop_ok L : forall s s', reaches (cc_idle s) -> set_loop mc cpus L s = (Ok tt, s') ->
    (exists ev, cc_ev s' = cc_ev s ++ ev) /\ forall o t, In (o, t) L -> exists l, In (EvList (CsText t) l) (cc_ev s').
  Proof.
    induction L as [|(o, t) L IH]; intros s s' HR H.
    - assert (s' = s) by (unfold set_loop, mfor, ret in H; congruence). subst. split; [exists []; symmetry; apply app_nil_r | intros ? ? []].
    - change (set_loop mc cpus ((o, t) :: L)) with (set_cstates mc cpus t (str_eqb o en_name) ;; set_loop mc cpus L) in H.
      unfold mbind in H. destruct (set_cstates mc cpus t (str_eqb o en_name) s) as ([[]|e], s1) eqn:E; [|discriminate].
      destruct (set_run mc nst Hok flags Hf gov tick rf wf cpus t _ s (Ok tt) s1 HR E) as (R1 & _).
      destruct (set_ok t _ s s1 HR E) as (l & E1). destruct (IH s1 s' R1 H) as ((ev & E2) & K). split.
      + exists ([EvList (CsText t) l] ++ ev). rewrite E2, E1, app_assoc. reflexivity.
      + intros o' t' [Q|Q]; [|exact (K o' t' Q)]. injection Q as _ <-. exists l. rewrite E2, E1.
        apply in_or_app. left. apply in_or_app. right. now left.
  Qed.

  Lemma list_ok L : forall printed s r s', reaches (cc_idle s) -> list_loop mc cpus L printed s = (Ok r, s') ->
    (exists ev, cc_ev s' = cc_ev s ++ ev) /\
    (printed = false -> forall o v, In (o, v) L -> v = None \/ v = Some [] -> exists l, In (EvList (CsText (s2l "all"%string)) l) (cc_ev s')).
  Proof.
    induction L as [|(o, v) L IH]; intros printed s r s' HR H.
    - assert (s' = s) by (unfold list_loop, ret in H; congruence). subst. split; [exists []; symmetry; apply app_nil_r | intros _ ? ? []].
    - destruct v as [[|c w]|].
      2: { cbn [list_loop] in H. unfold mbind in H. destruct (list_loop mc cpus L printed s) as ([x|e], s1) eqn:E; [|discriminate].
           assert (s' = s1) by (unfold ret in H; congruence). subst s'. destruct (IH printed s x s1 HR E) as (A & B). split; [exact A|].
           intros Hp o' v' [Q|Q] Hv; [|exact (B Hp o' v' Q Hv)]. injection Q as _ <-. destruct Hv; discriminate. }
      all: assert (H' : ((if printed then ret tt else print_cstates mc cpus (CsText (s2l "all"%string))) ;; list_loop mc cpus L true) s = (Ok r, s')) by exact H;
        clear H; unfold mbind in H'; destruct printed.
      1,3: unfold ret in H'; destruct (IH true s r s' HR H') as (A & _); split; [exact A | discriminate].
      all: destruct (print_cstates mc cpus (CsText (s2l "all"%string)) s) as ([[]|e], s1) eqn:E; [|discriminate];
        destruct (print_run mc nst Hok flags Hf gov tick rf wf cpus _ s (Ok tt) s1 HR E) as (R1 & _);
        destruct (print_ok _ s s1 HR E) as (l & E1 & _); destruct (IH true s1 r s' R1 H') as ((ev & E2) & _);
        (split; [exists ([EvList (CsText (s2l "all"%string)) l] ++ ev); rewrite E2, E1, app_assoc; reflexivity |]);
        intros _ o' v' _ _; exists l; rewrite E2, E1; apply in_or_app; left; apply in_or_app; right; now left.
  Qed.
End Listed.

Lemma config_listed mc nst (Hok : idle_ok mc nst) flags (Hf : flags_ok mc nst flags) ops gov tick rf wf cpus typed l s' :
  let s := irun mc ops (idle_init flags gov tick rf wf) in
  kept typed l -> cstates_config mc cpus typed (cc_init s) = (Ok tt, s') ->
  (forall x en t, In x l -> toggle_opt x en t -> exists r, In (EvList (CsText t) r) (cc_ev s')) /\
  (forall o, o = s2l "enable"%string \/ o = s2l "disable"%string -> In (o, None) l \/ In (o, Some []) l ->
     exists r, In (EvList (CsText (s2l "all"%string)) r) (cc_ev s')).
Proof.
  intros s Hk H. assert (HR : reaches mc flags gov tick rf wf (cc_idle (cc_init s))) by (exists ops; reflexivity).
  unfold cstates_config, collect in H. destruct typed as [|x0 typed]; [discriminate|].
  rewrite (kept_is _ _ Hk) in H. unfold mbind in H.
  destruct (list_loop mc cpus (enable_opts l) false (cc_init s)) as ([en|e], s1) eqn:E1; [|discriminate].
  destruct (list_run mc nst Hok flags Hf gov tick rf wf cpus (enable_opts l) false (cc_init s) (Ok en) s1 HR E1 (enable_toggles l)) as (R1 & _ & _ & _ & A5).
  rewrite (A5 en eq_refl), enable_text in H.
  destruct (list_ok mc nst Hok flags Hf gov tick rf wf cpus _ _ _ _ _ HR E1) as (_ & B1).
  assert (P : exists s2, (match print_opts l with [] => ret tt | l0 => emit (EvPrint l0) end) s1 = (Ok tt, s2) /\ cc_idle s2 = cc_idle s1 /\
              exists ev, cc_ev s2 = cc_ev s1 ++ ev).
  { destruct (print_opts l) as [|p ps]; [exists s1 | exists (CC (cc_idle s1) (cc_ev s1 ++ [EvPrint (p :: ps)]))];
      (split; [reflexivity | split; [reflexivity|]]); [exists []; symmetry; apply app_nil_r | eexists; reflexivity]. }
  destruct P as (s2 & P1 & P2 & ev2 & P3). rewrite P1 in H.
  destruct (set_loop mc cpus (with_text l) s2) as ([[]|e], s3) eqn:E3; [|discriminate].
  assert (R2 : reaches mc flags gov tick rf wf (cc_idle s2)) by (rewrite P2; exact R1).
  destruct (loop_ok mc nst Hok flags Hf gov tick rf wf cpus _ _ _ R2 E3) as ((ev3 & E4) & B2).
  assert (F : exists ev, cc_ev s' = cc_ev s3 ++ ev).
  { destruct (set_opts l) as [|p ps]; unfold ret, emit, modify in H; [exists [] | exists [EvSet (p :: ps)]].
    - rewrite app_nil_r. congruence.
    - assert (s' = CC (cc_idle s3) (cc_ev s3 ++ [EvSet (p :: ps)])) by congruence. subst. reflexivity. }
  destruct F as (ev & F). split.
  - intros x en' t Hx Ht. destruct (B2 (if en' then s2l "enable"%string else s2l "disable"%string) t) as (r & Hr).
    { apply with_text_In. exists en'. destruct Ht as (T1 & T2). rewrite T2 in Hx. split; [exact Hx | split; [exact T1 | reflexivity]]. }
    exists r. rewrite F. apply in_or_app. left. exact Hr.
  - intros o Ho Hi. assert (K : exists v, In (o, v) l /\ (v = None \/ v = Some [])) by (destruct Hi as [Hi|Hi]; eexists; (split; [exact Hi | auto])).
    destruct K as (v & Kv & Hv). destruct (B1 eq_refl o v) as (r & Hr).
    + unfold enable_opts. apply filter_In. split; [exact Kv|]. cbn [fst]. apply is_toggle_iff. exact Ho.
    + exact Hv.
    + exists r. rewrite F, E4, P3. apply in_or_app. left. apply in_or_app. left. apply in_or_app. left. exact Hr.
Qed.
