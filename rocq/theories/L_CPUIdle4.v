(** The invariant of the C-state cache, and the operations. *)
From Coq Require Import Ascii String ZifyBool Permutation Sorted.
From Verif Require Import Base L_Base L_Monad M_CPUInfo S_CPUInfo L_CPUInfo M_Text S_Text L_Text M_Human L_Human M_CPUIdle S_CPUIdle L_CPUIdle L_CPUIdle2 L_CPUIdle3.

Lemma str_dec (a b : str) : {a = b} + {a <> b}.
Proof. apply list_eq_dec, ascii_dec. Qed.

(** pick() *)
Lemma pick_ok info : NoDup (map fst info) -> forall names acc r, NoDup (map fst acc) -> pick names info acc = Ok r ->
  (forall n cs, In (n, cs) acc -> In (n, cs) info) ->
  NoDup (map fst r) /\ (forall n, In n names -> In n (map fst info)) /\
  forall n cs, In (n, cs) r <-> In (n, cs) acc \/ (In n names /\ In (n, cs) info).
Proof.
  intros Hi. induction names as [|n0 names IH]; intros acc r Ha H Hsub.
  - injection H as <-. split; [exact Ha|]. split; [intros n []|]. intros n cs. cbn [In]. tauto.
  - cbn [pick] in H. destruct (dget str_eqb info n0) as [cs0|] eqn:E; [|discriminate].
    assert (E0 := dget_In _ str_eqb_spec _ _ _ E).
    apply IH in H; [|apply dset_NoDup; [apply str_eqb_spec|exact Ha]|].
    + destruct H as (H1 & H2 & H3). split; [exact H1|]. split.
      * intros n [<-|Hn]; [apply in_map_iff; now exists (n0, cs0)|now apply H2].
      * intros n cs. rewrite H3. cbn [In].
        assert (Hk : forall cs, In (n0, cs) info -> cs = cs0).
        { intros cs1 H. apply (In_dget _ str_eqb_spec) in H; [|exact Hi]. congruence. }
        assert (Hd : In (n, cs) (dset str_eqb acc n0 cs0) <-> (n = n0 /\ cs = cs0) \/ (n <> n0 /\ In (n, cs) acc)).
        { assert (Hnd : NoDup (map fst (dset str_eqb acc n0 cs0))) by (apply dset_NoDup; [apply str_eqb_spec|exact Ha]).
          split.
          - intros H. apply (In_dget _ str_eqb_spec) in H; [|exact Hnd].
            destruct (str_dec n n0) as [->|Hne].
            + rewrite (dget_dset_same _ str_eqb_spec) in H. left. split; congruence.
            + rewrite (dget_dset_other _ str_eqb_spec) in H by congruence. right. split; [exact Hne|]. now apply (dget_In _ str_eqb_spec).
          - intros [(-> & ->)|(Hne & H)]; apply (dget_In _ str_eqb_spec).
            + apply (dget_dset_same _ str_eqb_spec).
            + rewrite (dget_dset_other _ str_eqb_spec) by congruence. now apply (In_dget _ str_eqb_spec). }
        rewrite Hd. split.
        -- intros [[(-> & ->)|(Hne & H)]|(Hn & H)]; [right; split; [now left|exact E0]|now left|right; split; [now right|exact H]].
        -- intros [H|([<-|Hn] & H)].
           ++ destruct (str_dec n n0) as [->|Hne]; [left; left; split; [reflexivity|]; apply Hk, Hsub, H|left; right; now split].
           ++ left. left. split; [reflexivity|now apply Hk].
           ++ right. now split.
    + clear H. intros n cs H. assert (Hnd : NoDup (map fst (dset str_eqb acc n0 cs0))) by (apply dset_NoDup; [apply str_eqb_spec|exact Ha]).
      apply (In_dget _ str_eqb_spec) in H; [|exact Hnd]. destruct (str_dec n n0) as [->|Hne].
      * rewrite (dget_dset_same _ str_eqb_spec) in H. injection H as <-. exact E0.
      * rewrite (dget_dset_other _ str_eqb_spec) in H by congruence. apply Hsub. now apply (dget_In _ str_eqb_spec).
Qed.

Lemma pick_exn info : forall names acc e, pick names info acc = Exn e -> e = EError /\ exists n, In n names /\ ~ In n (map fst info).
Proof.
  induction names as [|n names IH]; intros acc e H; [discriminate|]. cbn [pick] in H.
  destruct (dget str_eqb info n) as [cs|] eqn:E.
  - destruct (IH _ _ H) as (-> & m & Hm & Hno). split; [reflexivity|]. exists m. split; [now right|exact Hno].
  - injection H as <-. split; [reflexivity|]. exists n. split; [now left|]. now apply (dget_None _ str_eqb_spec) in E.
Qed.

Section Ops.
  Variable mc : machine.
  Variable nst : Z -> Z.
  Hypothesis Hok : idle_ok mc nst.
  Notation online := (ci_online (mc_ci mc)).

  Lemma cache_on : mc_cache mc = true.
  Proof. apply Hok. Qed.

  (** The dictionary of a CPU is right; with [b], also about what is on and off. *)
  Definition fits (b : bool) (flags : Z -> Z -> str) (c : Z) (info : csinfo) : Prop :=
    NoDup (map fst info) /\
    (forall i, 0 <= i < nst c -> exists cs, In (cs_name mc c i, cs) info) /\
    forall n cs, In (n, cs) info -> exists i, 0 <= i < nst c /\ n = cs_name mc c i /\ describes mc c i cs /\
      (b = true -> exists off, shows_off cs off /\ flags c i = flag_text off).

  Definition drv_ok (s : idle) : Prop := forall d, id_cdrv s = Some d -> d <> [].
  Definition gov_ok (s : idle) : Prop :=
    (gov_stores mc -> forall g, id_cgov s = Some g -> strip (id_gov s) = g) /\
    (forall l, id_cavail s = Some l -> exists t, mc_avail mc = Some t /\ l = words (strip t)).

  Definition Inv (b : bool) (s : idle) : Prop :=
    flags_ok mc nst (id_flags s) /\
    (forall c info, dget Z.eqb (id_cs s) c = Some info -> In c online /\ fits b (id_flags s) c info) /\
    drv_ok s /\ (b = true -> id_rf s = []).

  Definition evolve (P : Z -> Z -> Prop) (s s' : idle) : Prop :=
    (forall c i, ~ P c i -> id_flags s' c i = id_flags s c i) /\
    id_gov s' = id_gov s /\ (gov_ok s -> gov_ok s') /\ (id_rf s = [] -> id_rf s' = []) /\ (id_wf s = [] -> id_wf s' = []) /\
    (forall c, dget Z.eqb (id_cs s) c <> None -> dget Z.eqb (id_cs s') c <> None).

  Lemma evolve_refl P s : evolve P s s.
  Proof. unfold evolve. tauto. Qed.

  Lemma evolve_trans P a b c : evolve P a b -> evolve P b c -> evolve P a c.
  Proof.
    intros (A1 & A2 & A3 & A4 & A5 & A6) (B1 & B2 & B3 & B4 & B5 & B6). unfold evolve.
    split; [intros x i H; rewrite B1 by exact H; now apply A1|]. split; [congruence|]. split; [tauto|]. split; [tauto|]. split; [tauto|]. auto.
  Qed.

  Lemma evolve_weak (P P' : Z -> Z -> Prop) a b : (forall c i, P c i -> P' c i) -> evolve P a b -> evolve P' a b.
  Proof. intros H (A1 & A). split; [|exact A]. intros c i Hn. apply A1. auto. Qed.

  Lemma quiet_evolve P s s' : quiet s s' -> evolve P s s'.
  Proof.
    intros (A1 & A2 & A3 & A4 & A5 & A6 & A7 & A8). unfold evolve, gov_ok. rewrite A1, A2, A3, A4, A6, A7. tauto.
  Qed.

  Lemma quietw_evolve P s s' : quiet_w s s' -> evolve P s s'.
  Proof.
    intros (A1 & A2 & A3 & A4 & A5 & A6 & A7 & A8). unfold evolve, gov_ok. rewrite A1, A2, A3, A4, A6, A7. tauto.
  Qed.

  Lemma quiet_Inv b s s' : quiet s s' -> Inv b s -> Inv b s'.
  Proof.
    intros (A1 & A2 & A3 & A4 & A5 & A6 & A7 & A8) (I1 & I2 & I3 & I4). unfold Inv, drv_ok in *. rewrite A1, A4, A5.
    split; [exact I1|]. split; [exact I2|]. split; [exact I3|]. auto.
  Qed.

  Lemma quietw_Inv b s s' : quiet_w s s' -> Inv b s -> Inv b s'.
  Proof.
    intros (A1 & A2 & A3 & A4 & A5 & A6 & A7 & A8) (I1 & I2 & I3 & I4). unfold Inv, drv_ok in *. rewrite A1, A3, A4, A5. tauto.
  Qed.

  Lemma norm_one c : In c online -> normalize_cpus (mc_ci mc) (Some [c]) false = Ok [c].
  Proof.
    intros H. unfold normalize_cpus. rewrite normalize_in_succeeds; [reflexivity|]. intros x [<-|[]]. exact H.
  Qed.

  Lemma cs_add_run c info s : In c online ->
    cs_add mc c info s = (Ok tt, id_set_cs (dset Z.eqb (id_cs s) c info) s).
  Proof. intros H. unfold cs_add. rewrite cache_on. unfold mbind, lift. now rewrite norm_one. Qed.

  Lemma cs_get_run c info s : dget Z.eqb (id_cs s) c = Some info -> cs_get mc c s = (Ok info, s).
  Proof. intros H. unfold cs_get. now rewrite cache_on, H. Qed.

  Lemma add_evolve P c info s : evolve P s (id_set_cs (dset Z.eqb (id_cs s) c info) s).
  Proof.
    unfold evolve, gov_ok. cbn [id_flags id_gov id_rf id_wf id_cs id_cgov id_cavail id_set_cs].
    split; [reflexivity|]. split; [reflexivity|]. split; [tauto|]. split; [tauto|]. split; [tauto|].
    intros d Hd. destruct (Z.eqb_spec d c) as [->|Hne].
    - rewrite (dget_dset_same _ Zeqb_spec). discriminate.
    - rewrite (dget_dset_other _ Zeqb_spec) by congruence. exact Hd.
  Qed.

  Lemma add_Inv b c info s : Inv b s -> In c online -> fits b (id_flags s) c info -> Inv b (id_set_cs (dset Z.eqb (id_cs s) c info) s).
  Proof.
    intros (I1 & I2 & I3 & I4) Hc Hf. split; [exact I1|]. split; [|split; [exact I3|exact I4]].
    cbn [id_cs id_flags id_set_cs]. intros d inf. destruct (Z.eqb_spec d c) as [->|Hne].
    - rewrite (dget_dset_same _ Zeqb_spec). intros [= <-]. now split.
    - rewrite (dget_dset_other _ Zeqb_spec) by congruence. apply I2.
  Qed.

  Lemma read_fits b flags t c : flags_ok mc nst flags -> In c online ->
    fits b flags c (info_of (contents mc flags t) (states (nst c)) c).
  Proof.
    intros Hfl Hc. destruct (cpu_facts mc nst Hok c Hc) as (H2 & _ & Ht & Hn & Hinj & _).
    destruct (info_of_In (contents mc flags t) nst c) as (H3 & H4).
    - split; [exact H2|]. intros i Hi. destruct (contents_good mc nst Hok flags t c i) as (? & ? & _); auto.
    - intros i j Hi Hj. destruct (contents_good mc nst Hok flags t c i) as (_ & _ & -> & _); auto.
      destruct (contents_good mc nst Hok flags t c j) as (_ & _ & -> & _); auto.
    - assert (Hna : forall i, 0 <= i < nst c -> name_of (contents mc flags t) c i = cs_name mc c i).
      { intros i Hi. now destruct (contents_good mc nst Hok flags t c i) as (_ & _ & -> & _). }
      split; [exact H3|]. split.
      + intros i Hi. eexists. apply H4. exists i. split; [exact Hi|]. split; [symmetry; now apply Hna|reflexivity].
      + intros n cs H. apply H4 in H as (i & Hi & -> & ->). exists i. split; [exact Hi|]. split; [now apply Hna|].
        destruct (entry_get (contents mc flags t) c i) as (Ei & Ev). split; [split; [|split; [exact Ei|split]]|].
        * unfold entry. cbn [map fst]. rewrite map_map. cbn [fst]. rewrite map_id. vm_compute.
          repeat (constructor; [cbn [In]; intuition discriminate|]). constructor.
        * rewrite Ev by (now left). unfold contents. change (str_eqb (s2l "name"%string) (s2l "disable"%string)) with false. cbn iota.
          destruct (Hn i t Hi) as (-> & _). reflexivity.
        * intros f Hf. exists t. rewrite Ev.
          -- unfold contents. cbn [map In] in Hf. repeat (destruct Hf as [<-|Hf]; [reflexivity|]). contradiction.
          -- unfold cst_fnames. cbn [map In] in *. tauto.
        * intros _. destruct (Hfl c i Hc Hi) as (off & E). exists off. split; [|exact E]. unfold shows_off.
          rewrite Ev by (unfold cst_fnames; cbn [map In]; tauto).
          unfold contents. change (str_eqb (s2l "disable"%string) (s2l "disable"%string)) with true. cbn iota. now rewrite E, flag_says.
  Qed.

  Lemma fits_In b flags c info n : fits b flags c info -> In n (map fst info) <-> exists i, 0 <= i < nst c /\ n = cs_name mc c i.
  Proof.
    intros (F1 & F2 & F3). split.
    - intros H. apply in_map_iff in H as ((m, cs) & <- & H). apply F3 in H as (i & Hi & E & _). now exists i.
    - intros (i & Hi & ->). destruct (F2 i Hi) as (cs & H). apply in_map_iff. now exists (cs_name mc c i, cs).
  Qed.

  Lemma own_In c n : In n (own_names mc nst c) <-> exists i, 0 <= i < nst c /\ n = cs_name mc c i.
  Proof.
    unfold own_names. rewrite in_map_iff. split.
    - intros (k & <- & Hk). apply in_seq in Hk. exists (Z.of_nat k). split; [lia|reflexivity].
    - intros (i & Hi & ->). exists (Z.to_nat i). rewrite Z2Nat.id by lia. split; [reflexivity|]. apply in_seq. lia.
  Qed.

  (** Filling the cache. *)
  Definition fill (cpus : list Z) : M idle unit :=
    let! read_cpus := gets (fun s => filter (fun c => negb (cs_cached mc s c)) cpus) in
    match read_cpus with
    | [] => ret tt
    | _ =>
        let! g := read_cstates_info mc read_cpus in
        mfor (fst g) (fun ci' => cs_add mc (fst ci') (snd ci')) ;;
        match snd g with None => ret tt | Some e => throw e end
    end.

  Lemma fill_post P b cpus s : Inv b s -> incl cpus online -> NoDup cpus ->
    post (fill cpus) s
      (fun _ s' => Inv b s' /\ evolve P s s' /\ forall c, In c cpus -> dget Z.eqb (id_cs s') c <> None)
      (fun _ s' => Inv b s' /\ evolve P s s' /\ id_rf s <> []).
  Proof.
    intros HI Hin Hnd. unfold fill. apply post_bind, post_gets. set (rc := filter _ cpus).
    assert (Hrc : forall c, In c rc <-> In c cpus /\ dget Z.eqb (id_cs s) c = None).
    { intros c. unfold rc. rewrite filter_In. unfold cs_cached. rewrite cache_on. cbn [andb]. destruct (dget Z.eqb (id_cs s) c); cbn; intuition congruence. }
    assert (Hrn : NoDup rc) by (now apply NoDup_filter). clearbody rc.
    destruct rc as [|r0 rr] eqn:Erc.
    - apply post_ret. split; [exact HI|]. split; [apply evolve_refl|]. intros c Hc H. now apply (proj2 (Hrc c)).
    - rewrite <- Erc in *. assert (Hne : rc <> []) by (rewrite Erc; discriminate). clear Erc r0 rr.
      assert (Hri : incl rc online) by (intros c Hc; apply Hin; now apply Hrc).
      apply post_bind. eapply post_conseq; [apply (read_post mc nst Hok rc s); [apply HI|assumption..]| |now intros]. cbn beta.
      intros g s1 (Q & [(e & -> & Hr)|(t & ->)]); apply post_bind; cbn [fst snd].
      + cbn [mfor]. apply post_ret, post_throw. split; [now apply (quiet_Inv b s)|]. split; [now apply quiet_evolve|exact Hr].
      + set (l := sort_by num_leb rc). assert (Hl : forall c, In c l <-> In c rc) by (intros; apply sort_by_In).
        set (K := fun c => info_of (contents mc (id_flags s) t) (states (nst c)) c).
        change (map _ l) with (map (fun c => (c, K c)) l).
        eapply post_conseq; [apply (post_mfor _ (fun p s' => Inv b s' /\ evolve P s s' /\ id_flags s' = id_flags s /\ forall c, In c (map fst p) -> dget Z.eqb (id_cs s') c <> None) (fun _ _ => False))| |now intros].
        * intros p (c, inf) r E s2 (J1 & J2 & J3 & J4). cbn [fst snd].
          assert (Hc : In (c, inf) (map (fun c => (c, K c)) l)) by (rewrite E; apply in_or_app; right; now left).
          apply in_map_iff in Hc as (c' & Ec & Hc). injection Ec as -> <-. apply Hl, Hri in Hc.
          unfold post. rewrite cs_add_run by exact Hc.
          split; [|split; [|split]].
          -- apply add_Inv; [exact J1|exact Hc|]. rewrite J3. apply read_fits; [apply HI|exact Hc].
          -- eapply evolve_trans; [exact J2|apply add_evolve].
          -- exact J3.
          -- intros d. rewrite map_app, in_app_iff. cbn [map fst In id_cs id_set_cs]. destruct (Z.eqb_spec d c) as [->|Hdc].
             ++ rewrite (dget_dset_same _ Zeqb_spec). discriminate.
             ++ rewrite (dget_dset_other _ Zeqb_spec) by congruence. intros [H|[H|[]]]; [now apply J4|congruence].
        * split; [now apply (quiet_Inv b s)|]. split; [now apply quiet_evolve|]. split; [apply Q|]. intros c [].
        * cbn beta. intros _ s' (J1 & J2 & J3 & J4). apply post_ret. split; [exact J1|]. split; [exact J2|].
          intros c Hc. destruct (dget Z.eqb (id_cs s) c) eqn:Ec; [apply J2; congruence|].
          apply J4. rewrite map_map. cbn [fst]. rewrite map_id. apply Hl, Hrc. now split.
  Qed.

  (** One CPU of the loop. *)
  Definition one {B} (names : list str) (body : Z -> csinfo -> M idle B) (cpu : Z) : M idle B :=
    let! info := cs_get mc cpu in
    let! r := lift (pick names info []) in
    body cpu r.

  Lemma each_some {B} names (body : Z -> csinfo -> M idle B) : forall cpus s,
    each_cpu mc (Some names) cpus body s = mmap cpus (one names body) s.
  Proof.
    induction cpus as [|c t IH]; intros s; [reflexivity|]. cbn [each_cpu mmap]. unfold one at 1, mbind, lift.
    destruct (cs_get mc c s) as ([info|e] & s1); [|reflexivity]. destruct (pick names info []) as [r|e]; [|reflexivity].
    destruct (body c r s1) as ([b0|e] & s2); [|reflexivity]. now rewrite IH.
  Qed.

  (** The names that are looked for on every CPU. *)
  Definition resolved (s : idle) (names : option (list str)) (cpus : list Z) (ns : list str) : Prop :=
    match names with
    | Some l => ns = l
    | None => match cpus with
              | [] => True
              | c :: _ => exists info, dget Z.eqb (id_cs s) c = Some info /\ ns = map fst info
              end
    end.

  Lemma each_resolved {B} names cpus (body : Z -> csinfo -> M idle B) s : (forall c, In c cpus -> dget Z.eqb (id_cs s) c <> None) ->
    exists ns, resolved s names cpus ns /\ each_cpu mc names cpus body s = mmap cpus (one ns body) s.
  Proof.
    intros Hc. destruct names as [l|].
    - exists l. split; [reflexivity|]. apply each_some.
    - destruct cpus as [|c t]; [exists []; now split|].
      destruct (dget Z.eqb (id_cs s) c) as [info|] eqn:E; [|exfalso; apply (Hc c); [now left|exact E]].
      exists (map fst info). split; [now exists info|]. rewrite <- each_some. cbn [each_cpu]. unfold mbind. now rewrite (cs_get_run c info s).
  Qed.

  Lemma asked_names csnames own n : asked csnames own n <->
    match normalize_csnames csnames with None => In n own | Some l => In n l end.
  Proof.
    unfold asked, normalize_csnames. destruct csnames as [t|l].
    - destruct (str_eqb t _); [reflexivity|]. rewrite in_map_iff. split.
      + intros (w & Hw & ->). exists w. split; [reflexivity|]. exact (proj2 (list_dedup_In _ str_eqb_spec _ _) Hw).
      + intros (w & <- & Hw). exists w. split; [|reflexivity]. exact (proj1 (list_dedup_In _ str_eqb_spec _ _) Hw).
    - rewrite in_map_iff. split.
      + intros (w & Hw & ->). exists w. split; [reflexivity|]. exact (proj2 (list_dedup_In _ str_eqb_spec _ _) Hw).
      + intros (w & <- & Hw). exists w. split; [|reflexivity]. exact (proj1 (list_dedup_In _ str_eqb_spec _ _) Hw).
  Qed.

  Lemma resolved_asked b s csnames cpus ns : Inv b s -> resolved s (normalize_csnames csnames) cpus ns ->
    forall c0, hd_error cpus = Some c0 -> forall n, In n ns <-> asked csnames (own_names mc nst c0) n.
  Proof.
    intros HI Hr c0 Hc n. rewrite asked_names. unfold resolved in Hr. destruct (normalize_csnames csnames) as [l|]; [now subst|].
    destruct cpus as [|c t]; [discriminate|]. injection Hc as ->. destruct Hr as (info & E & ->).
    rewrite own_In. apply (fits_In b (id_flags s)). now apply HI.
  Qed.

  Lemma norm_cpus cpus l : normalize_cpus (mc_ci mc) cpus false = Ok l ->
    NoDup l /\ incl l online /\ forall c, In c l <-> In c (cs_targets mc cpus).
  Proof.
    destruct cpus as [k|]; intros H.
    - unfold normalize_cpus in H. apply normalize_in_ok in H as (-> & Ha). split; [apply NoDup_dedup|]. cbn [cs_targets].
      assert (Hd : forall c, In c (dedup k) <-> In c k) by (intros; apply dedup_In). split; [|exact Hd].
      intros c Hc. apply Ha. now apply Hd.
    - cbn [normalize_cpus] in H. injection H as <-. cbn [cs_targets]. assert (Hz : forall c, In c (zsort online) <-> In c online) by (intros; apply zsort_In).
      split; [|split; [intros c; apply Hz|exact Hz]].
      eapply Permutation_NoDup; [apply Permutation_sym, sort_by_perm|]. now apply Hok.
  Qed.

  Lemma norm_cpus_live cpus : (forall l, cpus = Some l -> incl l online) -> exists l, normalize_cpus (mc_ci mc) cpus false = Ok l.
  Proof.
    intros H. destruct cpus as [k|]; [|eexists; reflexivity]. unfold normalize_cpus. rewrite normalize_in_succeeds; [eexists; reflexivity|]. now apply H.
  Qed.
End Ops.
