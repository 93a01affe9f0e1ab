(** Toggling C-states, the governor, and histories. *)
From Coq Require Import Ascii String ZifyBool Permutation Sorted.
From Verif Require Import Base L_Base L_Monad M_CPUInfo S_CPUInfo L_CPUInfo M_Text S_Text L_Text M_Human L_Human M_CPUIdle S_CPUIdle L_CPUIdle L_CPUIdle2 L_CPUIdle3 L_CPUIdle4 L_CPUIdle5.

Lemma post_opt {S A} (X : S -> option A) (m : M S A) s (Q : A -> S -> Prop) (E : exc -> S -> Prop) :
  (forall a, X s = Some a -> Q a s) -> (X s = None -> post m s Q E) ->
  post (fun s => match X s with Some a => (Ok a, s) | None => m s end) s Q E.
Proof. unfold post. destruct (X s) as [a|]; intros H1 H2; [now apply H1|now apply H2]. Qed.

Section Ops3.
  Variable mc : machine.
  Variable nst : Z -> Z.
  Hypothesis Hok : idle_ok mc nst.
  Notation online := (ci_online (mc_ci mc)).
  Notation Inv := (Inv mc nst).
  Notation evolve := (evolve mc).
  Notation gov_ok := (gov_ok mc).

  Lemma toggle_post b csnames cpus en s : Inv b s ->
    post (toggle_cstates mc csnames cpus en) s
      (fun ts s' => Inv b s' /\ evolve (toggles mc nst csnames cpus) s s' /\ cpus_known mc cpus /\
         exists l ns, normalize_cpus (mc_ci mc) cpus false = Ok l /\
         (forall c0, hd_error l = Some c0 -> forall n, In n ns <-> asked csnames (own_names mc nst c0) n) /\
         (forall c n, In c l -> In n ns -> In n (own_names mc nst c)) /\
         (forall c i, In c l -> 0 <= i < nst c -> In (cs_name mc c i) ns -> id_flags s' c i = flag_text (negb en)) /\
         NoDup (map fst ts) /\ (forall c names, In (c, names) ts -> In c l /\ NoDup names /\ forall n, In n names <-> In n ns) /\
         (forall c n, In c l -> In n ns -> exists names, In (c, names) ts))
      (fun _ s' => Inv b s' /\ evolve (toggles mc nst csnames cpus) s s' /\
         ~ (obeys mc nst /\ id_rf s = [] /\ id_wf s = [] /\ cpus_known mc cpus /\ has_names mc nst csnames cpus)).
  Proof.
    intros HI. set (P := toggles mc nst csnames cpus). unfold toggle_cstates.
    apply post_bind. eapply post_conseq; [apply (driver_post mc nst Hok P b s HI)| |]; cbn beta.
    2: { intros e s' (J1 & J2 & _ & J3). split; [exact J1|]. split; [exact J2|]. tauto. }
    intros d s1 (Hd & J1 & J2 & _). destruct d as [|dc d]; [contradiction|]. clear Hd dc d.
    apply post_bind, post_lift.
    2: { intros e He. split; [exact J1|]. split; [exact J2|]. intros (_ & _ & _ & K & _). now apply norm_exn in He. }
    intros l Hl. assert (Hl' := Hl). apply (norm_cpus mc nst Hok) in Hl' as (Hnd & Hin & Ht).
    apply post_bind. apply (with_post mc nst Hok P b); [assumption..| |].
    2: { intros e s2 K1 K2 K3. split; [exact K1|]. split; [now apply (evolve_trans mc P s s1)|]. intros (_ & H0 & _). apply K3. now apply J2. }
    intros s2 ns K1 K2 K3 Hns. assert (J := evolve_trans mc P _ _ _ J2 K2).
    eapply post_conseq; [apply (post_mmap _ (fun p q s' => Inv b s' /\ evolve P s2 s' /\ map fst q = p /\
        (forall c n, In c p -> In n ns -> In n (own_names mc nst c)) /\
        (forall c i, In c p -> 0 <= i < nst c -> In (cs_name mc c i) ns -> id_flags s' c i = flag_text (negb en)) /\
        forall c names, In (c, names) q -> NoDup names /\ forall n, In n names <-> In n ns)
      (fun _ s' => Inv b s' /\ evolve P s2 s' /\ ~ (obeys mc nst /\ id_rf s2 = [] /\ id_wf s2 = [] /\ has_names mc nst csnames cpus)))| |]; cbn beta.
    - intros p c r E q s3 (L1 & L2 & L3 & L4 & L5 & L6). assert (Hc : In c l) by (rewrite E; apply in_or_app; right; now left).
      destruct (dget Z.eqb (id_cs s3) c) as [info|] eqn:Ei.
      2: { exfalso. destruct L2 as (_ & _ & _ & _ & _ & L2). apply (L2 c); [now apply K3|exact Ei]. }
      assert (HF : fits mc nst b (id_flags s3) c info) by (now apply L1).
      unfold one. apply post_bind. unfold post at 1. rewrite (cs_get_run mc nst Hok c info s3 Ei).
      apply post_bind, post_lift.
      + intros r' Hp. destruct (picked mc nst b _ _ _ _ _ HF Hp) as ((S1 & S2 & S3) & S4).
        set (Pc := fun x i => x = c /\ 0 <= i < nst c /\ In (cs_name mc c i) ns).
        assert (HPc : forall x i, Pc x i -> P x i).
        { intros x i (-> & Hi & Hn). unfold P, toggles. split; [now apply Ht|]. split; [exact Hi|].
          destruct l as [|c0 t]; [destruct Hc|]. exists c0. split; [apply Ht; now left|]. now apply Hns. }
        eapply post_conseq; [apply (toggle_cpu_post mc nst Hok Pc b c en info r' ns s3 L1 (Hin c Hc) Ei Hp)| |]; cbn beta.
        * intros i Hi Hn. now repeat split.
        * intros t s4 (M1 & M2 & -> & M4). split; [exact M2|]. split; [|split; [|split; [|split]]].
          -- apply (evolve_trans mc P s2 s3); [exact L2|]. now apply (evolve_weak mc Pc).
          -- rewrite map_app, L3. reflexivity.
          -- intros x n Hx Hn. apply in_app_or in Hx as [Hx|[<-|[]]]; [now apply L4|now apply S4].
          -- intros x i Hx Hi Hn. apply in_app_or in Hx as [Hx|[<-|[]]]; [|now apply M4].
             destruct M1 as (M1 & _). rewrite M1; [now apply L5|]. intros (-> & _). rewrite E in Hnd. apply NoDup_remove_2 in Hnd.
             apply Hnd. apply in_or_app. now left.
          -- intros x names Hx. apply in_app_or in Hx as [Hx|[Hx|[]]]; [exact (L6 x names Hx)|]. apply pair_equal_spec in Hx as (<- & <-).
             split; [exact S1|]. intros n. split.
             ++ intros H. apply in_map_iff in H as ((m, cs) & <- & H). now destruct (S3 m cs H) as (i & _ & _ & Hw & _).
             ++ intros Hn. destruct (proj1 (own_In mc nst c n) (S4 n Hn)) as (i & Hi & ->). destruct (S2 i Hi Hn) as (cs & H).
                apply in_map_iff. now exists (cs_name mc c i, cs).
        * intros e s4 (M1 & M2 & M3). split; [exact M2|]. split; [apply (evolve_trans mc P s2 s3); [exact L2|]; now apply (evolve_weak mc Pc)|].
          intros (A1 & A2 & A3 & _). apply M3. split; [exact A1|]. split; now apply L2.
      + intros e Hp. split; [exact L1|]. split; [exact L2|]. intros (_ & _ & _ & A).
        apply (pick_refused mc nst csnames cpus l ns b (id_flags s3) c info e HF Hp); [intros x; apply Ht|exact Hc|exact Hns|exact A].
    - split; [exact K1|]. split; [apply evolve_refl|]. split; [reflexivity|]. split; [intros c n []|]. split; [intros c i []|intros c names []].
    - intros ts s' (L1 & L2 & L3 & L4 & L5 & L6). apply post_ret. split; [exact L1|]. split; [now apply (evolve_trans mc P s s2)|].
      split; [now apply (known_norm mc cpus l)|]. exists l, ns. split; [exact Hl|]. split; [exact Hns|]. split; [exact L4|]. split; [exact L5|].
      split; [|split].
      + rewrite <- L3 in Hnd. clear -Hnd. induction ts as [|t ts IH]; [constructor|]. cbn [map filter] in *. inversion Hnd as [|? ? H1 H2]; subst.
        destruct (match snd t with [] => false | _ :: _ => true end); [|now apply IH]. cbn [map]. constructor; [|now apply IH].
        intros H. apply H1. apply in_map_iff in H as (x & <- & Hx). apply in_map. now apply filter_In in Hx.
      + intros c names H. apply filter_In in H as (H & _). split; [rewrite <- L3; apply in_map_iff; now exists (c, names)|exact (L6 c names H)].
      + intros c n Hc Hn. rewrite <- L3 in Hc. apply in_map_iff in Hc as ((x, names) & <- & Hx). exists names. apply filter_In.
        split; [exact Hx|]. cbn [snd]. destruct (L6 _ _ Hx) as (_ & Hi). destruct names; [|reflexivity]. now apply Hi in Hn.
    - intros e s' (L1 & L2 & L3). split; [exact L1|]. split; [now apply (evolve_trans mc P s s2)|].
      intros (A1 & A2 & A3 & A4 & A5). apply L3. split; [exact A1|]. split; [now apply J|]. split; [now apply J|exact A5].
  Qed.

  (** The governor. *)
  Lemma driver_keeps s : id_cgov (snd (get_idle_driver mc s)) = id_cgov s.
  Proof.
    unfold get_idle_driver. destruct (if mc_cache mc then id_cdrv s else None) as [d|]; [reflexivity|].
    unfold mbind, rd_io. destruct (id_rf s) as [|[|] t]; cbn [snd]; [|reflexivity|];
    (destruct (mc_driver mc) as [x|]; [|reflexivity]); rewrite add0_run with (nst := nst) by exact Hok; reflexivity.
  Qed.

  Lemma none_P : forall c i : Z, (fun _ _ : Z => False) c i -> False.
  Proof. auto. Qed.

  Definition asis (s s' : idle) : Prop := evolve (fun _ _ => False) s s' /\ id_cs s' = id_cs s.

  Lemma avail_post b s : Inv b s -> gov_ok s ->
    post (get_available_governors mc) s
      (fun l s' => Inv b s' /\ evolve (fun _ _ => False) s s' /\ gov_ok s' /\ id_cgov s' = id_cgov s /\ exists t, mc_avail mc = Some t /\ l = words (strip t))
      (fun _ s' => Inv b s' /\ evolve (fun _ _ => False) s s' /\ gov_ok s' /\ (mc_avail mc = None \/ id_rf s <> [])).
  Proof.
    intros HI HG. unfold get_available_governors. apply post_bind.
    eapply post_conseq; [apply (post_and _ _ _ (fun _ s' => id_cgov s' = id_cgov s) _ (fun _ s' => id_cgov s' = id_cgov s) (driver_post mc nst Hok (fun _ _ => False) b s HI))| |]; cbn beta.
    - unfold post. assert (K := driver_keeps s). destruct (get_idle_driver mc s) as ([d|e], s'); exact K.
    - intros d s1 ((Hd & J1 & J2 & _) & K). assert (HG1 : gov_ok s1) by (now apply J2). 
      apply (post_opt (fun s => if mc_cache mc then id_cavail s else None)); rewrite (cache_on mc nst Hok).
      + intros l El. split; [exact J1|]. split; [exact J2|]. split; [exact HG1|]. split; [exact K|]. now apply HG1.
      + intros El. apply post_bind. eapply post_conseq; [apply rd_io_post| |]; cbn beta.
        * intros u s2 Q. assert (HE2 := evolve_trans mc _ _ _ _ J2 (quiet_evolve mc (fun _ _ => False) _ _ Q)).
          assert (HI2 := quiet_Inv mc nst b _ _ Q J1). assert (HG2 : gov_ok s2) by (now apply HE2).
          destruct (mc_avail mc) as [t|] eqn:Et.
          -- cbn zeta. apply post_bind. unfold post at 1. rewrite (add0_run mc nst Hok). apply post_ret.
             assert (HG3 : gov_ok (id_set_cavail (Some (words (strip t))) s2)).
             { split; [apply HG2|]. intros l [= <-]. now exists t. }
             split; [exact HI2|]. split; [|split; [exact HG3|split; [|now exists t]]].
             ++ destruct HE2 as (A1 & A2 & A3 & A4). split; [exact A1|]. split; [exact A2|]. split; [intros _; exact HG3|exact A4].
             ++ cbn. rewrite <- K. apply Q.
          -- apply post_throw. split; [exact HI2|]. split; [exact HE2|]. split; [exact HG2|now left].
        * intros e s2 (Q & Hr). assert (HE2 := evolve_trans mc _ _ _ _ J2 (quiet_evolve mc (fun _ _ => False) _ _ Q)).
          split; [now apply (quiet_Inv mc nst b s1)|]. split; [exact HE2|]. split; [now apply HE2|]. right. intros H. apply Hr. now apply J2.
    - intros e s1 ((J1 & J2 & _ & J3) & _). split; [exact J1|]. split; [exact J2|]. split; [now apply J2|now right].
  Qed.

  Lemma gov_post b s : Inv b s -> gov_ok s ->
    post (get_current_governor mc) s
      (fun g s' => Inv b s' /\ evolve (fun _ _ => False) s s' /\ gov_ok s' /\ (gov_stores mc -> g = strip (id_gov s)))
      (fun _ s' => Inv b s' /\ evolve (fun _ _ => False) s s' /\ gov_ok s' /\ (mc_hasgov mc = false \/ id_rf s <> [])).
  Proof.
    intros HI HG. unfold get_current_governor. apply post_bind.
    eapply post_conseq; [apply (driver_post mc nst Hok (fun _ _ => False) b s HI)| |]; cbn beta.
    - intros d s1 (Hd & J1 & J2 & _). assert (HG1 : gov_ok s1) by (now apply J2). 
      apply (post_opt (fun s => if mc_cache mc then id_cgov s else None)); rewrite (cache_on mc nst Hok).
      + intros g El. split; [exact J1|]. split; [exact J2|]. split; [exact HG1|]. intros HS. apply (proj1 HG1 HS) in El. rewrite <- El. now replace (id_gov s1) with (id_gov s) by (symmetry; apply J2).
      + intros El. apply post_bind. eapply post_conseq; [apply rd_io_post| |]; cbn beta.
        * intros u s2 Q. assert (HE2 := evolve_trans mc _ _ _ _ J2 (quiet_evolve mc (fun _ _ => False) _ _ Q)).
          assert (HI2 := quiet_Inv mc nst b _ _ Q J1). assert (HG2 : gov_ok s2) by (now apply HE2).
          assert (Eg : id_gov s2 = id_gov s) by apply HE2.
          destruct (mc_hasgov mc) eqn:Et.
          -- apply post_bind, post_gets. apply post_bind. unfold post at 1. rewrite (add0_run mc nst Hok). apply post_ret.
             assert (HG3 : gov_ok (id_set_cgov (Some (strip (id_gov s2))) s2)).
             { split; [|apply HG2]. intros _ g [= <-]. reflexivity. }
             split; [exact HI2|]. split; [|split; [exact HG3|intros _; now rewrite Eg]].
             destruct HE2 as (A1 & A2 & A3 & A4). split; [exact A1|]. split; [exact A2|]. split; [intros _; exact HG3|exact A4].
          -- apply post_throw. split; [exact HI2|]. split; [exact HE2|]. split; [exact HG2|now left].
        * intros e s2 (Q & Hr). assert (HE2 := evolve_trans mc _ _ _ _ J2 (quiet_evolve mc (fun _ _ => False) _ _ Q)).
          split; [now apply (quiet_Inv mc nst b s1)|]. split; [exact HE2|]. split; [now apply HE2|]. right. intros H. apply Hr. now apply J2.
    - intros e s1 (J1 & J2 & _ & J3). split; [exact J1|]. split; [exact J2|]. split; [now apply J2|now right].
  Qed.

  Lemma set_gov_post b g s : Inv b s -> gov_ok s ->
    post (set_current_governor mc g) s
      (fun _ s' => Inv b s' /\ gov_ok s' /\ (forall c i, id_flags s' c i = id_flags s c i) /\ (gov_stores mc -> strip (id_gov s') = g) /\ offered mc g /\
                   id_cgov s' = Some g)
      (fun _ s' => Inv b s' /\ gov_ok s' /\ (forall c i, id_flags s' c i = id_flags s c i) /\ id_gov s' = id_gov s /\
         ~ (offered mc g /\ gov_accepts mc /\ id_rf s = [] /\ id_wf s = [])).
  Proof.
    intros HI HG. unfold set_current_governor. apply post_bind. unfold post at 1. rewrite (add0_run mc nst Hok).
    set (s0 := id_set_cgov None s).
    assert (HI0 : Inv b s0) by exact HI. assert (HG0 : gov_ok s0) by (split; [intros _ g'; discriminate|apply HG]).
    apply post_bind. eapply post_conseq; [apply (avail_post b s0 HI0 HG0)| |]; cbn beta.
    2: { intros e s1 (J1 & J2 & J3 & J4). split; [exact J1|]. split; [exact J3|]. split; [intros c i; now apply J2|]. split; [apply J2|].
         intros ((t & Et & _) & _ & Hr & _). destruct J4 as [J4|J4]; [congruence|now apply J4]. }
    intros l s1 (J1 & J2 & J3 & J4 & t & Et & ->).
    assert (F1 : forall c i, id_flags s1 c i = id_flags s c i) by (intros c i; now apply J2).
    assert (F2 : id_gov s1 = id_gov s) by apply J2.
    assert (Ef : forall P : Prop, P -> ~ offered mc g -> post (throw (A := unit) EError) s1
      (fun _ s' => Inv b s' /\ gov_ok s' /\ (forall c i, id_flags s' c i = id_flags s c i) /\ (gov_stores mc -> strip (id_gov s') = g) /\ offered mc g /\ id_cgov s' = Some g)
      (fun _ s' => Inv b s' /\ gov_ok s' /\ (forall c i, id_flags s' c i = id_flags s c i) /\ id_gov s' = id_gov s /\
         ~ (offered mc g /\ gov_accepts mc /\ id_rf s = [] /\ id_wf s = []))).
    { intros P _ Ho. apply post_throw. split; [exact J1|]. split; [exact J3|]. split; [exact F1|]. split; [exact F2|]. tauto. }
    destruct (words (strip t)) as [|w ws] eqn:Ew.
    { apply post_throw. split; [exact J1|]. split; [exact J3|]. split; [exact F1|]. split; [exact F2|]. intros ((t' & Et' & Hg) & _).
      rewrite Et in Et'. injection Et' as <-. rewrite Ew in Hg. destruct Hg. }
    rewrite <- Ew. clear w ws Ew. destruct (existsb (str_eqb g) (words (strip t))) eqn:Eo; cbn [negb].
    2: { apply (Ef True I). intros (t' & Et' & Hg). rewrite Et in Et'. injection Et' as <-.
         assert (X : existsb (str_eqb g) (words (strip t)) = true) by (apply existsb_exists; exists g; split; [exact Hg|now apply str_eqb_eq]). congruence. }
    assert (Ho : offered mc g).
    { exists t. split; [exact Et|]. apply existsb_exists in Eo as (x & Hx & E). apply str_eqb_eq in E. now subst x. }
    apply post_bind. eapply post_conseq; [apply wr_io_post| |]; cbn beta.
    2: { intros e s2 (Q & Hw). split; [now apply (quietw_Inv mc nst b s1)|]. destruct Q as (Q1 & Q2 & Q3 & Q4 & Q5 & Q6 & Q7 & Q8).
         split; [unfold L_CPUIdle4.gov_ok in *; rewrite Q2, Q6, Q7; exact J3|]. split; [intros c i; rewrite Q1; apply F1|]. split; [congruence|].
         intros (_ & _ & _ & H). apply Hw. apply J2. exact H. }
    intros u s2 Q. assert (HI2 := quietw_Inv mc nst b _ _ Q J1). destruct Q as (Q1 & Q2 & Q3 & Q4 & Q5 & Q6 & Q7 & Q8).
    assert (HG2 : gov_ok s2) by (unfold L_CPUIdle4.gov_ok in *; rewrite Q2, Q6, Q7; exact J3).
    assert (F3 : forall c i, id_flags s2 c i = id_flags s c i) by (intros c i; rewrite Q1; apply F1).
    apply post_bind, post_gets.
    destruct (if mc_hasgov mc then mc_gstore mc (id_gov s2) g else None) as [new|] eqn:En.
    2: { apply post_throw. split; [exact HI2|]. split; [exact HG2|]. split; [exact F3|]. split; [congruence|].
         intros (_ & (A1 & A2) & _). rewrite A1 in En. destruct (A2 (id_gov s2) g Ho) as (x & Ex). congruence. }
    destruct (mc_hasgov mc); [|discriminate]. apply post_bind, post_modify.
    unfold post. rewrite (add0_run mc nst Hok). split; [exact HI2|]. split.
    - split; [|apply HG2]. intros HS x [= <-]. exact (HS _ _ _ En).
    - split; [exact F3|]. split; [intros HS; exact (HS _ _ _ En)|]. split; [exact Ho|reflexivity].
  Qed.

  (** Histories. *)
  Lemma init_Inv b flags gov tick rf wf : flags_ok mc nst flags -> (b = true -> rf = []) ->
    Inv b (idle_init flags gov tick rf wf) /\ gov_ok (idle_init flags gov tick rf wf).
  Proof.
    intros Hf Hr. split; [split; [exact Hf|split; [discriminate|split; [discriminate|exact Hr]]]|split; [intros _ g; discriminate|discriminate]].
  Qed.

  Lemma step_Inv b o s : Inv b s -> gov_ok s -> Inv b (istep mc o s) /\ gov_ok (istep mc o s).
  Proof.
    intros HI HG. destruct o as [cpus cs|cs cpus en| | | |g]; cbn [istep].
    - assert (H := info_post mc nst Hok (fun _ _ => False) b cpus cs s HI). unfold post in H.
      destruct (get_cstates_info mc cpus cs s) as ([r|e], s'); destruct H as (A & B & _); (split; [exact A|now apply B]).
    - assert (H := toggle_post b cs cpus en s HI). unfold post in H.
      destruct (toggle_cstates mc cs cpus en s) as ([r|e], s'); destruct H as (A & B & _); (split; [exact A|now apply B]).
    - assert (H := driver_post mc nst Hok (fun _ _ => False) b s HI). unfold post in H.
      destruct (get_idle_driver mc s) as ([r|e], s'); [destruct H as (_ & A & B & _)|destruct H as (A & B & _)]; (split; [exact A|now apply B]).
    - assert (H := gov_post b s HI HG). unfold post in H.
      destruct (get_current_governor mc s) as ([r|e], s'); destruct H as (A & _ & B & _); now split.
    - assert (H := avail_post b s HI HG). unfold post in H.
      destruct (get_available_governors mc s) as ([r|e], s'); destruct H as (A & _ & B & _); now split.
    - assert (H := set_gov_post b g s HI HG). unfold post in H.
      destruct (set_current_governor mc g s) as ([r|e], s'); destruct H as (A & B & _); now split.
  Qed.

  Lemma run_Inv b ops : forall s, Inv b s -> gov_ok s -> Inv b (irun mc ops s) /\ gov_ok (irun mc ops s).
  Proof.
    induction ops as [|o ops IH]; intros s HI HG; [now split|]. cbn [irun fold_left]. destruct (step_Inv b o s HI HG). now apply IH.
  Qed.
End Ops3.
