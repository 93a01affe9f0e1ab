(** Lemmas for C71: mechanisms and the properties that are read. *)
From Coq Require Import Ascii String ZifyBool.
From Verif Require Import Base L_Base L_Monad M_CPUInfo S_CPUInfo L_CPUInfo L_CPUInfo2 M_Text S_Text L_Text L_Remote M_Human M_Props S_Props L_Props L_Props2 L_Props3
  M_OpTarget M_Print S_Print L_Print L_Print2 L_Print3 L_Print4 L_Print5 M_InfoCmd S_InfoCmd.

(** ** Mechanisms *)

Lemma typed_split t ws : typed_list t ws -> split_csv_line "," true false t = ws.
Proof.
  intros (-> & Hne & ND & Hw). unfold split_csv_line.
  assert (Hst : strip_char "," (join "," ws) = join "," ws).
  { unfold strip_char. destruct ws as [|w ws']; [contradiction|]. clear Hne.
    assert (H0 : exists c r, w = c :: r /\ c <> ","%char).
    { destruct (Hw w (or_introl eq_refl)) as (N & Hc). destruct w as [|c r]; [contradiction|]. exists c, r. split; [reflexivity|]. apply Hc. now left. }
    destruct H0 as (c & r & -> & Hc).
    assert (HL : exists x d, join "," ((c :: r) :: ws') = x ++ [d] /\ d <> ","%char).
    { clear ND Hc. revert c r Hw. induction ws' as [|w' ws' IH]; intros c r Hw.
      - cbn [join]. destruct (exists_last (l := c :: r) ltac:(discriminate)) as (x & d & E). exists x, d. split; [exact E|].
        apply (proj2 (Hw (c :: r) (or_introl eq_refl))). rewrite E. apply in_or_app. right. now left.
      - destruct (Hw w' (or_intror (or_introl eq_refl))) as (N & _). destruct w' as [|c' r']; [contradiction|].
        destruct (IH c' r') as (x & d & E & Hd). { intros w I. apply Hw. now right. }
        exists ((c :: r) ++ ","%char :: x), d. split; [|exact Hd]. change (join "," ((c :: r) :: (c' :: r') :: ws')) with ((c :: r) ++ ","%char :: join "," ((c' :: r') :: ws')).
        rewrite E. now rewrite <- app_assoc. }
    destruct HL as (x & d & E & Hd).
    assert (Hh : exists y, join "," ((c :: r) :: ws') = c :: y) by (destruct ws'; cbn [join app]; eauto). destruct Hh as (y & Ey).
    transitivity (strip_by (Ascii.eqb ",") ([] ++ join "," ((c :: r) :: ws') ++ [])); [cbn [app]; now rewrite app_nil_r|].
    apply (strip_mid _ [] (join "," ((c :: r) :: ws')) []); [rewrite Ey; discriminate| | |reflexivity|reflexivity].
    - rewrite Ey. cbn [hd]. apply Ascii.eqb_neq. congruence.
    - rewrite E, last_last. apply Ascii.eqb_neq. congruence. }
  rewrite Hst, split_join by exact Hne.
  assert (Hf : flat_map (split_on ",") ws = ws).
  { clear - Hw. induction ws as [|w t IH]; cbn [flat_map]; [reflexivity|]. rewrite split_on_free.
    - cbn [app]. f_equal. apply IH. intros u I. apply Hw. now right.
    - intros I. now apply (proj2 (Hw w (or_introl eq_refl))) in I as (I & _). }
  rewrite Hf.
  assert (Hg : flat_map (fun val : str => match val with [] => [] | _ :: _ => [strip val] end) ws = ws).
  { clear - Hw. induction ws as [|w t IH]; cbn [flat_map]; [reflexivity|]. destruct (Hw w (or_introl eq_refl)) as (N & Hc).
    rewrite IH by (intros u I; apply Hw; now right). destruct w as [|c r]; [contradiction|]. cbn [app]. f_equal. apply strip_by_id; [discriminate|].
    apply Forall_forall. intros d I. now apply Hc. }
  cbn beta iota. etransitivity; [|exact (list_dedup_id _ str_eqb_spec ws ND)]. f_equal. exact Hg.
Qed.

Section Mechs.
  Variable tab : list (str * Z).
  Hypothesis ND : NoDup (map fst tab).

  Lemma mechs_ok t ws : typed_list t ws -> forall ms, parse_mechanisms tab t = Ok ms <-> Forall2 (fun w m => In (w, m) tab) ws ms.
  Proof.
    intros Ht ms. unfold parse_mechanisms. rewrite (typed_split t ws Ht). clear Ht. revert ms.
    induction ws as [|w ws IH]; cbn [rmap]; intros ms.
    - split; [intros [= <-]; constructor|]. intros H. now inversion H.
    - split.
      + intros H. destruct (dget str_eqb tab w) as [m|] eqn:E; cbn [rbind] in H; [|discriminate H].
        match type of H with rbind ?r _ = _ => destruct r as [ys|] eqn:E2 end; cbn [rbind] in H; [|discriminate H]. injection H as <-.
        constructor; [now apply (dget_In _ str_eqb_spec)|now apply IH].
      + intros H. inversion H as [|? m ? ys H1 H2]; subst. rewrite (In_dget _ str_eqb_spec _ _ _ ND H1). cbn [rbind].
        apply IH in H2. rewrite H2. reflexivity.
  Qed.

  Lemma mechs_refused t ws : typed_list t ws -> forall w, In w ws -> ~ In w (map fst tab) -> parse_mechanisms tab t = Exn ENotSupported.
  Proof.
    intros Ht w I N. unfold parse_mechanisms. rewrite (typed_split t ws Ht). clear Ht.
    induction ws as [|w' ws IH]; [destruct I|]. cbn [rmap]. destruct I as [->|I].
    - assert (dget str_eqb tab w = None) as -> by (now apply (dget_None _ str_eqb_spec)). reflexivity.
    - destruct (dget str_eqb tab w'); cbn [rbind]; [|reflexivity]. rewrite (IH I). reflexivity.
  Qed.
End Mechs.

(** ** The mechanisms of the values that are read *)
Section Read.
  Context {St V : Type}.
  Variable cls : pclass St V.

  Lemma pv_loop_mech {K} (g : Z -> St -> gen (K * option V)) pname ms s out s' : pv_loop g pname ms s = (Ok (Some out), s') ->
    Forall (fun pv => In (pv_mname pv) ms) out.
  Proof.
    revert s. induction ms as [|m ms IH]; cbn [pv_loop]; intros s H; [discriminate H|].
    unfold mbind, log_get, modify in H. cbn beta iota in H. cbn [ps_st] in H.
    destruct (g m (ps_st s)) as (vals, [e|]).
    - destruct vals as [|x vals]; destruct e; try discriminate H.
      apply IH in H. eapply Forall_impl; [|exact H]. intros pv I. now right.
    - assert (Ho : out = map (fun kv => PV pname (fst kv) m (snd kv)) vals) by (destruct vals; congruence). subst out.
      apply Forall_forall. intros pv I. apply in_map_iff in I as ((k, v) & <- & _). now left.
  Qed.

  Lemma last_In {A} (l : list A) d : l <> [] -> In (last l d) l.
  Proof. intros H. destruct (exists_last H) as (x & y & ->). rewrite last_last. apply in_or_app. right. now left. Qed.

  Lemma pv_get_mech {K} (g : Z -> St -> gen (K * option V)) keys pname ms r i0 s out s' : ms <> [] -> pv_get cls g keys pname ms r i0 s = (Ok out, s') ->
    Forall (fun pv => In (pv_mname pv) ms) out.
  Proof.
    intros Hm H. unfold pv_get in H. apply lift_bind in H as [(p & _ & H)|(e & _ & [=] & _)].
    assert (Eo : or_default p ms = ms) by (destruct ms; [contradiction|reflexivity]). rewrite Eo in H. unfold mbind in H.
    destruct (pv_loop g pname ms s) as ([[l|]|e], s1) eqn:E; [| |discriminate H].
    - injection H as <- <-. exact (pv_loop_mech g pname ms s l s1 E).
    - destruct ms as [|m0 t]; [contradiction|]. destruct (i0 && _); [discriminate H|]. destruct r; [discriminate H|]. injection H as <- <-.
      apply Forall_forall. intros pv I. apply in_map_iff in I as (k & <- & _). change (In (last (m0 :: t) m0) (m0 :: t)). apply last_In. discriminate.
  Qed.

  Lemma norm_mechs pname l ro ms : normalize_mnames cls pname (Some l) ro = Ok ms -> l <> [] ->
    ms <> [] /\ (forall m, In m ms -> In m l) /\ exists d, dget Z.eqb (pc_props cls) pname = Some d /\ forall m, In m l -> In m (pd_mnames d).
  Proof.
    unfold normalize_mnames. intros H Hl. destruct (dget Z.eqb (pc_props cls) pname) as [d|]; [|destruct l; [contradiction|discriminate H]].
    match type of H with rbind ?r _ = _ => destruct r as [u|] eqn:E end; cbn [rbind] in H; [|discriminate H]. injection H as <-.
    split; [|split].
    - intros E'. destruct l as [|m t]; [contradiction|]. assert (I : In m (dedup (m :: t))) by (apply dedup_In; now left). rewrite E' in I. destruct I.
    - intros m I. exact (proj1 (dedup_In m l) I).
    - exists d. split; [reflexivity|]. intros m I. revert u E. clear Hl. induction l as [|x t IH]; [destruct I|]. cbn [rmap]. intros u E.
      destruct (validate_mname cls d ro x) as [[]|] eqn:Ex; cbn [rbind] in E; [|discriminate E].
      match type of E with rbind ?r _ = _ => destruct r as [ys|] eqn:E2 end; cbn [rbind] in E; [|discriminate E].
      destruct I as [<-|I]; [|exact (IH I _ eq_refl)].
      unfold validate_mname in Ex. destruct (inb x (pd_mnames d)) eqn:Ei; [now apply inb_In|discriminate Ex].
  Qed.

  Lemma lastm_In (ms : list Z) m : last_mname ms = Ok m -> In m ms.
  Proof. unfold last_mname. destruct ms as [|x t]; [discriminate|]. intros [= <-]. change (In (last (x :: t) x) (x :: t)). apply last_In. discriminate. Qed.

  Lemma cpus_mech pname cpus l s out s' : l <> [] -> get_prop_cpus cls pname cpus (Some l) s = (Ok out, s') ->
    (forall pv, In pv out -> In (pv_mname pv) l) /\ exists d, dget Z.eqb (pc_props cls) pname = Some d /\ forall m, In m l -> In m (pd_mnames d).
  Proof.
    intros Hl H. unfold get_prop_cpus in H. apply lift_bind in H as [(p & _ & H)|(e & _ & [=] & _)].
    apply lift_bind in H as [(ms & Hms & H)|(e & _ & [=] & _)]. destruct (norm_mechs _ _ _ _ Hms Hl) as (M1 & M2 & M3). split; [|exact M3].
    apply lift_bind in H as [(cs & _ & H)|(e & _ & [=] & _)]. destruct cs as [|c cs]; [injection H as <- <-; intros pv []|].
    unfold mbind at 1 in H. destruct (try_set_sname cls pname s) as ([[|]|e], s1); [| |discriminate H].
    - apply pv_get_mech in H; [|exact M1]. intros pv I. rewrite Forall_forall in H. now apply M2, H.
    - apply lift_bind in H as [(m & Hm & H)|(e & _ & [=] & _)]. apply lastm_In in Hm. injection H as <- <-. intros pv I.
      cbn [map] in I. destruct I as [<-|I]; [now apply M2|]. apply in_map_iff in I as (k & <- & _). now apply M2.
  Qed.


  Lemma dies_mech pname ds l s out s' : l <> [] -> get_prop_dies cls pname (Some ds) (Some l) s = (Ok out, s') ->
    (forall pv, In pv out -> In (pv_mname pv) l) /\ exists d, dget Z.eqb (pc_props cls) pname = Some d /\ forall m, In m l -> In m (pd_mnames d).
  Proof.
    intros Hl H. unfold get_prop_dies in H. apply lift_bind in H as [(p & _ & H)|(e & _ & [=] & _)].
    apply lift_bind in H as [(ms & Hms & H)|(e & _ & [=] & _)]. destruct (norm_mechs _ _ _ _ Hms Hl) as (M1 & M2 & M3). split; [|exact M3].
    apply lift_bind in H as [(cs & _ & H)|(e & _ & [=] & _)]. destruct (forallb _ ds); [injection H as <- <-; intros pv []|].
    unfold mbind at 1 in H. destruct (try_set_sname cls pname s) as ([[|]|e], s1); [| |discriminate H]; cbn [negb] in H.
    - unfold mbind at 1 in H. cbn [gets] in H. unfold gets in H. cbn beta iota in H.
      apply lift_bind in H as [(u & _ & H)|(e & _ & [=] & _)]. unfold mbind at 1 in H.
      match type of H with context [match ?x with _ => _ end] => destruct x as ([[]|e], s2) eqn:Ef end; [|discriminate H].
      apply pv_get_mech in H; [|exact M1]. intros pv I. rewrite Forall_forall in H. now apply M2, H.
    - apply lift_bind in H as [(m & Hm & H)|(e & _ & [=] & _)]. apply lastm_In in Hm. injection H as <- <-. intros pv I.
      apply in_map_iff in I as (k & <- & _). now apply M2.
  Qed.

  Lemma packages_mech pname pk l s out s' : l <> [] -> get_prop_packages cls pname pk (Some l) s = (Ok out, s') ->
    (forall pv, In pv out -> In (pv_mname pv) l) /\ exists d, dget Z.eqb (pc_props cls) pname = Some d /\ forall m, In m l -> In m (pd_mnames d).
  Proof.
    intros Hl H. unfold get_prop_packages in H. apply lift_bind in H as [(p & _ & H)|(e & _ & [=] & _)].
    apply lift_bind in H as [(ms & Hms & H)|(e & _ & [=] & _)]. destruct (norm_mechs _ _ _ _ Hms Hl) as (M1 & M2 & M3). split; [|exact M3].
    apply lift_bind in H as [(cs & _ & H)|(e & _ & [=] & _)]. destruct cs as [|c cs]; [injection H as <- <-; intros pv []|].
    unfold mbind at 1 in H. destruct (try_set_sname cls pname s) as ([[|]|e], s1); [| |discriminate H]; cbn [negb] in H.
    - unfold mbind at 1 in H. unfold gets in H. cbn beta iota in H.
      apply lift_bind in H as [(u & _ & H)|(e & _ & [=] & _)]. unfold mbind at 1 in H.
      match type of H with context [match ?x with _ => _ end] => destruct x as ([[]|e], s2) eqn:Ef end; [|discriminate H].
      apply pv_get_mech in H; [|exact M1]. intros pv I. rewrite Forall_forall in H. now apply M2, H.
    - apply lift_bind in H as [(m & Hm & H)|(e & _ & [=] & _)]. apply lastm_In in Hm. injection H as <- <-. intros pv I.
      cbn [map] in I. destruct I as [<-|I]; [now apply M2|]. apply in_map_iff in I as (k & <- & _). now apply M2.
  Qed.

  Lemma sname_mech l pname ov s items s' : l <> [] -> get_prop_sname cls (Some l) pname ov s = (Ok items, s') ->
    (forall k v m, In (k, v, m) items -> In m l) /\ exists d, dget Z.eqb (pc_props cls) pname = Some d /\ forall m, In m l -> In m (pd_mnames d).
  Proof.
    intros Hl H. unfold get_prop_sname in H. unfold mbind at 1 in H.
    match type of H with context [match ?x with _ => _ end] => destruct x as ([sn|e], s1) end; [|discriminate H].
    unfold mbind at 1 in H. destruct (on_target (sname_and_nums (pc_ci cls) sn) s1) as ([w|e], s2); [|discriminate H].
    destruct w as [cs|ds|ps]; unfold mbind, on_props in H.
    - destruct (get_prop_cpus cls pname (Some cs) (Some l) (fst s2)) as ([out|e], s3) eqn:E; [|discriminate H]. injection H as <- <-.
      destruct (cpus_mech _ _ _ _ _ _ Hl E) as (A & B). split; [|exact B]. intros k v m I. apply in_map_iff in I as (pv & Ei & I). injection Ei as _ _ <-. now apply A.
    - destruct (get_prop_dies cls pname (Some (dies_dict ds)) (Some l) (fst s2)) as ([out|e], s3) eqn:E; [|discriminate H]. injection H as <- <-.
      destruct (dies_mech _ _ _ _ _ _ Hl E) as (A & B). split; [|exact B]. intros k v m I. apply in_map_iff in I as (pv & Ei & I). injection Ei as _ _ <-. now apply A.
    - destruct (get_prop_packages cls pname (Some ps) (Some l) (fst s2)) as ([out|e], s3) eqn:E; [|discriminate H]. injection H as <- <-.
      destruct (packages_mech _ _ _ _ _ _ Hl E) as (A & B). split; [|exact B]. intros k v m I. apply in_map_iff in I as (pv & Ei & I). injection Ei as _ _ <-. now apply A.
  Qed.

  Lemma reading_mech l names s rl s' : l <> [] -> reading (get_prop_sname cls (Some l)) (pc_props cls) false names s rl s' ->
    (forall m p v k, was_read rl m p v k -> In m l) /\
    forall p, In p names -> exists d, dget Z.eqb (pc_props cls) p = Some d /\ forall m, In m l -> In m (pd_mnames d).
  Proof.
    intros Hl R. induction R as [s|p d rest s rl s' Hro Hd Hw _ IH|p d rest s items s1 rl s' Hd Hw Hr _ (IH1 & IH2)|p d rest s s1 items s2 rl s' Hd Hw Hr1 Hr2 _ (IH1 & IH2)].
    - split; [intros m p v k (items & [] & _)|intros p []].
    - discriminate Hro.
    - destruct (sname_mech _ _ _ _ _ _ Hl Hr) as (A & B). split.
      + intros m q v k (it & [E|I] & J); [injection E as <- <-; now apply (A k v)|apply (IH1 m q v k); now exists it].
      + intros q [<-|I]; [exact B|now apply IH2].
    - destruct (sname_mech _ _ _ _ _ _ Hl Hr2) as (A & B). split.
      + intros m q v k (it & [E|I] & J); [injection E as <- <-; now apply (A k v)|apply (IH1 m q v k); now exists it].
      + intros q [<-|I]; [exact B|now apply IH2].
  Qed.
End Read.
