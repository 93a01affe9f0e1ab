(** Lemmas for C70: the features of the devices. *)
From Coq Require Import Permutation ZifyBool.
From Verif Require Import Base L_Base M_Text L_Text M_Tpmi M_TpmiSpec S_TpmiSpec L_TpmiSpec L_TpmiSpec2 L_TpmiSpec3.

Section Devices.
  Variable f2n : list (Z * str).

  Definition pairs (paths : list (Z * list Z)) : list (Z * Z) := flat_map (fun p => map (pair (fst p)) (snd p)) paths.
  Definition step (st : list (str * list Z) * list Z) (af : Z * Z) := add_fid f2n (fst af) st (snd af).

  Lemma fold_ids a ids : forall st, fold_left (add_fid f2n a) ids st = fold_left step (map (pair a) ids) st.
  Proof. induction ids as [|i ids IH]; intros st; cbn; [reflexivity|]. apply IH. Qed.

  Lemma scan_pairs : forall paths st, fold_left (fun st p => fold_left (add_fid f2n (fst p)) (snd p) st) paths st = fold_left step (pairs paths) st.
  Proof.
    induction paths as [|(a & ids) paths IH]; intros st; cbn [fold_left]; [reflexivity|]. rewrite IH. unfold pairs. cbn [flat_map].
    rewrite fold_left_app, <- fold_ids. reflexivity.
  Qed.

  Definition of (l : list (Z * Z)) (n : str) (a : Z) : Prop := exists i, In (a, i) l /\ dget Z.eqb f2n i = Some n.

  Definition dst (l : list (Z * Z)) (st : list (str * list Z) * list Z) : Prop :=
    NoDup (map fst (fst st)) /\
    (forall n, n <> [] -> match dget str_eqb (fst st) n with
                          | Some addrs => addrs <> [] /\ forall a, In a addrs <-> of l n a
                          | None => forall a, ~ of l n a end) /\
    dget str_eqb (fst st) [] = None /\
    (forall i, In i (snd st) <-> (exists a, In (a, i) l) /\ forall n, n <> [] -> dget Z.eqb f2n i <> Some n).

  Lemma of_snoc l n a b i : of (l ++ [(b, i)]) n a <-> of l n a \/ (a = b /\ dget Z.eqb f2n i = Some n).
  Proof.
    unfold of. split.
    - intros (j & H & E). apply in_app_iff in H. destruct H as [H|[H|[]]]; [left; eauto|injection H as <- <-; auto].
    - intros [(j & H & E)|(-> & E)]; [exists j|exists i]; rewrite in_app_iff; (split; [|exact E]); [left; exact H|right; left; reflexivity].
  Qed.

  Lemma dst_step l st a i : dst l st -> dst (l ++ [(a, i)]) (step st (a, i)).
  Proof.
    destruct st as (fa & un). intros (ND & A & E0 & U). cbn [fst snd] in *. unfold step, add_fid. cbn [fst snd].
    destruct (dget Z.eqb f2n i) as [[|ch fname']|] eqn:Ei.
    - split; [exact ND|]. split; [|split; [exact E0|]]; cbn [fst snd].
      + intros n Hn. specialize (A n Hn). destruct (dget str_eqb fa n) as [addrs|].
        * destruct A as (NE & A). split; [exact NE|]. intros b. rewrite of_snoc, A. split; [auto|intros [H|(_ & H)]; [exact H|congruence]].
        * intros b Hb. apply of_snoc in Hb. destruct Hb as [Hb|(_ & Hb)]; [exact (A b Hb)|congruence].
      + intros j. rewrite in_app_iff, U. split.
        * intros [((b & H) & N)|[<-|[]]]; [split; [exists b; rewrite in_app_iff; left; exact H|exact N]|].
          split; [exists a; rewrite in_app_iff; right; left; reflexivity|]. intros n Hn. congruence.
        * intros ((b & H) & N). apply in_app_iff in H. destruct H as [H|[H|[]]]; [left; eauto|injection H as <- <-; right; left; reflexivity].
    - set (fname := ch :: fname') in *. assert (Hf : fname <> []) by discriminate.
      assert (Un : forall j, In j un <-> (exists b, In (b, j) (l ++ [(a, i)])) /\ forall n, n <> [] -> dget Z.eqb f2n j <> Some n).
      { intros j. rewrite U. split.
        - intros ((b & H) & N). split; [exists b; rewrite in_app_iff; left; exact H|exact N].
        - intros ((b & H) & N). apply in_app_iff in H. destruct H as [H|[H|[]]]; [eauto|]. injection H as <- <-. destruct (N fname Hf Ei). }
      assert (G : forall l0, (forall b, In b l0 <-> of l fname b) -> dst (l ++ [(a, i)]) (dset str_eqb fa fname (l0 ++ [a]), un)).
      { intros l0 H0. split; [apply dset_NoDup; [exact str_eqb_spec|exact ND]|]. cbn [fst snd]. split; [|split; [|exact Un]].
        - intros n Hn. destruct (list_eq_dec Ascii.ascii_dec n fname) as [->|N].
          + rewrite (dget_dset_same str_eqb str_eqb_spec). split; [destruct l0; discriminate|]. intros b. rewrite in_app_iff, of_snoc, H0. split.
            * intros [H|[<-|[]]]; [left; exact H|right; split; [reflexivity|exact Ei]].
            * intros [H|(-> & _)]; [left; exact H|right; left; reflexivity].
          + rewrite (dget_dset_other str_eqb str_eqb_spec) by exact N. specialize (A n Hn). destruct (dget str_eqb fa n) as [addrs|].
            * destruct A as (NE & A). split; [exact NE|]. intros b. rewrite of_snoc, A. split; [auto|intros [H|(_ & H)]; [exact H|congruence]].
            * intros b Hb. apply of_snoc in Hb. destruct Hb as [Hb|(_ & Hb)]; [exact (A b Hb)|congruence].
        - rewrite (dget_dset_other str_eqb str_eqb_spec) by discriminate. exact E0. }
      pose proof (A fname Hf) as Af. destruct (dget str_eqb fa fname) as [addrs|].
      + apply G. exact (proj2 Af).
      + apply (G []). intros b. split; [intros []|exact (Af b)].
    - split; [exact ND|]. split; [|split; [exact E0|]]; cbn [fst snd].
      + intros n Hn. specialize (A n Hn). destruct (dget str_eqb fa n) as [addrs|].
        * destruct A as (NE & A). split; [exact NE|]. intros b. rewrite of_snoc, A. split; [auto|intros [H|(_ & H)]; [exact H|congruence]].
        * intros b Hb. apply of_snoc in Hb. destruct Hb as [Hb|(_ & Hb)]; [exact (A b Hb)|congruence].
      + intros j. rewrite in_app_iff, U. split.
        * intros [((b & H) & N)|[<-|[]]]; [split; [exists b; rewrite in_app_iff; left; exact H|exact N]|].
          split; [exists a; rewrite in_app_iff; right; left; reflexivity|]. intros n Hn. congruence.
        * intros ((b & H) & N). apply in_app_iff in H. destruct H as [H|[H|[]]]; [left; eauto|injection H as <- <-; right; left; reflexivity].
  Qed.

  Lemma dst_nil : dst [] ([], []).
  Proof.
    split; [constructor|]. cbn. split; [intros n _ a (i & [] & _)|]. split; [reflexivity|]. intros i. split; [intros []|intros ((a & []) & _)].
  Qed.

  Lemma dst_all l : dst l (fold_left step l ([], [])).
  Proof.
    induction l as [|(a & i) l IH] using rev_ind; [exact dst_nil|]. rewrite fold_left_app. cbn [fold_left]. apply dst_step. exact IH.
  Qed.

  Lemma scan_devices_ok paths : dst (pairs paths) (scan_devices f2n paths).
  Proof. unfold scan_devices. rewrite scan_pairs. apply dst_all. Qed.
End Devices.

Lemma pairs_has paths a i : In (a, i) (pairs paths) <-> has_id paths a i.
Proof.
  unfold pairs, has_id. rewrite in_flat_map. split.
  - intros ((b & ids) & H & Hi). cbn in Hi. apply in_map_iff in Hi. destruct Hi as (j & E & Hj). injection E as -> ->. exists ids. auto.
  - intros (ids & H & Hi). exists (a, ids). split; [exact H|]. cbn. apply in_map_iff. exists i. auto.
Qed.

(** What 'discover' goes through. *)
Lemma discover_split dirs paths package f : discover dirs paths package = Ok f ->
  exists sd fa un ia fd r, build_sdicts dirs = Ok sd /\ scan_devices (fid2fname sd) paths = (fa, un) /\
    dget str_eqb fa n_tpmi_info = Some ia /\ get_fdict dirs n_tpmi_info = Ok fd /\ rmap (dedup (flat_map snd fa)) (package fd) = Ok r /\
    f = FD sd ((n_tpmi_info, dedup (flat_map snd fa)) ::
               flat_map (fun e => if str_eqb (fst e) n_tpmi_info then [] else [(fst e, once (snd e))]) fa) un.
Proof.
  intros E. unfold discover in E. destruct (build_sdicts dirs) as [sd|e]; cbn [rbind] in E; [|discriminate].
  destruct (scan_devices (fid2fname sd) paths) as (fa & un) eqn:Es. destruct fa as [|y fa]; [discriminate|].
  destruct (dget str_eqb (y :: fa) n_tpmi_info) as [ia|] eqn:Ei; [|discriminate].
  destruct (get_fdict dirs n_tpmi_info) as [fd|e]; cbn [rbind] in E; [|discriminate].
  destruct (rmap (dedup (flat_map snd (y :: fa))) (package fd)) as [r|e] eqn:Er; cbn [rbind] in E; [|discriminate].
  injection E as <-. exists sd, (y :: fa), un, ia, fd, r. auto 10.
Qed.

Section Found.
  Variables (dirs : list specdir) (paths : list (Z * list Z)) (package : list (Z * rdict) -> Z -> res Z) (f : found).
  Hypothesis E : discover dirs paths package = Ok f.
  Hypothesis U : distinct_ids dirs.

  Definition on (n : str) (a : Z) : Prop := exists x, defined dirs n x /\ has_id paths a (sd_fid x).

  Lemma of_on sd : build_sdicts dirs = Ok sd -> forall n a, of (fid2fname sd) (pairs paths) n a <-> on n a.
  Proof.
    intros Eb n a. unfold of, on. split.
    - intros (i & H & G). apply pairs_has in H. apply (f2n_iff dirs sd Eb U) in G. destruct G as (x & D & <-). exists x. auto.
    - intros (x & D & H). exists (sd_fid x). split; [apply pairs_has; exact H|]. apply (f2n_iff dirs sd Eb U). exists x. auto.
  Qed.

  Lemma fmaps_in : forall n addrs, In (n, addrs) (f_fmaps f) ->
    NoDup addrs /\ addrs <> [] /\
    (n <> n_tpmi_info -> forall a, In a addrs <-> on n a) /\ (n = n_tpmi_info -> forall a, In a addrs <-> exists m, on m a) /\
    exists a, on n a.
  Proof.
    intros n addrs H. destruct (discover_split _ _ _ _ E) as (sd & fa & un & ia & fd & r & Eb & Es & Ei & _ & _ & Ef).
    pose proof (scan_devices_ok (fid2fname sd) paths) as D. rewrite Es in D. destruct D as (ND & A & E0 & Un). cbn [fst snd] in *.
    subst f. cbn [f_fmaps] in H. cbn [In] in H. destruct H as [H|H].
    - injection H as <- <-. split; [apply NoDup_dedup|].
      assert (Hin : forall a, In a (dedup (flat_map snd fa)) <-> exists m, on m a).
      { intros a. rewrite dedup_In, in_flat_map. split.
        - intros ((m & l) & Hm & Ha). cbn in Ha. apply (In_dget str_eqb str_eqb_spec) in Hm; [|exact ND].
          assert (Nm : m <> []) by (intros ->; congruence). specialize (A m Nm). rewrite Hm in A. exists m. apply (of_on sd Eb). apply A. exact Ha.
        - intros (m & Hm). assert (Nm : m <> []) by (intros ->; destruct Hm as (x & Dx & _); exact (proj2 U x Dx)).
          apply (of_on sd Eb) in Hm. specialize (A m Nm). destruct (dget str_eqb fa m) as [l|] eqn:G; [|destruct (A a Hm)].
          exists (m, l). split; [apply (dget_In str_eqb str_eqb_spec); exact G|]. apply A. exact Hm. }
      assert (W : exists a, on n_tpmi_info a).
      { specialize (A n_tpmi_info ltac:(discriminate)). rewrite Ei in A. destruct A as (NE & A). destruct ia as [|a ia]; [destruct NE; reflexivity|].
        exists a. apply (of_on sd Eb). apply A. left. reflexivity. }
      split; [|split; [intros X; destruct X; reflexivity|split; [intros _; exact Hin|exact W]]].
      intros X. destruct W as (a & W). assert (Ha : In a (dedup (flat_map snd fa))) by (apply Hin; exists n_tpmi_info; exact W). rewrite X in Ha. destruct Ha.
    - apply in_flat_map in H. destruct H as ((m & l) & Hm & H). cbn [fst snd] in H. destruct (str_eqb m n_tpmi_info) eqn:Em; [destruct H|].
      destruct H as [H|[]]. injection H as <- <-. apply (In_dget str_eqb str_eqb_spec) in Hm; [|exact ND].
      assert (Nm : m <> []) by (intros ->; congruence). specialize (A m Nm). rewrite Hm in A. destruct A as (NE & A).
      assert (Hin : forall a, In a (once l) <-> on m a) by (intros a; unfold once; rewrite dedup_In, A; apply (of_on sd Eb)).
      assert (Nt : m <> n_tpmi_info) by (intros X; apply str_eqb_eq in X; congruence).
      assert (W : exists a, on m a) by (destruct l as [|a l]; [destruct NE; reflexivity|exists a; apply (of_on sd Eb); apply A; left; reflexivity]).
      split; [apply NoDup_dedup|]. split; [|split; [intros _; exact Hin|split; [intros X; contradiction|exact W]]].
      destruct W as (a & W). apply Hin in W. intros X. rewrite X in W. destruct W.
  Qed.

  Lemma fmaps_names : NoDup (map fst (f_fmaps f)).
  Proof.
    destruct (discover_split _ _ _ _ E) as (sd & fa & un & ia & fd & r & Eb & Es & Ei & _ & _ & Ef).
    pose proof (scan_devices_ok (fid2fname sd) paths) as D. rewrite Es in D. destruct D as (ND & _). cbn [fst snd] in *.
    subst f. cbn [f_fmaps map fst]. clear -ND.
    assert (G : forall fa : list (str * list Z), NoDup (map fst fa) ->
      NoDup (map fst (flat_map (fun e => if str_eqb (fst e) n_tpmi_info then [] else [(fst e, once (snd e))]) fa)) /\
      (forall n, In n (map fst (flat_map (fun e => if str_eqb (fst e) n_tpmi_info then [] else [(fst e, once (snd e))]) fa)) -> In n (map fst fa) /\ n <> n_tpmi_info)).
    { induction fa0 as [|(m & l) t IH]; intros H; cbn [flat_map map]; [split; [constructor|intros n []]|]. cbn [map fst] in H. inversion H as [|? ? N H']; subst.
      destruct (IH H') as (I1 & I2). cbn [fst snd]. destruct (str_eqb m n_tpmi_info) eqn:Em; cbn [app].
      - split; [exact I1|]. intros n Hn. destruct (I2 n Hn). split; [right; assumption|assumption].
      - cbn [map fst]. split.
        + constructor; [|exact I1]. intros X. exact (N (proj1 (I2 _ X))).
        + intros n [<-|Hn]; [split; [left; reflexivity|intros X; apply str_eqb_eq in X; congruence]|]. destruct (I2 n Hn). split; [right; assumption|assumption]. }
    destruct (G fa ND) as (G1 & G2). constructor; [|exact G1]. intros X. destruct (G2 _ X) as (_ & X2). apply X2. reflexivity.
  Qed.

  Lemma fmaps_all n a : on n a -> exists addrs, In (n, addrs) (f_fmaps f).
  Proof.
    intros H. destruct (discover_split _ _ _ _ E) as (sd & fa & un & ia & fd & r & Eb & Es & Ei & _ & _ & Ef).
    pose proof (scan_devices_ok (fid2fname sd) paths) as D. rewrite Es in D. destruct D as (ND & A & E0 & Un). cbn [fst snd] in *.
    subst f. cbn [f_fmaps]. assert (Nm : n <> []) by (intros ->; destruct H as (x & Dx & _); exact (proj2 U x Dx)).
    apply (of_on sd Eb) in H. specialize (A n Nm). destruct (dget str_eqb fa n) as [l|] eqn:G; [|destruct (A a H)].
    destruct (str_eqb n n_tpmi_info) eqn:Em.
    - apply str_eqb_eq in Em. subst n. eexists. left. reflexivity.
    - exists (once l). right. apply in_flat_map. exists (n, l). split; [apply (dget_In str_eqb str_eqb_spec); exact G|].
      cbn [fst snd]. rewrite Em. left. reflexivity.
  Qed.

  Lemma sdicts_defined n x : dget str_eqb (f_sdicts f) n = Some x <-> defined dirs n x.
  Proof.
    destruct (discover_split _ _ _ _ E) as (sd & fa & un & ia & fd & r & Eb & _ & _ & _ & _ & Ef). subst f. cbn. apply (scan_l _ _ Eb).
  Qed.

  Lemma known_l : exists l, get_known_features f = Ok l /\ NoDup (map sd_name l) /\
    (forall x, In x l <-> defined dirs (sd_name x) x /\ exists a, has_id paths a (sd_fid x)).
  Proof.
    unfold get_known_features.
    assert (T : exists l, rmap (f_fmaps f) (fun e => match dget str_eqb (f_sdicts f) (fst e) with Some x => Ok x | None => Exn EKey end) = Ok l).
    { apply rmap_total. intros (n & addrs) H. cbn [fst]. destruct (fmaps_in n addrs H) as (_ & _ & _ & _ & a & x & D & _).
      apply sdicts_defined in D. rewrite D. exists x. reflexivity. }
    destruct T as (l & T). exists l. split; [exact T|]. 
    assert (NM : map sd_name l = map fst (f_fmaps f)).
    { revert l T. assert (G : forall m l, rmap m (fun e : str * list Z => match dget str_eqb (f_sdicts f) (fst e) with Some x => Ok x | None => Exn EKey end) = Ok l ->
        map sd_name l = map fst m); [|intros l; apply G].
      induction m as [|(n & addrs) m IH]; intros l T; cbn [rmap] in T; [injection T as <-; reflexivity|]. cbn [fst] in T.
      destruct (dget str_eqb (f_sdicts f) n) as [x|] eqn:G; cbn [rbind] in T; [|discriminate].
      destruct (rmap m _) as [ys|e] eqn:Em in T; cbn [rbind] in T; [|discriminate]. injection T as <-. cbn [map fst]. rewrite (IH _ Em). f_equal.
      apply sdicts_defined in G. destruct G as (k & j & _ & N & _). exact N. }
    split; [rewrite NM; exact fmaps_names|]. intros x. rewrite (rmap_In _ _ _ T). split.
    - intros ((n & addrs) & H & G). cbn [fst] in G. destruct (dget str_eqb (f_sdicts f) n) as [y|] eqn:Gy; [|discriminate]. injection G as ->.
      apply sdicts_defined in Gy. assert (N : sd_name x = n) by (destruct Gy as (k & j & _ & N & _); exact N). rewrite N. split; [exact Gy|].
      destruct (fmaps_in n addrs H) as (_ & _ & _ & _ & a & y & D & Ha). exists a. rewrite (defined_fun _ _ _ _ Gy D). exact Ha.
    - intros (D & a & Ha). destruct (fmaps_all (sd_name x) a) as (addrs & H); [exists x; auto|]. exists (sd_name x, addrs). split; [exact H|].
      cbn [fst]. apply sdicts_defined in D. rewrite D. reflexivity.
  Qed.

  Lemma unknown_l i : In i (get_unknown_features f) <-> (exists a, has_id paths a i) /\ forall n x, defined dirs n x -> sd_fid x <> i.
  Proof.
    destruct (discover_split _ _ _ _ E) as (sd & fa & un & ia & fd & r & Eb & Es & Ei & _ & _ & Ef).
    pose proof (scan_devices_ok (fid2fname sd) paths) as D. rewrite Es in D. destruct D as (_ & _ & _ & Un). cbn [fst snd] in *.
    subst f. unfold get_unknown_features. cbn [f_unknown]. rewrite Un. split.
    - intros ((a & H) & N). split; [exists a; apply pairs_has; exact H|]. intros n x D Ex.
      assert (Nn : n <> []) by (intros ->; exact (proj2 U x D)). apply (N n Nn). apply (f2n_iff dirs sd Eb U). exists x. auto.
    - intros ((a & H) & N). split; [exists a; apply pairs_has; exact H|]. intros n _ G. apply (f2n_iff dirs sd Eb U) in G.
      destruct G as (x & D & Ex). exact (N n x D Ex).
  Qed.
End Found.

Lemma known_features_l : forall dirs paths package f, discover dirs paths package = Ok f -> distinct_ids dirs ->
  exists l, get_known_features f = Ok l /\ NoDup (map sd_name l) /\
    (forall x, In x l <-> defined dirs (sd_name x) x /\ exists a, has_id paths a (sd_fid x)).
Proof. intros dirs paths package f E U. exact (known_l dirs paths package f E U). Qed.

Lemma unknown_features_l : forall dirs paths package f, discover dirs paths package = Ok f -> distinct_ids dirs ->
  forall i, In i (get_unknown_features f) <-> (exists a, has_id paths a i) /\ forall n x, defined dirs n x -> sd_fid x <> i.
Proof. intros dirs paths package f E U. exact (unknown_l dirs paths package f E U). Qed.

Lemma devices_l : forall dirs paths package f, discover dirs paths package = Ok f -> distinct_ids dirs ->
  NoDup (map fst (f_fmaps f)) /\
  (forall n, (exists addrs, In (n, addrs) (f_fmaps f)) <-> exists x a, defined dirs n x /\ has_id paths a (sd_fid x)) /\
  forall n addrs, In (n, addrs) (f_fmaps f) -> NoDup addrs /\
    (n <> s2l "tpmi_info" -> forall a, In a addrs <-> exists x, defined dirs n x /\ has_id paths a (sd_fid x)) /\
    (n = s2l "tpmi_info" -> forall a, In a addrs <-> exists m x, defined dirs m x /\ has_id paths a (sd_fid x)).
Proof.
  intros dirs paths package f E U. split; [exact (fmaps_names dirs paths package f E)|]. split.
  - intros n. split.
    + intros (addrs & H). destruct (fmaps_in dirs paths package f E U n addrs H) as (_ & _ & _ & _ & a & x & D). exists x, a. exact D.
    + intros (x & a & D). apply (fmaps_all dirs paths package f E U n a). exists x. exact D.
  - intros n addrs H. destruct (fmaps_in dirs paths package f E U n addrs H) as (ND & _ & A & B & _). split; [exact ND|]. split; [exact A|exact B].
Qed.

(** The constructor succeeds. *)
Lemma discovers_l : forall dirs paths package fd x a, distinct_ids dirs -> Forall acceptable dirs ->
  defined dirs (s2l "tpmi_info") x -> has_id paths a (sd_fid x) ->
  get_fdict dirs (s2l "tpmi_info") = Ok fd ->
  (forall a, (exists n y, defined dirs n y /\ has_id paths a (sd_fid y)) -> exists p, package fd a = Ok p) ->
  exists f, discover dirs paths package = Ok f.
Proof.
  intros dirs paths package fd x a U F D Ha G P.
  assert (B : exists sd, build_sdicts dirs = Ok sd).
  { apply succeeds_l. split; [exact F|]. destruct D as (k & j & (S & _) & _). exists k, j. eauto. }
  destruct B as (sd & Eb). unfold discover. rewrite Eb. cbn [rbind]. destruct (scan_devices (fid2fname sd) paths) as (fa & un) eqn:Es.
  pose proof (scan_devices_ok (fid2fname sd) paths) as Dv. rewrite Es in Dv. destruct Dv as (ND & A & E0 & _). cbn [fst snd] in *.
  assert (OO : forall n b, of (fid2fname sd) (pairs paths) n b <-> exists y, defined dirs n y /\ has_id paths b (sd_fid y)).
  { intros n b. unfold of. split.
    - intros (i & H & Gi). apply pairs_has in H. apply (f2n_iff dirs sd Eb U) in Gi. destruct Gi as (y & Dy & <-). exists y. auto.
    - intros (y & Dy & H). exists (sd_fid y). split; [apply pairs_has; exact H|]. apply (f2n_iff dirs sd Eb U). exists y. auto. }
  pose proof (A n_tpmi_info ltac:(discriminate)) as Ai. destruct (dget str_eqb fa n_tpmi_info) as [ia|] eqn:Ei.
  2:{ destruct (Ai a). apply OO. exists x. auto. }
  destruct fa as [|y fa]; [discriminate Ei|].
  change (get_fdict dirs n_tpmi_info) with (get_fdict dirs (s2l "tpmi_info")). rewrite G. cbn [rbind].
  destruct (rmap_total (package fd) (dedup (flat_map snd (y :: fa)))) as (r & Er).
  - intros b Hb. apply P. apply (proj1 (dedup_In _ _)) in Hb. apply in_flat_map in Hb. destruct Hb as ((m & l) & Hm & Hb). cbn in Hb.
    apply (In_dget str_eqb str_eqb_spec) in Hm; [|exact ND]. assert (Nm : m <> []) by (intros ->; congruence).
    specialize (A m Nm). rewrite Hm in A. apply A in Hb. apply OO in Hb. exists m. exact Hb.
  - rewrite Er. cbn [rbind]. eexists. reflexivity.
Qed.
