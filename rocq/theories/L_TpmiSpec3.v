(** Lemmas for C70: the order of the files, the feature IDs. *)
From Coq Require Import Permutation ZifyBool.
From Verif Require Import Base L_Base M_Text L_Text M_Tpmi M_TpmiSpec S_TpmiSpec L_TpmiSpec L_TpmiSpec2.

(** ** The order of the files in a directory *)
Lemma census_perm f g : Permutation f g -> forall a b e, census f a b e -> census g a b e.
Proof.
  induction 1 as [|(fn & c) f g P IH|(fn & c) (fn' & c') f|f g h P1 IH1 P2 IH2]; intros a b e C.
  - exact C.
  - inversion C; subst; [apply Ce_other|apply Ce_error|eapply Ce_spec]; eauto.
  - inversion C as [|? ? ? ? ? ? N C1|? ? ? ? ? ? Y X C1|? ? ? ? ? ? ? ? ? Y X C1]; subst;
      inversion C1 as [|? ? ? ? ? ? N2 C2|? ? ? ? ? ? Y2 X2 C2|? ? ? ? ? ? ? ? ? Y2 X2 C2]; subst.
    + apply Ce_other; [exact N2|]. apply Ce_other; assumption.
    + apply Ce_error; [exact Y2|exact X2|]. apply Ce_other; assumption.
    + eapply Ce_spec; [exact Y2|exact X2|]. apply Ce_other; assumption.
    + apply Ce_other; [exact N2|]. apply Ce_error; assumption.
    + apply Ce_error; [exact Y2|exact X2|]. apply Ce_error; assumption.
    + eapply Ce_spec; [exact Y2|exact X2|]. apply Ce_error; assumption.
    + apply Ce_other; [exact N2|]. eapply Ce_spec; eassumption.
    + apply Ce_error; [exact Y2|exact X2|]. eapply Ce_spec; eassumption.
    + eapply Ce_spec; [exact Y2|exact X2|]. eapply Ce_spec; eassumption.
  - auto.
Qed.

Lemma says_in dirs n : (exists k j fn d i, says dirs k j fn n d i) <->
  exists k files fn c d i, nth_error dirs k = Some files /\ In (fn, c) files /\ spec_name fn /\ describes c n d i.
Proof.
  split.
  - intros (k & j & fn & d & i & files & c & A & B & Y & D). apply nth_error_In in B. exists k, files, fn, c, d, i. auto.
  - intros (k & files & fn & c & d & i & A & B & Y & D). apply In_nth_error in B. destruct B as (j & B).
    exists k, j, fn, d, i, files, c. auto.
Qed.

Lemma F2_nth {A B} (R : A -> B -> Prop) l l' : Forall2 R l l' -> forall k,
  (forall x, nth_error l k = Some x -> exists y, nth_error l' k = Some y /\ R x y) /\
  (forall y, nth_error l' k = Some y -> exists x, nth_error l k = Some x /\ R x y).
Proof.
  induction 1 as [|x y l l' H F IH]; intros [|k]; cbn; split; intros z Hz; try discriminate.
  - injection Hz as <-. eauto.
  - injection Hz as <-. eauto.
  - apply (proj1 (IH k)). exact Hz.
  - apply (proj2 (IH k)). exact Hz.
Qed.

Definition definedk (dirs : list specdir) (n : str) (x : sdict) : Prop :=
  exists k files c, nth_error dirs k = Some files /\ In (snd (sd_path x), c) files /\ spec_name (snd (sd_path x)) /\
    describes c n (sd_desc x) (sd_fid x) /\ sd_name x = n /\ fst (sd_path x) = Z.of_nat k /\
    forall k' files' fn' c' d' i', (k < k')%nat -> nth_error dirs k' = Some files' -> In (fn', c') files' -> spec_name fn' ->
      ~ describes c' n d' i'.

Lemma defined_k dirs n x : defined dirs n x -> definedk dirs n x.
Proof.
  intros (k & j & ((files & c & A & B & Y & D) & L) & N & P). exists k, files, c. split; [exact A|].
  split; [exact (nth_error_In _ _ B)|]. do 4 (split; [assumption|]). intros k' files' fn' c' d' i' Hk A' B' Y' D'.
  apply In_nth_error in B'. destruct B' as (j' & B'). apply (L k' j' fn' d' i' (or_introl Hk)). exists files', c'. auto.
Qed.

Lemma definedk_fun dirs n x y : no_twins dirs -> definedk dirs n x -> definedk dirs n y -> x = y.
Proof.
  intros T (k & f1 & c1 & A1 & B1 & Y1 & D1 & N1 & P1 & L1) (k' & f2 & c2 & A2 & B2 & Y2 & D2 & N2 & P2 & L2).
  assert (k = k').
  { destruct (Nat.lt_trichotomy k k') as [H|[H|H]]; [|exact H|].
    - destruct (L1 _ _ _ _ _ _ H A2 B2 Y2 D2).
    - destruct (L2 _ _ _ _ _ _ H A1 B1 Y1 D1). }
  subst k'. rewrite A1 in A2. injection A2 as <-. apply In_nth_error in B1. destruct B1 as (j1 & B1).
  apply In_nth_error in B2. destruct B2 as (j2 & B2).
  assert (j1 = j2).
  { apply (T k j1 j2 (snd (sd_path x)) (snd (sd_path y)) n (sd_desc x) (sd_desc y) (sd_fid x) (sd_fid y)); [exists f1, c1|exists f1, c2]; auto. }
  subst j2. rewrite B1 in B2. injection B2 as E <-. destruct (describes_fun _ _ _ _ _ _ _ D1 D2) as (_ & Ed & Ei).
  destruct x as [a b c [p q]], y as [a' b' c' [p' q']]. cbn in *. subst. reflexivity.
Qed.

Lemma definedk_perm dirs dirs' n x : Forall2 (@Permutation _) dirs dirs' -> definedk dirs' n x -> definedk dirs n x.
Proof.
  intros F (k & f1 & c1 & A1 & B1 & Y1 & D1 & N1 & P1 & L1). destruct (proj2 (F2_nth _ _ _ F k) _ A1) as (f & A & P).
  exists k, f, c1. split; [exact A|]. split; [eapply Permutation_in; [apply Permutation_sym, P|exact B1]|]. do 4 (split; [assumption|]).
  intros k' f' fn' c' d' i' Hk A' B' Y' D'. destruct (proj1 (F2_nth _ _ _ F k') _ A') as (f2 & A2 & P2).
  refine (L1 k' f2 fn' c' d' i' Hk A2 _ Y' D'). eapply Permutation_in; [exact P2|exact B'].
Qed.

Lemma says_perm dirs dirs' n : Forall2 (@Permutation _) dirs dirs' ->
  (exists k j fn d i, says dirs k j fn n d i) -> exists k j fn d i, says dirs' k j fn n d i.
Proof.
  intros F H. apply says_in. apply says_in in H. destruct H as (k & f & fn & c & d & i & A & B & Y & D).
  destruct (proj1 (F2_nth _ _ _ F k) _ A) as (f' & A' & P). exists k, f', fn, c, d, i. split; [exact A'|].
  split; [eapply Permutation_in; eassumption|]. auto.
Qed.

Lemma F2_sym dirs dirs' : Forall2 (@Permutation (str * content)) dirs dirs' -> Forall2 (@Permutation _) dirs' dirs.
Proof. induction 1; constructor; [apply Permutation_sym; assumption|assumption]. Qed.

Lemma says_defined dirs sd n : build_sdicts dirs = Ok sd -> (exists k j fn d i, says dirs k j fn n d i) -> exists x, dget str_eqb sd n = Some x.
Proof.
  intros E (k & j & fn & d & i & S). apply build_split in E. destruct E as (E & _). apply scan_dirs_ok in E. destruct E as (-> & _).
  rewrite dget_put. pose proof (last_dirs_run n dirs 0) as R. destruct (last_named (all_goods 0 dirs) n) as [y|]; [exists y; reflexivity|].
  destruct (R _ _ _ _ _ S).
Qed.

Lemma order_l : forall dirs dirs' sd, Forall2 (@Permutation _) dirs dirs' -> no_twins dirs -> build_sdicts dirs = Ok sd ->
  exists sd', build_sdicts dirs' = Ok sd' /\ forall n, dget str_eqb sd' n = dget str_eqb sd n.
Proof.
  intros dirs dirs' sd F T E.
  assert (X : exists sd', build_sdicts dirs' = Ok sd').
  { apply succeeds_l. assert (G : exists sd, build_sdicts dirs = Ok sd) by (exists sd; exact E). apply succeeds_l in G.
    destruct G as (A & k & j & fn & n & d & i & S). split.
    - clear -F A. induction F as [|f g dirs dirs' P F IH]; [constructor|]. inversion A as [|? ? (a & b & e & C & B) A']; subst.
      constructor; [|apply IH; exact A']. exists a, b, e. split; [exact (census_perm _ _ P _ _ _ C)|exact B].
    - destruct (says_perm dirs dirs' n F) as (k' & j' & fn' & d' & i' & S'); [exists k, j, fn, d, i; exact S|]. exists k', j', fn', n, d', i'. exact S'. }
  destruct X as (sd' & E'). exists sd'. split; [exact E'|]. intros n.
  destruct (dget str_eqb sd n) as [x|] eqn:G.
  - apply (scan_l _ _ E) in G. assert (Sy : exists k j fn d i, says dirs' k j fn n d i).
    { apply (says_perm dirs dirs' n F). destruct G as (k & j & (S & _) & _). exists k, j. eauto. }
    destruct (says_defined _ _ _ E' Sy) as (y & Gy). rewrite Gy. f_equal. apply (scan_l _ _ E') in Gy.
    apply (definedk_fun dirs n); [exact T| |apply defined_k; exact G]. apply (definedk_perm dirs dirs'); [exact F|apply defined_k; exact Gy].
  - destruct (dget str_eqb sd' n) as [y|] eqn:Gy; [|reflexivity]. apply (scan_l _ _ E') in Gy.
    assert (Sy : exists k j fn d i, says dirs k j fn n d i).
    { apply (says_perm dirs' dirs n (F2_sym _ _ F)). destruct Gy as (k & j & (S & _) & _). exists k, j. eauto. }
    destruct (says_defined _ _ _ E Sy) as (x & Gx). congruence.
Qed.

(** ** The IDs *)
Lemma put_nodup l : forall sd, NoDup (map fst sd) -> NoDup (map fst (fold_left put l sd)).
Proof.
  induction l as [|x l IH]; intros sd H; cbn [fold_left]; [exact H|]. apply IH. apply dset_NoDup; [exact str_eqb_spec|exact H].
Qed.

Lemma build_nodup dirs sd : build_sdicts dirs = Ok sd -> NoDup (map fst sd).
Proof.
  intros E. apply build_split in E. destruct E as (E & _). apply scan_dirs_ok in E. destruct E as (-> & _). apply put_nodup. constructor.
Qed.

Lemma f2n_fold (l : list (str * sdict)) : forall (acc : list (Z * str)) i,
  match dget Z.eqb (fold_left (fun acc e => dset Z.eqb acc (sd_fid (snd e)) (fst e)) l acc) i with
  | Some n => (exists x, In (n, x) l /\ sd_fid x = i) \/ (dget Z.eqb acc i = Some n /\ forall n' x, In (n', x) l -> sd_fid x <> i)
  | None => dget Z.eqb acc i = None /\ forall n x, In (n, x) l -> sd_fid x <> i
  end.
Proof.
  induction l as [|(m & y) l IH]; intros acc i; cbn [fold_left].
  - destruct (dget Z.eqb acc i); [right|]; (split; [reflexivity|intros ? ? []]).
  - cbn [fst snd]. specialize (IH (dset Z.eqb acc (sd_fid y) m) i).
    destruct (dget Z.eqb (fold_left _ l (dset Z.eqb acc (sd_fid y) m)) i) as [n|].
    + destruct IH as [(x & Hx & Ex)|(D & N)]; [left; exists x; split; [right; exact Hx|exact Ex]|].
      destruct (Z.eq_dec (sd_fid y) i) as [Ey|Ny].
      * rewrite Ey, (dget_dset_same Z.eqb Zeqb_spec) in D. injection D as <-. left. exists y. split; [left; reflexivity|exact Ey].
      * rewrite (dget_dset_other Z.eqb Zeqb_spec) in D by congruence. right. split; [exact D|].
        intros n' x [H|H]; [injection H as <- <-; exact Ny|exact (N n' x H)].
    + destruct IH as (D & N). destruct (Z.eq_dec (sd_fid y) i) as [Ey|Ny].
      * rewrite Ey, (dget_dset_same Z.eqb Zeqb_spec) in D. discriminate.
      * rewrite (dget_dset_other Z.eqb Zeqb_spec) in D by congruence. split; [exact D|].
        intros n' x [H|H]; [injection H as <- <-; exact Ny|exact (N n' x H)].
Qed.

Lemma f2n_sound sd i n : dget Z.eqb (fid2fname sd) i = Some n -> exists x, In (n, x) sd /\ sd_fid x = i.
Proof.
  intros E. pose proof (f2n_fold sd [] i) as F. unfold fid2fname in E. rewrite E in F. destruct F as [F|(F & _)]; [exact F|discriminate].
Qed.
Lemma f2n_none sd i : dget Z.eqb (fid2fname sd) i = None -> forall n x, In (n, x) sd -> sd_fid x <> i.
Proof. intros E. pose proof (f2n_fold sd [] i) as F. unfold fid2fname in E. rewrite E in F. exact (proj2 F). Qed.

Lemma in_defined dirs sd n x : build_sdicts dirs = Ok sd -> In (n, x) sd <-> defined dirs n x.
Proof.
  intros E. rewrite <- (scan_l _ _ E). split.
  - apply (In_dget str_eqb str_eqb_spec). exact (build_nodup _ _ E).
  - apply (dget_In str_eqb str_eqb_spec).
Qed.

(** With different IDs the table is the relation between the features and their IDs. *)
Lemma f2n_iff dirs sd : build_sdicts dirs = Ok sd -> distinct_ids dirs ->
  forall i n, dget Z.eqb (fid2fname sd) i = Some n <-> exists x, defined dirs n x /\ sd_fid x = i.
Proof.
  intros E (U & _) i n. split.
  - intros G. apply f2n_sound in G. destruct G as (x & Hx & Ei). exists x. split; [apply (in_defined _ _ _ _ E); exact Hx|exact Ei].
  - intros (x & D & Ei). destruct (dget Z.eqb (fid2fname sd) i) as [m|] eqn:G.
    + apply f2n_sound in G. destruct G as (y & Hy & Ey). f_equal. apply (U m n y x); [apply (in_defined _ _ _ _ E); exact Hy|exact D|congruence].
    + destruct (f2n_none sd i G n x); [apply (in_defined _ _ _ _ E); exact D|exact Ei].
Qed.

Lemma ids_l : forall dirs sd, build_sdicts dirs = Ok sd -> distinct_ids dirs ->
  forall i n, dget Z.eqb (fid2fname sd) i = Some n <-> exists x, defined dirs n x /\ sd_fid x = i.
Proof. exact f2n_iff. Qed.
