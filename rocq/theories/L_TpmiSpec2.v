(** Lemmas for C70: scanning the spec directories. *)
From Coq Require Import Permutation ZifyBool.
From Verif Require Import Base L_Base M_Text L_Text M_Tpmi M_TpmiSpec S_TpmiSpec L_TpmiSpec.

Lemma ends_with_iff sfx s : ends_with sfx s = true <-> exists b, s = b ++ sfx.
Proof.
  unfold ends_with. rewrite str_eqb_eq. split.
  - intros E. exists (firstn (length s - length sfx) s). rewrite <- E at 2. symmetry. apply firstn_skipn.
  - intros (b & ->). rewrite app_length. replace (length b + length sfx - length sfx)%nat with (length b) by lia.
    rewrite skipn_app, skipn_all, Nat.sub_diag. reflexivity.
Qed.

Lemma is_yaml_iff fn : is_yaml fn = true <-> spec_name fn.
Proof.
  unfold is_yaml, spec_name. rewrite Bool.orb_true_iff, !ends_with_iff. split.
  - intros [(b & E)|(b & E)]; exists b; auto.
  - intros (b & [E|E]); [left|right]; exists b; exact E.
Qed.

Lemma not_yaml_iff fn : is_yaml fn = false <-> ~ spec_name fn.
Proof. rewrite <- is_yaml_iff. destruct (is_yaml fn); split; congruence. Qed.

(** The features of the files of a directory, in order. *)
Definition goods (dir : Z) (files : specdir) : list sdict :=
  flat_map (fun f => if is_yaml (fst f) then match load_sdict (dir, fst f) (snd f) with Ok x => [x] | Exn _ => [] end else []) files.
Definition put (sd : list (str * sdict)) (x : sdict) := dset str_eqb sd (sd_name x) x.

Lemma scan_ok : forall files dir cnt non errs sd sd', cnt <= 256 -> non <= 32 -> errs <= 4 ->
  scan_files dir files cnt non errs sd = Ok sd' ->
  sd' = fold_left put (goods dir files) sd /\
  exists a b e, census files a b e /\ non + a <= 32 /\ errs + b <= 4 /\ cnt + e <= 256.
Proof.
  induction files as [|(fn & c) t IH]; intros dir cnt non errs sd sd' Hc Hn He E.
  - cbn in E. injection E as <-. split; [reflexivity|]. exists 0, 0, 0. split; [constructor|]. lia.
  - cbn [scan_files] in E. unfold goods. cbn [flat_map fst snd]. destruct (is_yaml fn) eqn:Y; cbn [negb] in E.
    + destruct (load_sdict (dir, fn) c) as [x|e] eqn:El.
      * destruct (256 <? cnt + 1) eqn:B; [discriminate|]. apply IH in E; try lia. destruct E as (-> & a & b & e & C & B1 & B2 & B3).
        split; [reflexivity|]. exists a, b, (e + 1). split; [|lia].
        destruct (load_ok _ _ _ El) as (D & _). eapply Ce_spec; [apply is_yaml_iff; exact Y|exact D|exact C].
      * destruct (is_Error e) eqn:Ee; [|discriminate]. destruct (4 <? errs + 1) eqn:B; [discriminate|]. apply IH in E; try lia.
        destruct E as (-> & a & b & e' & C & B1 & B2 & B3). split; [reflexivity|]. exists a, (b + 1), e'. split; [|lia].
        destruct (load_exn _ _ _ El) as [(_ & X)|(X & _)]; [|congruence]. apply Ce_error; [apply is_yaml_iff; exact Y|exact X|exact C].
    + destruct (32 <? non + 1) eqn:B; [discriminate|]. apply IH in E; try lia. destruct E as (-> & a & b & e & C & B1 & B2 & B3).
      split; [reflexivity|]. exists (a + 1), b, e. split; [|lia]. apply Ce_other; [apply not_yaml_iff; exact Y|exact C].
Qed.

Lemma census_pos files a b e : census files a b e -> 0 <= a /\ 0 <= b /\ 0 <= e.
Proof. induction 1; lia. Qed.

Lemma scan_live : forall files a b e, census files a b e -> forall dir cnt non errs sd, non + a <= 32 -> errs + b <= 4 -> cnt + e <= 256 ->
  exists sd', scan_files dir files cnt non errs sd = Ok sd'.
Proof.
  induction 1 as [|fn c t a b e N C IH|fn c t a b e Y X C IH|fn c t n d i a b e Y X C IH]; intros dir cnt non errs sd B1 B2 B3;
    cbn [scan_files]; try (pose proof (census_pos _ _ _ _ C)).
  - exists sd. reflexivity.
  - rewrite (proj2 (not_yaml_iff fn) N). cbn [negb]. replace (32 <? non + 1) with false by lia. apply IH; lia.
  - rewrite (proj2 (is_yaml_iff fn) Y). cbn [negb]. destruct (erroneous_run c (dir, fn) X) as (e' & -> & ->).
    replace (4 <? errs + 1) with false by lia. apply IH; lia.
  - rewrite (proj2 (is_yaml_iff fn) Y). cbn [negb]. rewrite (describes_run c n d i (dir, fn) X).
    replace (256 <? cnt + 1) with false by lia. apply IH; lia.
Qed.

Fixpoint all_goods (k : Z) (dirs : list specdir) : list sdict :=
  match dirs with [] => [] | d :: t => goods k d ++ all_goods (k + 1) t end.

Lemma scan_dirs_ok : forall dirs k sd sd', scan_dirs k dirs sd = Ok sd' ->
  sd' = fold_left put (all_goods k dirs) sd /\ Forall acceptable dirs.
Proof.
  induction dirs as [|d t IH]; intros k sd sd' E; cbn [scan_dirs] in E.
  - injection E as <-. split; [reflexivity|constructor].
  - destruct (scan_files k d 0 0 0 sd) as [s1|e] eqn:E1; cbn [rbind] in E; [|discriminate].
    apply scan_ok in E1; try lia. destruct E1 as (-> & a & b & e & C & B). apply IH in E. destruct E as (-> & F). split.
    + cbn [all_goods]. rewrite fold_left_app. reflexivity.
    + constructor; [|exact F]. exists a, b, e. split; [exact C|lia].
Qed.

Lemma scan_dirs_live : forall dirs k sd, Forall acceptable dirs -> exists sd', scan_dirs k dirs sd = Ok sd'.
Proof.
  induction dirs as [|d t IH]; intros k sd F; cbn [scan_dirs].
  - exists sd. reflexivity.
  - inversion F as [|? ? (a & b & e & C & B1 & B2 & B3) F']; subst.
    destruct (scan_live d a b e C k 0 0 0 sd) as (s1 & ->); try lia. cbn [rbind]. apply IH. exact F'.
Qed.

(** The last of a list with the given name. *)
Definition last_named (l : list sdict) (n : str) : option sdict := find (fun x => str_eqb (sd_name x) n) (rev l).

Lemma find_app {A} (f : A -> bool) l1 l2 : find f (l1 ++ l2) = match find f l1 with Some x => Some x | None => find f l2 end.
Proof. induction l1 as [|x l IH]; cbn; [reflexivity|]. destruct (f x); [reflexivity|exact IH]. Qed.

Lemma last_named_app l1 l2 n : last_named (l1 ++ l2) n = match last_named l2 n with Some x => Some x | None => last_named l1 n end.
Proof. unfold last_named. rewrite rev_app_distr. apply find_app. Qed.

Lemma str_spec : forall a b : str, str_eqb a b = true <-> a = b.
Proof. exact str_eqb_eq. Qed.

Lemma dget_put l : forall sd n, dget str_eqb (fold_left put l sd) n =
  match last_named l n with Some x => Some x | None => dget str_eqb sd n end.
Proof.
  induction l as [|x l IH]; intros sd n; cbn [fold_left]; [reflexivity|]. rewrite IH.
  change (x :: l) with ([x] ++ l). rewrite last_named_app. destruct (last_named l n); [reflexivity|].
  unfold last_named, put. cbn [rev app find]. destruct (str_eqb (sd_name x) n) eqn:E.
  - apply str_eqb_eq in E. subst n. apply (dget_dset_same str_eqb str_spec).
  - apply (dget_dset_other str_eqb str_spec). intros ->. rewrite eqb_refl_str in E. discriminate.
Qed.

(** The last file of a directory that describes the feature. *)
Definition last_file (dir : Z) (files : specdir) (n : str) (x : sdict) (j : nat) : Prop :=
  exists fn c, nth_error files j = Some (fn, c) /\ spec_name fn /\ describes c n (sd_desc x) (sd_fid x) /\
    sd_name x = n /\ sd_path x = (dir, fn) /\
    forall j' fn' c' d' i', (j < j')%nat -> nth_error files j' = Some (fn', c') -> spec_name fn' -> ~ describes c' n d' i'.
Definition no_file (files : specdir) (n : str) : Prop :=
  forall j fn c d i, nth_error files j = Some (fn, c) -> spec_name fn -> ~ describes c n d i.

Lemma goods_cons dir fn c t : goods dir ((fn, c) :: t) =
  (if is_yaml fn then match load_sdict (dir, fn) c with Ok x => [x] | Exn _ => [] end else []) ++ goods dir t.
Proof. reflexivity. Qed.

Lemma last_file_run dir n : forall files, match last_named (goods dir files) n with
  | Some x => exists j, last_file dir files n x j | None => no_file files n end.
Proof.
  induction files as [|(fn & c) t IH].
  - cbn. intros j fn c d i H. destruct j; discriminate H.
  - rewrite goods_cons, last_named_app. destruct (last_named (goods dir t) n) as [x|].
    + destruct IH as (j & fn' & c' & H & Y & D & N & P & L). exists (S j), fn', c'. do 5 (split; [assumption|]).
      intros j' fn2 c2 d2 i2 Hj H2. destruct j' as [|j']; [lia|]. apply (L j' fn2 c2 d2 i2); [lia|exact H2].
    + assert (G : forall y, last_named [y] n = Some y \/ last_named [y] n = None /\ sd_name y <> n).
      { intros y. unfold last_named. cbn. destruct (str_eqb (sd_name y) n) eqn:E; [left; reflexivity|right].
        split; [reflexivity|]. intros X. apply str_eqb_eq in X. congruence. }
      destruct (is_yaml fn) eqn:Y.
      * destruct (load_sdict (dir, fn) c) as [x|e] eqn:E.
        -- destruct (load_ok _ _ _ E) as (D & P). destruct (G x) as [Gx|(Gx & Nx)]; rewrite Gx.
           ++ assert (Nx : sd_name x = n).
              { unfold last_named in Gx. cbn in Gx. destruct (str_eqb (sd_name x) n) eqn:Ex; [apply str_eqb_eq; exact Ex|discriminate]. }
              exists 0%nat, fn, c. split; [reflexivity|]. split; [apply is_yaml_iff; exact Y|]. rewrite Nx in D.
              split; [exact D|]. split; [exact Nx|]. split; [exact P|]. intros j' fn2 c2 d2 i2 Hj H2. destruct j' as [|j']; [lia|].
              apply (IH j' fn2 c2 d2 i2 H2).
           ++ intros j fn2 c2 d2 i2 H2 Y2 D2. destruct j as [|j]; [|exact (IH j fn2 c2 d2 i2 H2 Y2 D2)].
              cbn in H2. injection H2 as <- <-. destruct (describes_fun _ _ _ _ _ _ _ D D2) as (X & _). contradiction.
        -- cbn. intros j fn2 c2 d2 i2 H2 Y2 D2. destruct j as [|j]; [|exact (IH j fn2 c2 d2 i2 H2 Y2 D2)].
           cbn in H2. injection H2 as <- <-. rewrite (describes_run _ _ _ _ (dir, fn) D2) in E. discriminate.
      * cbn. intros j fn2 c2 d2 i2 H2 Y2 D2. destruct j as [|j]; [|exact (IH j fn2 c2 d2 i2 H2 Y2 D2)].
        cbn in H2. injection H2 as <- <-. apply not_yaml_iff in Y. contradiction.
Qed.

Definition defined_at (k0 : Z) (dirs : list specdir) (n : str) (x : sdict) : Prop :=
  exists k j, defined_by dirs k j (snd (sd_path x)) n (sd_desc x) (sd_fid x) /\ sd_name x = n /\ fst (sd_path x) = k0 + Z.of_nat k.
Definition undefined (dirs : list specdir) (n : str) : Prop := forall k j fn d i, ~ says dirs k j fn n d i.

Lemma last_dirs_run n : forall dirs k, match last_named (all_goods k dirs) n with
  | Some x => defined_at k dirs n x | None => undefined dirs n end.
Proof.
  induction dirs as [|d t IH]; intros k.
  - cbn. intros k' j fn d i (files & c & H & _). destruct k'; discriminate H.
  - cbn [all_goods]. rewrite last_named_app. specialize (IH (k + 1)). destruct (last_named (all_goods (k + 1) t) n) as [x|].
    + destruct IH as (k1 & j & (Sy & L) & N & P). exists (S k1), j. split; [|split; [exact N|lia]]. split; [exact Sy|].
      intros k2 j2 fn2 d2 i2 Hl. destruct k2 as [|k2]; [destruct Hl; lia|]. apply (L k2 j2 fn2 d2 i2). destruct Hl; [left|right]; lia.
    + pose proof (last_file_run k n d) as F. destruct (last_named (goods k d) n) as [x|].
      * destruct F as (j & fn & c & H & Y & D & N & P & L). exists 0%nat, j. split; [|split; [exact N|rewrite P; cbn; lia]]. split.
        -- exists d, c. rewrite P. split; [reflexivity|]. split; [exact H|]. split; [exact Y|exact D].
        -- intros k2 j2 fn2 d2 i2 Hl S2. destruct k2 as [|k2]; [|exact (IH k2 j2 fn2 d2 i2 S2)].
           destruct S2 as (files & c2 & E2 & H2 & Y2 & D2). cbn in E2. injection E2 as <-. destruct Hl as [Hl|(_ & Hl)]; [lia|].
           exact (L j2 fn2 c2 d2 i2 Hl H2 Y2 D2).
      * intros k2 j2 fn2 d2 i2 S2. destruct k2 as [|k2]; [|exact (IH k2 j2 fn2 d2 i2 S2)].
        destruct S2 as (files & c2 & E2 & H2 & Y2 & D2). cbn in E2. injection E2 as <-. exact (F j2 fn2 c2 d2 i2 H2 Y2 D2).
Qed.

Lemma later_total k j k' j' : later k j k' j' \/ later k' j' k j \/ (k = k' /\ j = j').
Proof. unfold later. lia. Qed.

Lemma defined_fun dirs n x y : defined dirs n x -> defined dirs n y -> x = y.
Proof.
  intros (k & j & (S1 & L1) & N1 & P1) (k' & j' & (S2 & L2) & N2 & P2).
  destruct (later_total k j k' j') as [H|[H|(<- & <-)]].
  - destruct (L1 _ _ _ _ _ H S2).
  - destruct (L2 _ _ _ _ _ H S1).
  - destruct S1 as (f1 & c1 & A1 & B1 & _ & D1), S2 as (f2 & c2 & A2 & B2 & _ & D2).
    rewrite A1 in A2. injection A2 as <-. rewrite B1 in B2. injection B2 as E <-.
    destruct (describes_fun _ _ _ _ _ _ _ D1 D2) as (_ & Ed & Ei). destruct x as [a b c [p q]], y as [a' b' c' [p' q']]. cbn in *. subst. reflexivity.
Qed.

Lemma defined_at0 dirs n x : defined_at 0 dirs n x <-> defined dirs n x.
Proof. unfold defined_at, defined. split; intros (k & j & H); exists k, j; exact H. Qed.

Lemma build_split dirs sd : build_sdicts dirs = Ok sd -> scan_dirs 0 dirs [] = Ok sd /\ sd <> [].
Proof.
  unfold build_sdicts. destruct (scan_dirs 0 dirs []) as [s|e]; cbn [rbind]; [|discriminate]. destruct s; [discriminate|].
  intros [= <-]. split; [reflexivity|discriminate].
Qed.

Lemma scan_l : forall dirs sd, build_sdicts dirs = Ok sd ->
  forall n x, dget str_eqb sd n = Some x <-> defined dirs n x.
Proof.
  intros dirs sd E n x. apply build_split in E. destruct E as (E & _). apply scan_dirs_ok in E. destruct E as (-> & _).
  rewrite dget_put. cbn. pose proof (last_dirs_run n dirs 0) as R. destruct (last_named (all_goods 0 dirs) n) as [y|].
  - apply defined_at0 in R. split; [intros [= <-]; exact R|]. intros D. f_equal. exact (defined_fun _ _ _ _ R D).
  - split; [discriminate|]. intros (k & j & (S & _) & _). destruct (R _ _ _ _ _ S).
Qed.

Lemma succeeds_l : forall dirs, (exists sd, build_sdicts dirs = Ok sd) <->
  Forall acceptable dirs /\ exists k j fn n d i, says dirs k j fn n d i.
Proof.
  intros dirs. split.
  - intros (sd & E). pose proof (scan_l dirs sd E) as S. apply build_split in E. destruct E as (E & NE). apply scan_dirs_ok in E.
    split; [exact (proj2 E)|]. destruct sd as [|(n & x) sd]; [destruct NE; reflexivity|].
    assert (D : defined dirs n x) by (apply S; cbn; rewrite eqb_refl_str; reflexivity).
    destruct D as (k & j & (D & _) & _). exists k, j. eauto.
  - intros (F & k & j & fn & n & d & i & S). destruct (scan_dirs_live dirs 0 [] F) as (sd & E). unfold build_sdicts. rewrite E. cbn [rbind].
    destruct sd as [|y sd]; [|exists (y :: sd); reflexivity]. exfalso. apply scan_dirs_ok in E. destruct E as (E & _).
    pose proof (dget_put (all_goods 0 dirs) [] n) as G. rewrite <- E in G. cbn in G.
    pose proof (last_dirs_run n dirs 0) as R. destruct (last_named (all_goods 0 dirs) n) as [y|]; [discriminate|]. exact (R _ _ _ _ _ S).
Qed.
