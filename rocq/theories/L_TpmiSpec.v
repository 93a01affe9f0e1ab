(** Lemmas for C70: reading one spec file. *)
From Coq Require Import Permutation ZifyBool.
From Verif Require Import Base L_Base M_Text L_Text M_Tpmi M_TpmiSpec S_TpmiSpec.

Definition okkv (kv : str * yval) : Prop :=
  In (fst kv) header_keys /\ exists t, snd kv = YScalar t /\ (fst kv = s2l "feature-id" -> exists i, str_to_int t = Ok i).

Record hst (pre : list (str * yval)) (h : header) : Prop := {
  hs_name : forall n, h_name h = Some n <-> In (k_name, YScalar n) pre;
  hs_desc : forall n, h_desc h = Some n <-> In (k_desc, YScalar n) pre;
  hs_fid : forall i, h_fid h = Some i <-> exists t, In (k_fid, YScalar t) pre /\ str_to_int t = Ok i;
  hs_nd : NoDup (map fst pre);
  hs_ok : Forall okkv pre }.

Lemma hst_nil : hst [] (HD None None None).
Proof.
  constructor; cbn.
  - intros n. split; [discriminate|intros []].
  - intros n. split; [discriminate|intros []].
  - intros i. split; [discriminate|]. intros (t & [] & _).
  - constructor.
  - constructor.
Qed.

Lemma key_none_name pre h : hst pre h -> h_name h = None <-> ~ In k_name (map fst pre).
Proof.
  intros H. split.
  - intros E Hin. apply in_map_iff in Hin. destruct Hin as ((k & v) & Ek & Hin). cbn in Ek. subst k.
    pose proof (hs_ok _ _ H) as O. rewrite Forall_forall in O. destruct (O _ Hin) as (_ & t & Et & _). cbn in Et. subst v.
    apply (hs_name _ _ H) in Hin. congruence.
  - intros N. destruct (h_name h) as [n|] eqn:E; [|reflexivity]. apply (hs_name _ _ H) in E. destruct N.
    apply in_map_iff. exists (k_name, YScalar n). split; [reflexivity|exact E].
Qed.
Lemma key_none_desc pre h : hst pre h -> h_desc h = None <-> ~ In k_desc (map fst pre).
Proof.
  intros H. split.
  - intros E Hin. apply in_map_iff in Hin. destruct Hin as ((k & v) & Ek & Hin). cbn in Ek. subst k.
    pose proof (hs_ok _ _ H) as O. rewrite Forall_forall in O. destruct (O _ Hin) as (_ & t & Et & _). cbn in Et. subst v.
    apply (hs_desc _ _ H) in Hin. congruence.
  - intros N. destruct (h_desc h) as [n|] eqn:E; [|reflexivity]. apply (hs_desc _ _ H) in E. destruct N.
    apply in_map_iff. exists (k_desc, YScalar n). split; [reflexivity|exact E].
Qed.
Lemma key_none_fid pre h : hst pre h -> h_fid h = None <-> ~ In k_fid (map fst pre).
Proof.
  intros H. split.
  - intros E Hin. apply in_map_iff in Hin. destruct Hin as ((k & v) & Ek & Hin). cbn in Ek. subst k.
    pose proof (hs_ok _ _ H) as O. rewrite Forall_forall in O. destruct (O _ Hin) as (_ & t & Et & Hi). cbn in Et. subst v.
    destruct (Hi eq_refl) as (i & Ei). assert (X : h_fid h = Some i) by (apply (hs_fid _ _ H); exists t; split; assumption). congruence.
  - intros N. destruct (h_fid h) as [n|] eqn:E; [|reflexivity]. apply (hs_fid _ _ H) in E. destruct E as (t & E & _). destruct N.
    apply in_map_iff. exists (k_fid, YScalar t). split; [reflexivity|exact E].
Qed.

Lemma kneq : k_name <> k_desc /\ k_name <> k_fid /\ k_desc <> k_fid.
Proof. repeat split; discriminate. Qed.

Lemma header_nodup : NoDup header_keys.
Proof. unfold header_keys. repeat constructor; cbn; intuition discriminate. Qed.

Lemma not_full pre h : hst pre h -> (length pre < 3)%nat -> h_name h = None \/ h_desc h = None \/ h_fid h = None.
Proof.
  intros H L. destruct (h_name h) eqn:E1; [|auto]. destruct (h_desc h) eqn:E2; [|auto]. destruct (h_fid h) eqn:E3; [|auto].
  exfalso. assert (X : incl header_keys (map fst pre)).
  { intros k [<-|[<-|[<-|[]]]].
    - apply in_map_iff. exists (k_name, YScalar s). split; [reflexivity|]. apply (hs_name _ _ H). exact E1.
    - apply in_map_iff. exists (k_desc, YScalar s0). split; [reflexivity|]. apply (hs_desc _ _ H). exact E2.
    - apply (hs_fid _ _ H) in E3. destruct E3 as (t & E3 & _).
      apply in_map_iff. exists (k_fid, YScalar t). split; [reflexivity|exact E3]. }
  apply (NoDup_incl_length header_nodup) in X. rewrite map_length in X. cbn in X. lia.
Qed.

Lemma full_keys pre h : hst pre h -> length pre = 3%nat -> incl header_keys (map fst pre).
Proof.
  intros H L. apply NoDup_length_incl; [exact (hs_nd _ _ H)|rewrite map_length, L; cbn; lia|].
  intros k Hk. apply in_map_iff in Hk. destruct Hk as (kv & <- & Hk). pose proof (hs_ok _ _ H) as O. rewrite Forall_forall in O.
  exact (proj1 (O _ Hk)).
Qed.

Lemma head_step h kvs : h_name h = None \/ h_desc h = None \/ h_fid h = None ->
  head_loop h kvs =
  match kvs with
      | [] => Exn EIndex
      | (key, v) :: t =>
          if str_eqb key k_name then
            match h_name h, v with
            | Some _, _ => Exn EError
            | None, YRegs _ => Exn EIndex
            | None, YScalar x => head_loop (HD (Some x) (h_desc h) (h_fid h)) t
            end
          else if str_eqb key k_desc then
            match h_desc h, v with
            | Some _, _ => Exn EError
            | None, YRegs _ => Exn EIndex
            | None, YScalar x => head_loop (HD (h_name h) (Some x) (h_fid h)) t
            end
          else if str_eqb key k_fid then
            match h_fid h, v with
            | Some _, _ => Exn EError
            | None, YRegs _ => Exn EIndex
            | None, YScalar x => let? i := str_to_int x in head_loop (HD (h_name h) (h_desc h) (Some i)) t
            end
          else Exn EError
      end.
Proof.
  intros H. destruct h as [[n|] [d|] [i|]]; cbn in H; destruct kvs as [|(k & v) t]; try reflexivity; destruct H as [H|[H|H]]; discriminate.
Qed.

Lemma head_full n d i kvs : head_loop (HD (Some n) (Some d) (Some i)) kvs = Ok (n, d, i).
Proof. destruct kvs as [|(? & ?) ?]; reflexivity. Qed.

Lemma nodup_snoc {A} (l : list A) x : NoDup l -> ~ In x l -> NoDup (l ++ [x]).
Proof.
  intros H N. apply NoDup_rev in H. rewrite <- (rev_involutive (l ++ [x])). apply NoDup_rev. rewrite rev_app_distr. cbn.
  constructor; [rewrite <- in_rev; exact N|exact H].
Qed.

Lemma hst_name pre h x : hst pre h -> h_name h = None -> hst (pre ++ [(k_name, YScalar x)]) (HD (Some x) (h_desc h) (h_fid h)).
Proof.
  intros H E. pose proof (proj1 (key_none_name _ _ H) E) as N. constructor; cbn.
  - intros n. rewrite in_app_iff. split.
    + intros [= <-]. right. left. reflexivity.
    + intros [X|[X|[]]]; [|congruence]. destruct N. apply in_map_iff. eexists. split; [|exact X]. reflexivity.
  - intros n. rewrite in_app_iff, (hs_desc _ _ H n). split; [auto|intros [X|[X|[]]]; [exact X|discriminate]].
  - intros i. rewrite (hs_fid _ _ H i). split; intros (t & Ht & Ei); exists t; rewrite ?in_app_iff in *; split; auto.
    destruct Ht as [Ht|[Ht|[]]]; [exact Ht|discriminate].
  - rewrite map_app. apply nodup_snoc; [exact (hs_nd _ _ H)|exact N].
  - apply Forall_app. split; [exact (hs_ok _ _ H)|]. constructor; [|constructor]. split; [left; reflexivity|].
    exists x. split; [reflexivity|intros X; discriminate].
Qed.
Lemma hst_desc pre h x : hst pre h -> h_desc h = None -> hst (pre ++ [(k_desc, YScalar x)]) (HD (h_name h) (Some x) (h_fid h)).
Proof.
  intros H E. pose proof (proj1 (key_none_desc _ _ H) E) as N. constructor; cbn.
  - intros n. rewrite in_app_iff, (hs_name _ _ H n). split; [auto|intros [X|[X|[]]]; [exact X|discriminate]].
  - intros n. rewrite in_app_iff. split.
    + intros [= <-]. right. left. reflexivity.
    + intros [X|[X|[]]]; [|congruence]. destruct N. apply in_map_iff. eexists. split; [|exact X]. reflexivity.
  - intros i. rewrite (hs_fid _ _ H i). split; intros (t & Ht & Ei); exists t; rewrite ?in_app_iff in *; split; auto.
    destruct Ht as [Ht|[Ht|[]]]; [exact Ht|discriminate].
  - rewrite map_app. apply nodup_snoc; [exact (hs_nd _ _ H)|exact N].
  - apply Forall_app. split; [exact (hs_ok _ _ H)|]. constructor; [|constructor]. split; [right; left; reflexivity|].
    exists x. split; [reflexivity|intros X; discriminate].
Qed.
Lemma hst_fid pre h x i : hst pre h -> h_fid h = None -> str_to_int x = Ok i ->
  hst (pre ++ [(k_fid, YScalar x)]) (HD (h_name h) (h_desc h) (Some i)).
Proof.
  intros H E Ei. pose proof (proj1 (key_none_fid _ _ H) E) as N. constructor; cbn.
  - intros n. rewrite in_app_iff, (hs_name _ _ H n). split; [auto|intros [X|[X|[]]]; [exact X|discriminate]].
  - intros n. rewrite in_app_iff, (hs_desc _ _ H n). split; [auto|intros [X|[X|[]]]; [exact X|discriminate]].
  - intros j. split.
    + intros [= <-]. exists x. rewrite in_app_iff. split; [right; left; reflexivity|exact Ei].
    + intros (t & Ht & Et). rewrite in_app_iff in Ht. destruct Ht as [Ht|[Ht|[]]].
      * destruct N. apply in_map_iff. eexists. split; [|exact Ht]. reflexivity.
      * injection Ht as <-. congruence.
  - rewrite map_app. apply nodup_snoc; [exact (hs_nd _ _ H)|exact N].
  - apply Forall_app. split; [exact (hs_ok _ _ H)|]. constructor; [|constructor]. split; [right; right; left; reflexivity|].
    exists x. split; [reflexivity|intros _; exists i; exact Ei].
Qed.

Lemma eqb_refl_str s : str_eqb s s = true.
Proof. apply str_eqb_eq. reflexivity. Qed.

(** The good beginning of a file is read to the end of it. *)
Lemma run_pre : forall pre acc h, hst acc h -> NoDup (map fst (acc ++ pre)) -> Forall okkv pre -> (length (acc ++ pre) <= 3)%nat ->
  exists h', hst (acc ++ pre) h' /\ forall rest, head_loop h (pre ++ rest) = head_loop h' rest.
Proof.
  induction pre as [|(k & v) pre IH]; intros acc h H ND OK L.
  - exists h. rewrite app_nil_r. split; [exact H|reflexivity].
  - inversion OK as [|? ? (Hk & t & Et & Hi) OK']; subst. cbn in Hk, Et, Hi. subst v.
    assert (NF : h_name h = None \/ h_desc h = None \/ h_fid h = None).
    { apply (not_full acc); [exact H|]. rewrite app_length in L. cbn in L. lia. }
    assert (N : ~ In k (map fst acc)).
    { rewrite map_app in ND. cbn in ND. apply NoDup_remove_2 in ND. rewrite in_app_iff in ND. tauto. }
    assert (G : exists h1, hst (acc ++ [(k, YScalar t)]) h1 /\ forall rest, head_loop h ((k, YScalar t) :: rest) = head_loop h1 rest).
    { destruct Hk as [<-|[<-|[<-|[]]]].
      - pose proof (proj2 (key_none_name _ _ H) N) as E. eexists. split; [exact (hst_name _ _ t H E)|]. intros rest.
        rewrite (head_step h _ NF). change (str_eqb (s2l "name") k_name) with true. cbn iota. rewrite E. reflexivity.
      - pose proof (proj2 (key_none_desc _ _ H) N) as E. eexists. split; [exact (hst_desc _ _ t H E)|]. intros rest.
        rewrite (head_step h _ NF). change (str_eqb (s2l "desc") k_name) with false. change (str_eqb (s2l "desc") k_desc) with true.
        cbn iota. rewrite E. reflexivity.
      - pose proof (proj2 (key_none_fid _ _ H) N) as E. destruct (Hi eq_refl) as (i & Ei).
        eexists. split; [exact (hst_fid _ _ t i H E Ei)|]. intros rest.
        rewrite (head_step h _ NF). change (str_eqb (s2l "feature-id") k_name) with false.
        change (str_eqb (s2l "feature-id") k_desc) with false. change (str_eqb (s2l "feature-id") k_fid) with true.
        cbn iota. rewrite E, Ei. reflexivity. }
    destruct G as (h1 & H1 & R1).
    destruct (IH (acc ++ [(k, YScalar t)]) h1 H1) as (h2 & H2 & R2).
    + rewrite <- app_assoc. exact ND.
    + exact OK'.
    + rewrite <- app_assoc. exact L.
    + rewrite <- app_assoc in H2. exists h2. split; [exact H2|]. intros rest. change (((k, YScalar t) :: pre) ++ rest) with ((k, YScalar t) :: (pre ++ rest)).
      rewrite R1. apply R2.
Qed.

Lemma begun_run pre : begun pre -> exists h, hst pre h /\ forall rest, head_loop (HD None None None) (pre ++ rest) = head_loop h rest.
Proof. intros (ND & L & OK). apply (run_pre pre [] _ hst_nil); [exact ND|exact OK|cbn; lia]. Qed.

Lemma describes_run c n d i path : describes c n d i -> load_sdict path c = Ok (SD n d i path).
Proof.
  intros (top & rest & t & -> & P & Ei).
  assert (ND : NoDup (map fst top)).
  { eapply Permutation_NoDup; [apply Permutation_map, Permutation_sym, P|]. exact header_nodup. }
  assert (OK : Forall okkv top).
  { eapply Permutation_Forall; [apply Permutation_sym, P|].
    constructor; [|constructor; [|constructor; [|constructor]]].
    - split; [left; reflexivity|]. exists n. split; [reflexivity|discriminate].
    - split; [right; left; reflexivity|]. exists d. split; [reflexivity|discriminate].
    - split; [right; right; left; reflexivity|]. exists t. split; [reflexivity|intros _; exists i; exact Ei]. }
  assert (L : length top = 3%nat) by (rewrite (Permutation_length P); reflexivity).
  destruct (run_pre top [] _ hst_nil ND OK) as (h & H & R); [cbn; lia|]. cbn in H.
  assert (I : forall kv, In kv top <-> In kv [(s2l "name", YScalar n); (s2l "desc", YScalar d); (s2l "feature-id", YScalar t)]).
  { intros kv. split; apply Permutation_in; [exact P|apply Permutation_sym, P]. }
  assert (Eh : h = HD (Some n) (Some d) (Some i)).
  { destruct h as [hn hd hi]. pose proof (hs_name _ _ H) as A. pose proof (hs_desc _ _ H) as B. pose proof (hs_fid _ _ H) as C.
    cbn in A, B, C. f_equal.
    - apply A, I. left. reflexivity.
    - apply B, I. right. left. reflexivity.
    - apply C. exists t. split; [apply I; right; right; left; reflexivity|exact Ei]. }
  subst h. cbn [load_sdict]. destruct (top ++ rest) as [|x l] eqn:E.
  - destruct top; [discriminate L|discriminate E].
  - rewrite <- E, (R rest), head_full. reflexivity.
Qed.

Lemma load_cons path pre x rest : load_sdict path (CMap (pre ++ x :: rest)) =
  (let? y := head_loop (HD None None None) (pre ++ x :: rest) in let '(n, d, i) := y in Ok (SD n d i path)).
Proof. unfold load_sdict. destruct pre; reflexivity. Qed.

Lemma begun_nf pre h : begun pre -> hst pre h -> h_name h = None \/ h_desc h = None \/ h_fid h = None.
Proof. intros (_ & L & _) H. exact (not_full _ _ H L). Qed.

Lemma erroneous_run c path : erroneous c -> exists e, load_sdict path c = Exn e /\ is_Error e = true.
Proof.
  intros [| |pre k v rest B N|pre k v rest B Hin|pre t rest B N Hi].
  - exists EError. split; reflexivity.
  - exists EError. split; reflexivity.
  - destruct (begun_run _ B) as (h & H & R). exists EError. split; [|reflexivity].
    rewrite load_cons, R, (head_step h _ (begun_nf _ _ B H)).
    destruct (str_eqb k k_name) eqn:E1; [apply str_eqb_eq in E1; subst; destruct N; left; reflexivity|].
    destruct (str_eqb k k_desc) eqn:E2; [apply str_eqb_eq in E2; subst; destruct N; right; left; reflexivity|].
    destruct (str_eqb k k_fid) eqn:E3; [apply str_eqb_eq in E3; subst; destruct N; right; right; left; reflexivity|]. reflexivity.
  - destruct (begun_run _ B) as (h & H & R). exists EError. split; [|reflexivity].
    rewrite load_cons, R, (head_step h _ (begun_nf _ _ B H)).
    destruct (str_eqb k k_name) eqn:E1; [apply str_eqb_eq in E1; subst|].
    { destruct (h_name h) eqn:E; [reflexivity|]. apply (key_none_name _ _ H) in E. contradiction. }
    destruct (str_eqb k k_desc) eqn:E2; [apply str_eqb_eq in E2; subst|].
    { destruct (h_desc h) eqn:E; [reflexivity|]. apply (key_none_desc _ _ H) in E. contradiction. }
    destruct (str_eqb k k_fid) eqn:E3; [apply str_eqb_eq in E3; subst|reflexivity].
    destruct (h_fid h) eqn:E; [reflexivity|]. apply (key_none_fid _ _ H) in E. contradiction.
  - destruct (begun_run _ B) as (h & H & R). exists EBadFormat. split; [|reflexivity].
    rewrite load_cons, R, (head_step h _ (begun_nf _ _ B H)).
    change (str_eqb (s2l "feature-id") k_name) with false.
    change (str_eqb (s2l "feature-id") k_desc) with false. change (str_eqb (s2l "feature-id") k_fid) with true. cbn iota.
    rewrite (proj2 (key_none_fid _ _ H) N). unfold str_to_int in *. destruct (py_int0 t) eqn:E; [destruct (Hi _ eq_refl)|reflexivity].
Qed.

Lemma fatal_run c path : fatal c -> exists e, load_sdict path c = Exn e /\ is_Error e = false.
Proof.
  intros [|pre NE B|pre k l rest B Hk N].
  - exists EValue. split; reflexivity.
  - destruct (begun_run _ B) as (h & H & R). exists EIndex. split; [|reflexivity]. specialize (R []). rewrite app_nil_r in R.
    unfold load_sdict. destruct pre as [|x pre]; [destruct NE; reflexivity|]. rewrite R, (head_step h _ (begun_nf _ _ B H)). reflexivity.
  - destruct (begun_run _ B) as (h & H & R). exists EIndex. split; [|reflexivity].
    rewrite load_cons, R, (head_step h _ (begun_nf _ _ B H)).
    destruct Hk as [<-|[<-|[<-|[]]]].
    + change (str_eqb (s2l "name") k_name) with true. cbn iota. rewrite (proj2 (key_none_name _ _ H) N). reflexivity.
    + change (str_eqb (s2l "desc") k_name) with false. change (str_eqb (s2l "desc") k_desc) with true. cbn iota.
      rewrite (proj2 (key_none_desc _ _ H) N). reflexivity.
    + change (str_eqb (s2l "feature-id") k_name) with false.
      change (str_eqb (s2l "feature-id") k_desc) with false. change (str_eqb (s2l "feature-id") k_fid) with true. cbn iota.
      rewrite (proj2 (key_none_fid _ _ H) N). reflexivity.
Qed.

(** Every file is one of the three kinds. *)
Lemma class_loop : forall kvs pre h, hst pre h -> (length pre <= 3)%nat -> pre ++ kvs <> [] ->
  (exists n d i, describes (CMap (pre ++ kvs)) n d i) \/ erroneous (CMap (pre ++ kvs)) \/ fatal (CMap (pre ++ kvs)).
Proof.
  induction kvs as [|(k & v) kvs IH]; intros pre h H L NE.
  - destruct (Nat.eq_dec (length pre) 3) as [E3|N3].
    + left. pose proof (full_keys _ _ H E3) as F.
      assert (A : exists n, In (k_name, YScalar n) pre).
      { destruct (h_name h) as [n|] eqn:E; [exists n; apply (hs_name _ _ H); exact E|].
        apply (key_none_name _ _ H) in E. destruct E. apply F. left. reflexivity. }
      assert (B : exists n, In (k_desc, YScalar n) pre).
      { destruct (h_desc h) as [n|] eqn:E; [exists n; apply (hs_desc _ _ H); exact E|].
        apply (key_none_desc _ _ H) in E. destruct E. apply F. right. left. reflexivity. }
      assert (C : exists t i, In (k_fid, YScalar t) pre /\ str_to_int t = Ok i).
      { destruct (h_fid h) as [n|] eqn:E; [apply (hs_fid _ _ H) in E; destruct E as (t & E); exists t, n; exact E|].
        apply (key_none_fid _ _ H) in E. destruct E. apply F. right. right. left. reflexivity. }
      destruct A as (n & A), B as (d & B), C as (t & i & C & Ei). exists n, d, i. exists pre, [], t. split; [reflexivity|]. split; [|exact Ei].
      apply Permutation_sym, NoDup_Permutation_bis.
      * repeat constructor; cbn; intuition discriminate.
      * rewrite E3. cbn. lia.
      * intros x [<-|[<-|[<-|[]]]]; assumption.
    + right. right. rewrite app_nil_r in NE |- *. apply F_short; [exact NE|]. split; [exact (hs_nd _ _ H)|]. split; [lia|exact (hs_ok _ _ H)].
  - destruct (Nat.eq_dec (length pre) 3) as [E3|N3].
    + left. pose proof (full_keys _ _ H E3) as F.
      assert (A : exists n, In (k_name, YScalar n) pre).
      { destruct (h_name h) as [n|] eqn:E; [exists n; apply (hs_name _ _ H); exact E|].
        apply (key_none_name _ _ H) in E. destruct E. apply F. left. reflexivity. }
      assert (B : exists n, In (k_desc, YScalar n) pre).
      { destruct (h_desc h) as [n|] eqn:E; [exists n; apply (hs_desc _ _ H); exact E|].
        apply (key_none_desc _ _ H) in E. destruct E. apply F. right. left. reflexivity. }
      assert (C : exists t i, In (k_fid, YScalar t) pre /\ str_to_int t = Ok i).
      { destruct (h_fid h) as [n|] eqn:E; [apply (hs_fid _ _ H) in E; destruct E as (t & E); exists t, n; exact E|].
        apply (key_none_fid _ _ H) in E. destruct E. apply F. right. right. left. reflexivity. }
      destruct A as (n & A), B as (d & B), C as (t & i & C & Ei). exists n, d, i. exists pre, ((k, v) :: kvs), t. split; [reflexivity|]. split; [|exact Ei].
      apply Permutation_sym, NoDup_Permutation_bis.
      * repeat constructor; cbn; intuition discriminate.
      * rewrite E3. cbn. lia.
      * intros x [<-|[<-|[<-|[]]]]; assumption.
    + assert (BG : begun pre) by (split; [exact (hs_nd _ _ H)|split; [lia|exact (hs_ok _ _ H)]]).
      destruct (in_dec (list_eq_dec Ascii.ascii_dec) k header_keys) as [Hk|Hk]; [|right; left; apply E_key; assumption].
      destruct (in_dec (list_eq_dec Ascii.ascii_dec) k (map fst pre)) as [Hp|Hp]; [right; left; apply E_again; assumption|].
      destruct v as [t|l]; [|right; right; apply F_table; assumption].
      assert (G : (exists h', hst (pre ++ [(k, YScalar t)]) h') \/ erroneous (CMap (pre ++ (k, YScalar t) :: kvs))).
      { destruct Hk as [<-|[<-|[<-|[]]]].
        - left. eexists. exact (hst_name _ _ t H (proj2 (key_none_name _ _ H) Hp)).
        - left. eexists. exact (hst_desc _ _ t H (proj2 (key_none_desc _ _ H) Hp)).
        - destruct (str_to_int t) as [i|e] eqn:E.
          + left. eexists. exact (hst_fid _ _ t i H (proj2 (key_none_fid _ _ H) Hp) E).
          + right. apply E_id; [exact BG|exact Hp|]. intros i. rewrite E. discriminate. }
      destruct G as [(h' & H')|G]; [|right; left; exact G].
      specialize (IH _ _ H'). rewrite <- app_assoc in IH. apply IH; [rewrite app_length; cbn; lia|exact NE].
Qed.

Lemma class c : (exists n d i, describes c n d i) \/ erroneous c \/ fatal c.
Proof.
  destruct c as [| |kvs]; [right; left; constructor|right; right; constructor|].
  destruct kvs as [|x kvs]; [right; left; constructor|]. apply (class_loop (x :: kvs) [] _ hst_nil); [cbn; lia|discriminate].
Qed.

Lemma load_ok path c x : load_sdict path c = Ok x -> describes c (sd_name x) (sd_desc x) (sd_fid x) /\ sd_path x = path.
Proof.
  intros E. destruct (class c) as [(n & d & i & H)|[H|H]].
  - rewrite (describes_run c n d i path H) in E. injection E as <-. split; [exact H|reflexivity].
  - destruct (erroneous_run c path H) as (e & E' & _). congruence.
  - destruct (fatal_run c path H) as (e & E' & _). congruence.
Qed.

Lemma load_exn path c e : load_sdict path c = Exn e -> (is_Error e = true /\ erroneous c) \/ (is_Error e = false /\ fatal c).
Proof.
  intros E. destruct (class c) as [(n & d & i & H)|[H|H]].
  - rewrite (describes_run c n d i path H) in E. discriminate.
  - destruct (erroneous_run c path H) as (e' & E' & X). left. split; [congruence|exact H].
  - destruct (fatal_run c path H) as (e' & E' & X). right. split; [congruence|exact H].
Qed.

Lemma describes_fun c n d i n' d' i' : describes c n d i -> describes c n' d' i' -> n = n' /\ d = d' /\ i = i'.
Proof.
  intros A B. pose proof (describes_run c n d i (0, []) A) as E. rewrite (describes_run c n' d' i' (0, []) B) in E.
  injection E as <- <- <-. auto.
Qed.

Lemma file_l : forall c path,
  (forall n d i, describes c n d i <-> load_sdict path c = Ok (SD n d i path)) /\
  (erroneous c <-> exists e, load_sdict path c = Exn e /\ is_Error e = true) /\
  (fatal c <-> exists e, load_sdict path c = Exn e /\ is_Error e = false).
Proof.
  intros c path. split; [|split].
  - intros n d i. split; [apply describes_run|]. intros E. exact (proj1 (load_ok _ _ _ E)).
  - split; [apply erroneous_run|]. intros (e & E & H). destruct (load_exn _ _ _ E) as [(_ & X)|(X & _)]; [exact X|congruence].
  - split; [apply fatal_run|]. intros (e & E & H). destruct (load_exn _ _ _ E) as [(X & _)|(_ & X)]; [congruence|exact X].
Qed.
