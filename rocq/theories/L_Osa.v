(** Lemmas about typo suggestions. *)
From Verif Require Import Base L_Base M_Text S_Text L_Text M_Osa S_Osa.
From Coq Require Import ZifyBool.

(** ** Alignments *)
Lemma aligned_one p q k : piece p q k -> aligned p q k.
Proof.
  intros H. pose proof (A_cons p q k [] [] 0 H A_nil) as A.
  rewrite !app_nil_r, Z.add_0_r in A. exact A.
Qed.

Lemma aligned_app a b n a' b' n' : aligned a b n -> aligned a' b' n' ->
  aligned (a ++ a') (b ++ b') (n + n').
Proof.
  intros H H'. induction H as [|p q k a b n Hp H IH]; [exact H'|].
  rewrite <- !app_assoc, <- Z.add_assoc. now constructor.
Qed.

Lemma aligned_snoc a b n : aligned a b n ->
  (a = [] /\ b = [] /\ n = 0) \/
  exists p q k a' b' n', piece p q k /\ aligned a' b' n' /\ a = a' ++ p /\ b = b' ++ q /\ n = n' + k.
Proof.
  intros H. induction H as [|p q k a b n Hp H IH]; [tauto|]. right.
  destruct IH as [(-> & -> & ->)|(p' & q' & k' & a' & b' & n' & Hp' & H' & -> & -> & ->)].
  - exists p, q, k, [], [], 0. rewrite !app_nil_r. split; [exact Hp|]. split; [constructor|].
    repeat split. lia.
  - exists p', q', k', (p ++ a'), (q ++ b'), (k + n'). split; [exact Hp'|].
    split; [now constructor|]. rewrite !app_assoc. repeat split. lia.
Qed.

Lemma aligned_nonneg a b n : aligned a b n -> 0 <= n.
Proof. intros H. induction H as [|p q k a b n Hp H IH]; [lia|]. inversion Hp; subst; lia. Qed.

Lemma aligned_sym a b n : aligned a b n -> aligned b a n.
Proof.
  intros H. induction H as [|p q k a b n Hp H IH]; [constructor|]. constructor; [|exact IH].
  inversion Hp; subst; constructor.
Qed.

Lemma aligned_zero a b n : aligned a b n -> n = 0 -> a = b.
Proof.
  intros H. induction H as [|p q k a b n Hp H IH]; intros E; [reflexivity|].
  pose proof (aligned_nonneg _ _ _ H). inversion Hp; subst; try lia. cbn. f_equal. apply IH. lia.
Qed.

Lemma aligned_refl a : aligned a a 0.
Proof.
  induction a as [|c a IH]; [constructor|].
  exact (A_cons [c] [c] 0 a a 0 (P_keep c) IH).
Qed.

Lemma is_distance_fun a b d d' : is_distance a b d -> is_distance a b d' -> d = d'.
Proof. intros [H1 H2] [H3 H4]. apply H2 in H3. apply H4 in H1. lia. Qed.

Lemma is_distance_sym a b d : is_distance a b d -> is_distance b a d.
Proof.
  intros [H1 H2]. split; [now apply aligned_sym|]. intros n H. apply H2. now apply aligned_sym.
Qed.

Lemma is_distance_zero a b d : is_distance a b d -> d = 0 <-> a = b.
Proof.
  intros [H1 H2]. split; intros E.
  - eapply aligned_zero; eassumption.
  - subst b. pose proof (H2 0 (aligned_refl a)). pose proof (aligned_nonneg _ _ _ H1). lia.
Qed.

Lemma distance_nil_l b : is_distance [] b (Z.of_nat (length b)).
Proof.
  split.
  - induction b as [|c b IH]; [constructor|]. cbn [length]. rewrite Nat2Z.inj_succ.
    replace (Z.succ (Z.of_nat (length b))) with (1 + Z.of_nat (length b)) by lia.
    exact (A_cons [] [c] 1 [] b _ (P_insert c) IH).
  - intros n H. remember [] as a eqn:E. induction H as [|p q k a b n Hp H IH]; [cbn; lia|].
    apply app_eq_nil in E as [-> ->]. specialize (IH eq_refl). inversion Hp; subst. cbn [app length]. lia.
Qed.

Lemma distance_nil_r a : is_distance a [] (Z.of_nat (length a)).
Proof. apply is_distance_sym, distance_nil_l. Qed.

Definition cost_of (x y : ascii) : Z := if Ascii.eqb x y then 0 else 1.

Lemma cost_piece x y : piece [x] [y] (cost_of x y).
Proof.
  unfold cost_of. destruct (Ascii.eqb x y) eqn:E; [|constructor].
  apply Ascii.eqb_eq in E. subst. constructor.
Qed.

Lemma cost_range x y : 0 <= cost_of x y <= 1.
Proof. unfold cost_of. destruct (Ascii.eqb x y); lia. Qed.

Lemma snoc2_inv {A} (a a' : list A) x c d : a ++ [x] = a' ++ [c; d] -> a = a' ++ [c] /\ x = d.
Proof.
  change [c; d] with ([c] ++ [d]). rewrite app_assoc. intros H. now apply app_inj_tail in H.
Qed.

(** How the last piece can end the two texts. *)
Lemma aligned_last a x b y n : aligned (a ++ [x]) (b ++ [y]) n ->
  (exists n', aligned a (b ++ [y]) n' /\ n = n' + 1) \/
  (exists n', aligned (a ++ [x]) b n' /\ n = n' + 1) \/
  (exists n', aligned a b n' /\ n' + cost_of x y <= n) \/
  (exists a' b' n', a = a' ++ [y] /\ b = b' ++ [x] /\ aligned a' b' n' /\ n = n' + 1).
Proof.
  intros H. apply aligned_snoc in H as [(H & _)|(p & q & k & a' & b' & n' & Hp & H & Ea & Eb & ->)].
  { now apply app_eq_nil in H as [_ H]. }
  inversion Hp; subst.
  - apply app_inj_tail in Ea as [-> ->], Eb as [-> ->]. right. right. left. exists n'.
    split; [exact H|]. unfold cost_of. rewrite Ascii.eqb_refl. lia.
  - apply app_inj_tail in Ea as [-> ->], Eb as [-> ->]. right. right. left. exists n'.
    split; [exact H|]. pose proof (cost_range c d). lia.
  - apply app_inj_tail in Ea as [-> ->]. rewrite app_nil_r in Eb. subst b'. left. eauto.
  - apply app_inj_tail in Eb as [-> ->]. rewrite app_nil_r in Ea. subst a'. right. left. eauto.
  - apply snoc2_inv in Ea as [-> ->], Eb as [-> ->]. right. right. right. exists a', b', n'. auto.
Qed.

Lemma distance_step a x b y dd di ds :
  is_distance a (b ++ [y]) dd -> is_distance (a ++ [x]) b di -> is_distance a b ds ->
  (forall a' b', a = a' ++ [y] -> b = b' ++ [x] -> False) ->
  is_distance (a ++ [x]) (b ++ [y]) (Z.min (Z.min (dd + 1) (di + 1)) (ds + cost_of x y)).
Proof.
  intros [D1 D2] [I1 I2] [S1 S2] Hno. split.
  - destruct (Z.min_spec (Z.min (dd + 1) (di + 1)) (ds + cost_of x y)) as [[_ ->]|[_ ->]].
    + destruct (Z.min_spec (dd + 1) (di + 1)) as [[_ ->]|[_ ->]].
      * rewrite <- (app_nil_r (b ++ [y])). apply aligned_app; [exact D1|]. apply aligned_one. constructor.
      * rewrite <- (app_nil_r (a ++ [x])). apply aligned_app; [exact I1|]. apply aligned_one. constructor.
    + apply aligned_app; [exact S1|]. apply aligned_one, cost_piece.
  - intros n H. apply aligned_last in H as [(n' & H & ->)|[(n' & H & ->)|[(n' & H & Hn)|(a' & b' & n' & Ha & Hb & _)]]].
    + apply D2 in H. lia.
    + apply I2 in H. lia.
    + apply S2 in H. lia.
    + now destruct (Hno a' b').
Qed.

Lemma distance_step_swap a x b y dd di ds dt :
  is_distance (a ++ [y]) ((b ++ [x]) ++ [y]) dd -> is_distance ((a ++ [y]) ++ [x]) (b ++ [x]) di ->
  is_distance (a ++ [y]) (b ++ [x]) ds -> is_distance a b dt ->
  is_distance ((a ++ [y]) ++ [x]) ((b ++ [x]) ++ [y])
    (Z.min (Z.min (Z.min (dd + 1) (di + 1)) (ds + cost_of x y)) (dt + cost_of x y)).
Proof.
  intros [D1 D2] [I1 I2] [S1 S2] [T1 T2]. split.
  - destruct (Z.min_spec (Z.min (Z.min (dd + 1) (di + 1)) (ds + cost_of x y)) (dt + cost_of x y)) as [[_ ->]|[_ ->]].
    + destruct (Z.min_spec (Z.min (dd + 1) (di + 1)) (ds + cost_of x y)) as [[_ ->]|[_ ->]].
      * destruct (Z.min_spec (dd + 1) (di + 1)) as [[_ ->]|[_ ->]].
        -- rewrite <- (app_nil_r ((b ++ [x]) ++ [y])). apply aligned_app; [exact D1|].
           apply aligned_one. constructor.
        -- rewrite <- (app_nil_r ((a ++ [y]) ++ [x])). apply aligned_app; [exact I1|].
           apply aligned_one. constructor.
      * apply aligned_app; [exact S1|]. apply aligned_one, cost_piece.
    + rewrite <- !app_assoc. apply aligned_app; [exact T1|]. unfold cost_of.
      destruct (Ascii.eqb x y) eqn:E.
      * apply Ascii.eqb_eq in E. subst. cbn. apply aligned_refl.
      * apply aligned_one. cbn. constructor.
  - intros n H. apply aligned_last in H as [(n' & H & ->)|[(n' & H & ->)|[(n' & H & Hn)|(a' & b' & n' & Ha & Hb & H & ->)]]].
    + apply D2 in H. lia.
    + apply I2 in H. lia.
    + apply S2 in H. lia.
    + apply app_inj_tail in Ha as [<- _], Hb as [<- _]. apply T2 in H.
      pose proof (cost_range x y). lia.
Qed.

(** ** The matrix *)
Lemma nth_error_upd {A} (l : list A) f : forall i j,
  nth_error (upd l i f) j = if Nat.eqb i j then option_map f (nth_error l j) else nth_error l j.
Proof.
  induction l as [|x l IH]; intros i j.
  - cbn. destruct j; cbn; now destruct (Nat.eqb i _).
  - destruct i as [|i], j as [|j]; cbn; try reflexivity. apply IH.
Qed.

Lemma upd_length {A} (l : list A) f : forall i, length (upd l i f) = length l.
Proof. induction l as [|x l IH]; intros [|i]; cbn; auto. Qed.

Lemma firstn_snoc {A} (l : list A) i c : nth_error l i = Some c -> firstn (S i) l = firstn i l ++ [c].
Proof.
  revert i. induction l as [|x l IH]; intros [|i] H; cbn in H; try discriminate.
  - injection H as ->. reflexivity.
  - change (x :: firstn (S i) l = x :: (firstn i l ++ [c])). now rewrite (IH i H).
Qed.

Section Dist.
  Variables first second : str.
  Let n1 := length first.
  Let n2 := length second.

  Definition rowok (m : matrix) (i len : nat) : Prop :=
    exists row, nth_error m i = Some row /\ length row = len /\
      forall j v, nth_error row j = Some v -> is_distance (firstn i first) (firstn j second) v.

  Definition Inv (m : matrix) (f j : nat) : Prop :=
    forall i, (i <= n1)%nat ->
      rowok m i (if Nat.ltb i f then S n2 else if Nat.eqb i f then j else 1%nat).

  Lemma Inv_init : Inv (init_matrix first second) 1 1.
  Proof.
    intros i Hi. unfold init_matrix. unfold rowok. rewrite nth_error_upd.
    assert (Hn : nth_error (map (fun i0 : nat => [Z.of_nat i0]) (seq 0 (length first + 1))) i = Some [Z.of_nat i]).
    { rewrite nth_error_map, nth_error_nth' with (d := O) by (rewrite seq_length; unfold n1 in *; lia).
      rewrite seq_nth by (unfold n1 in *; lia). reflexivity. }
    rewrite Hn. destruct i as [|i].
    - cbn [Nat.eqb option_map]. eexists. split; [reflexivity|]. rewrite map_length, seq_length.
      split; [cbn; unfold n2 in *; lia|]. intros j v Hj. rewrite nth_error_map in Hj.
      destruct (nth_error (seq 0 (length second + 1)) j) as [k|] eqn:E; [|discriminate].
      injection Hj as <-. assert (j < length second + 1)%nat.
      { rewrite <- (seq_length (length second + 1) 0). apply nth_error_Some. congruence. }
      apply nth_error_nth with (d := O) in E. rewrite seq_nth in E by lia. cbn in E. subst k. cbn [firstn].
      pose proof (distance_nil_l (firstn j second)) as D. rewrite firstn_length_le in D by lia. exact D.
    - change (Nat.eqb 0 (S i)) with false. cbv iota. exists [Z.of_nat (S i)]. split; [reflexivity|]. split.
      + destruct (S i <? 1)%nat eqn:E1; [lia|]. now destruct (S i =? 1)%nat.
      + intros [|j] v Hj; cbn in Hj; [|now destruct j]. injection Hj as <-. cbn [firstn].
        pose proof (distance_nil_r (firstn (S i) first)) as D. rewrite firstn_length_le in D by (unfold n1 in *; lia).
        exact D.
  Qed.

  Lemma cell_ok m i len j : rowok m i len -> (j < len)%nat ->
    exists v, cell m i j = Ok v /\ is_distance (firstn i first) (firstn j second) v.
  Proof.
    intros (row & Hr & Hl & Hv) Hj. unfold cell. rewrite Hr.
    destruct (nth_error row j) as [v|] eqn:E.
    - exists v. split; [reflexivity|]. eauto.
    - apply nth_error_None in E. lia.
  Qed.

  Lemma rowok_append m f j v : (f <= n1)%nat -> Inv m f j ->
    is_distance (firstn f first) (firstn j second) v ->
    Inv (upd m f (fun row => row ++ [v])) f (S j).
  Proof.
    intros Hf HI Hv i Hi. destruct (HI i Hi) as (row & Hr & Hl & Hw).
    unfold rowok. rewrite nth_error_upd, Hr. destruct (Nat.eqb f i) eqn:E.
    - apply Nat.eqb_eq in E. subst i. rewrite Nat.ltb_irrefl, Nat.eqb_refl in *. cbn [option_map].
      eexists. split; [reflexivity|]. rewrite app_length. cbn. split; [lia|].
      intros k w Hk. destruct (Nat.lt_ge_cases k (length row)) as [H|H].
      + rewrite nth_error_app1 in Hk by exact H. eauto.
      + rewrite nth_error_app2 in Hk by exact H.
        destruct (k - length row)%nat as [|z] eqn:Ez; cbn in Hk; [|now destruct z].
        injection Hk as <-. assert (k = j) by lia. now subst k.
    - exists row. split; [reflexivity|]. split; [|exact Hw].
      rewrite Nat.eqb_sym, E in Hl. rewrite Nat.eqb_sym, E. exact Hl.
  Qed.

  Lemma upd_app_last {A} (l : list A) x y : upd (l ++ [x]) (length l) (fun _ => y) = l ++ [y].
  Proof. induction l as [|z l IH]; cbn; [reflexivity|now rewrite IH]. Qed.

  Lemma upd_upd {A} (l : list A) f g : forall i, upd (upd l i f) i g = upd l i (fun x => g (f x)).
  Proof. induction l as [|x l IH]; intros [|i]; cbn; try reflexivity. now rewrite IH. Qed.

  Lemma upd_ext_at {A} (l : list A) f g : forall i,
    (forall x, nth_error l i = Some x -> f x = g x) -> upd l i f = upd l i g.
  Proof.
    induction l as [|x l IH]; intros [|i] H; cbn; try reflexivity.
    - now rewrite (H x eq_refl).
    - f_equal. apply IH. exact H.
  Qed.

  Lemma osa_step_ok m f j : (1 <= f <= n1)%nat -> (1 <= j <= n2)%nat -> Inv m f j ->
    exists m', osa_step first second f m j = Ok m' /\ Inv m' f (S j).
  Proof.
    intros Hf Hj HI. unfold osa_step.
    assert (Hx : exists x, nth_error first (f - 1) = Some x).
    { destruct (nth_error first (f - 1)) eqn:E; [eauto|]. apply nth_error_None in E. unfold n1 in *. lia. }
    assert (Hy : exists y, nth_error second (j - 1) = Some y).
    { destruct (nth_error second (j - 1)) eqn:E; [eauto|]. apply nth_error_None in E. unfold n2 in *. lia. }
    destruct Hx as (x & Hx), Hy as (y & Hy).
    unfold char_at. rewrite Hx, Hy. cbn [rbind].
    assert (R1 : rowok m (f - 1) (S n2)).
    { pose proof (HI (f - 1)%nat ltac:(lia)) as R. destruct (Nat.ltb (f - 1) f) eqn:E; [exact R|lia]. }
    assert (R0 : rowok m f j).
    { pose proof (HI f ltac:(lia)) as R. now rewrite Nat.ltb_irrefl, Nat.eqb_refl in R. }
    destruct (cell_ok _ _ _ j R1 ltac:(lia)) as (dd & Ed & Dd).
    destruct (cell_ok _ _ _ (j - 1)%nat R0 ltac:(lia)) as (di & Ei & Di).
    destruct (cell_ok _ _ _ (j - 1)%nat R1 ltac:(lia)) as (ds & Es & Ds).
    rewrite Ed, Ei, Es. cbn [rbind].
    pose proof (firstn_snoc _ _ _ Hx) as Fx. pose proof (firstn_snoc _ _ _ Hy) as Fy.
    replace (S (f - 1)) with f in Fx by lia. replace (S (j - 1)) with j in Fy by lia.
    fold (cost_of x y).
    set (v := Z.min (Z.min (dd + 1) (di + 1)) (ds + cost_of x y)).
    destruct ((1 <? f)%nat && (1 <? j)%nat) eqn:E12.
    2:{ eexists. split; [reflexivity|]. apply rowok_append; [lia|exact HI|].
        rewrite Fx, Fy. apply distance_step; rewrite <- ?Fx, <- ?Fy; try assumption.
        intros a' b' Ha Hb. assert (L : length (firstn (f - 1) first) = length (a' ++ [y])) by now rewrite Ha.
        assert (L' : length (firstn (j - 1) second) = length (b' ++ [x])) by now rewrite Hb.
        rewrite app_length, firstn_length in L, L'. cbn in L, L'. lia. }
    assert (Hx2 : exists x2, nth_error first (f - 2) = Some x2).
    { destruct (nth_error first (f - 2)) eqn:E; [eauto|]. apply nth_error_None in E. unfold n1 in *. lia. }
    assert (Hy2 : exists y2, nth_error second (j - 2) = Some y2).
    { destruct (nth_error second (j - 2)) eqn:E; [eauto|]. apply nth_error_None in E. unfold n2 in *. lia. }
    destruct Hx2 as (x2 & Hx2), Hy2 as (y2 & Hy2). rewrite Hx2, Hy2. cbn [rbind].
    pose proof (firstn_snoc _ _ _ Hx2) as Fx2. pose proof (firstn_snoc _ _ _ Hy2) as Fy2.
    replace (S (f - 2)) with (f - 1)%nat in Fx2 by lia. replace (S (j - 2)) with (j - 1)%nat in Fy2 by lia.
    destruct (Ascii.eqb x y2 && Ascii.eqb x2 y) eqn:Esw.
    2:{ eexists. split; [reflexivity|]. apply rowok_append; [lia|exact HI|].
        rewrite Fx, Fy. apply distance_step; rewrite <- ?Fx, <- ?Fy; try assumption.
        intros a' b' Ha Hb. rewrite Fx2 in Ha. rewrite Fy2 in Hb.
        apply app_inj_tail in Ha as [_ ->], Hb as [_ ->].
        rewrite !Ascii.eqb_refl in Esw. discriminate. }
    apply andb_prop in Esw as [Ex Ey]. apply Ascii.eqb_eq in Ex, Ey. subst y2 x2.
    assert (R2 : rowok m (f - 2) (S n2)).
    { pose proof (HI (f - 2)%nat ltac:(lia)) as R. destruct (Nat.ltb (f - 2) f) eqn:E; [exact R|lia]. }
    destruct (cell_ok _ _ _ (j - 2)%nat R2 ltac:(lia)) as (dt & Et & Dt).
    set (m1 := upd m f (fun row => row ++ [v])).
    assert (Ec : cell m1 f j = Ok v).
    { destruct R0 as (row & Hr & Hl & _). unfold cell, m1. rewrite nth_error_upd, Nat.eqb_refl, Hr. cbn [option_map].
      rewrite nth_error_app2 by lia. rewrite Hl, Nat.sub_diag. reflexivity. }
    assert (Et' : cell m1 (f - 2) (j - 2) = Ok dt).
    { unfold cell, m1. rewrite nth_error_upd. destruct (Nat.eqb f (f - 2)) eqn:E; [lia|]. exact Et. }
    rewrite Ec, Et'. cbn [rbind]. eexists. split; [reflexivity|].
    unfold m1. rewrite upd_upd.
    rewrite (upd_ext_at _ _ (fun row => row ++ [Z.min v (dt + cost_of x y)])).
    2:{ intros row Hr. destruct R0 as (row' & Hr' & Hl & _). assert (row' = row) by congruence. subst row'.
        rewrite <- Hl. apply upd_app_last. }
    apply rowok_append; [lia|exact HI|]. rewrite Fx, Fy, Fx2, Fy2. unfold v.
    rewrite Fx2 in Dd, Ds. rewrite Fx, Fx2 in Di. rewrite Fy, Fy2 in Dd. rewrite Fy2 in Di, Ds.
    apply distance_step_swap; assumption.
  Qed.

  Lemma osa_row_ok f : (1 <= f <= n1)%nat -> forall k j m, (1 <= j)%nat -> (j + k = S n2)%nat -> Inv m f j ->
    exists m', rfold (osa_step first second f) (seq j k) m = Ok m' /\ Inv m' f (S n2).
  Proof.
    intros Hf. induction k as [|k IH]; intros j m Hj Hk HI.
    - exists m. split; [reflexivity|]. now replace (S n2) with j by lia.
    - cbn [seq rfold]. destruct (osa_step_ok m f j Hf ltac:(lia) HI) as (m1 & E & HI1).
      rewrite E. cbn [rbind]. apply IH; [lia|lia|exact HI1].
  Qed.

  Lemma Inv_next m f : Inv m f (S n2) -> Inv m (S f) 1.
  Proof.
    intros HI i Hi. pose proof (HI i Hi) as R.
    destruct (Nat.ltb i f) eqn:E1, (Nat.ltb i (S f)) eqn:E2; try lia; try exact R.
    - destruct (Nat.eqb i f) eqn:E3; [exact R|lia].
    - destruct (Nat.eqb i f) eqn:E3; [lia|]. destruct (Nat.eqb i (S f)); exact R.
  Qed.

  Lemma osa_rows_ok : forall k f m, (1 <= f)%nat -> (f + k = S n1)%nat -> Inv m f 1 ->
    exists m', rfold (fun m fdx => rfold (osa_step first second fdx) (seq 1 n2) m) (seq f k) m = Ok m' /\
               Inv m' (S n1) 1.
  Proof.
    induction k as [|k IH]; intros f m Hf Hk HI.
    - exists m. split; [reflexivity|]. now replace (S n1) with f by lia.
    - cbn [seq rfold]. destruct (osa_row_ok f ltac:(lia) n2 1 m ltac:(lia) ltac:(lia) HI) as (m1 & E & HI1).
      rewrite E. cbn [rbind]. apply IH; [lia|lia|now apply Inv_next].
  Qed.

  Lemma osa_correct : exists d, osa_distance first second = Ok d /\ is_distance first second d.
  Proof.
    unfold osa_distance. destruct (osa_rows_ok n1 1 _ ltac:(lia) ltac:(lia) Inv_init) as (m & E & HI).
    unfold n1, n2 in E. rewrite E. cbn [rbind]. unfold Inv, n1, n2 in HI. pose proof (HI (length first) ltac:(lia)) as R.
    destruct (Nat.ltb (length first) (S (length first))) eqn:El; [|lia].
    destruct (cell_ok _ _ _ (length second) R ltac:(lia)) as (d & Ec & D).
    rewrite !firstn_all in D. eauto.
  Qed.
End Dist.

Lemma osa_distance_spec a b d : osa_distance a b = Ok d <-> is_distance a b d.
Proof.
  destruct (osa_correct a b) as (d' & E & D). rewrite E. split.
  - now intros [= <-].
  - intros H. f_equal. eapply is_distance_fun; eassumption.
Qed.

Lemma C40_zero_l a b : osa_distance a b = Ok 0 <-> a = b.
Proof.
  destruct (osa_correct a b) as (d & E & D). rewrite E. rewrite <- (is_distance_zero a b d D).
  split; [now intros [= ->]|now intros ->].
Qed.

Lemma C40_symmetric_l a b : osa_distance a b = osa_distance b a.
Proof.
  destruct (osa_correct a b) as (d & E & D). rewrite E. symmetry. apply osa_distance_spec.
  now apply is_distance_sym.
Qed.

(** ** The search *)
Definition dist (a b : str) : Z := match osa_distance a b with Ok d => d | Exn _ => 0 end.

Lemma dist_ok a b : osa_distance a b = Ok (dist a b).
Proof. unfold dist. destruct (osa_correct a b) as (d & -> & _). reflexivity. Qed.

Lemma dist_spec a b : is_distance a b (dist a b).
Proof. apply osa_distance_spec, dist_ok. Qed.

Definition pick (s : str) (best : Z * option str) (o : str) : Z * option str :=
  if dist s o <? fst best then (dist s o, Some o) else best.

Lemma best_of_fold s keys maxd : best_of s keys maxd = Ok (fold_left (pick s) keys (maxd + 1, None)).
Proof.
  unfold best_of. generalize (maxd + 1, @None str) as b.
  induction keys as [|o keys IH]; intros b; [reflexivity|]. cbn [rfold fold_left].
  rewrite dist_ok. cbn [rbind]. apply IH.
Qed.

(** The result of the search: the first of the closest. *)
Lemma pick_spec s keys b r o : fold_left (pick s) keys b = (r, o) ->
  (r, o) = b /\ (forall k, In k keys -> fst b <= dist s k) \/
  exists pre k post, keys = pre ++ k :: post /\ o = Some k /\ r = dist s k /\ r < fst b /\
    (forall k', In k' pre -> r < dist s k') /\ (forall k', In k' post -> r <= dist s k').
Proof.
  revert b. induction keys as [|x keys IH]; intros b H; cbn [fold_left] in H.
  - left. split; [congruence|]. intros k [].
  - apply IH in H as [[H Hk]|(pre & k & post & -> & -> & -> & Hr & Hpre & Hpost)].
    + unfold pick in H, Hk. destruct (dist s x <? fst b) eqn:E.
      * right. injection H as -> ->. exists [], x, keys. cbn [fst] in Hk. repeat split; try lia.
        -- intros k' [].
        -- exact Hk.
      * left. split; [exact H|]. intros k [H1|H1]; [subst; lia|auto].
    + right. exists (x :: pre), k, post. unfold pick in Hr. cbn [fst] in Hr.
      destruct (dist s x <? fst b) eqn:E; cbn [fst] in Hr; repeat split; try lia; try assumption;
        intros k' [H1|H1]; subst; try lia; auto.
Qed.

Section Options.
  Variable cs : bool.

  Definition add_opt (d : list (str * str)) (o : str) := dset str_eqb d (folded cs o) o.

  Lemma dset_keys_cases (d : list (str * str)) k v :
    map fst (dset str_eqb d k v) = if existsb (str_eqb k) (map fst d) then map fst d else map fst d ++ [k].
  Proof.
    induction d as [|[k' v'] d IH]; cbn; [reflexivity|].
    destruct (str_eqb k k') eqn:E; cbn; [reflexivity|]. rewrite IH.
    now destruct (existsb (str_eqb k) (map fst d)).
  Qed.

  (** Keys of the dictionary: every compared form once, in the order of first occurrence. *)
  Lemma options_keys l : forall d, exists extra,
    map fst (fold_left add_opt l d) = map fst d ++ extra /\
    (forall k, In k (map fst d ++ extra) <-> In k (map fst d) \/ In k (map (folded cs) l)).
  Proof.
    induction l as [|o l IH]; intros d; cbn [fold_left map].
    - exists []. rewrite app_nil_r. split; [reflexivity|]. intros k. cbn. tauto.
    - destruct (IH (add_opt d o)) as (extra & E & H). unfold add_opt in E, H.
      rewrite dset_keys_cases in E, H. destruct (existsb (str_eqb (folded cs o)) (map fst d)) eqn:Ex.
      + exists extra. split; [exact E|]. intros k. rewrite H. cbn.
        apply existsb_exists in Ex as (k' & Hk' & Ek). apply str_eqb_eq in Ek. subst k'.
        split; [tauto|]. intros [H1|[H1|H1]]; subst; auto.
      + exists (folded cs o :: extra). rewrite <- app_assoc in E. split; [exact E|].
        intros k. specialize (H k). rewrite <- app_assoc in H. cbn [app] in H. rewrite H.
        rewrite in_app_iff. cbn. tauto.
  Qed.

  (** Values: every value is an option with that compared form. *)
  Lemma options_values l : forall d, 
    (forall k v, dget str_eqb d k = Some v -> folded cs v = k) ->
    forall k v, dget str_eqb (fold_left add_opt l d) k = Some v ->
      folded cs v = k /\ (dget str_eqb d k = Some v \/ In v l).
  Proof.
    induction l as [|o l IH]; intros d Hd k v H; cbn [fold_left] in H.
    - split; [auto|tauto].
    - apply IH in H.
      + destruct H as [Hf [H|H]]; split; try assumption; [|cbn; tauto].
        unfold add_opt in H. destruct (str_eqb k (folded cs o)) eqn:E.
        * apply str_eqb_eq in E. subst k. rewrite E in H. rewrite (dget_dset_same _ str_eqb_spec) in H. injection H as <-.
          right. now left.
        * rewrite (dget_dset_other _ str_eqb_spec) in H; [tauto|].
          intros ->. assert (str_eqb (folded cs o) (folded cs o) = true) by now apply str_eqb_eq. congruence.
      + intros k0 v0 H0. unfold add_opt in H0. destruct (str_eqb k0 (folded cs o)) eqn:E.
        * apply str_eqb_eq in E. subst k0. rewrite (dget_dset_same _ str_eqb_spec) in H0. now injection H0 as <-.
        * rewrite (dget_dset_other _ str_eqb_spec) in H0; [auto|].
          intros ->. assert (str_eqb (folded cs o) (folded cs o) = true) by now apply str_eqb_eq. congruence.
  Qed.
End Options.

Lemma options_of_keys cs l k : In k (map fst (options_of cs l)) <-> In k (map (folded cs) l).
Proof.
  destruct (options_keys cs l []) as (extra & E & H). unfold options_of. unfold add_opt in E. rewrite E, H.
  cbn. tauto.
Qed.

Lemma options_of_get cs l k : In k (map fst (options_of cs l)) ->
  exists o, dget str_eqb (options_of cs l) k = Some o /\ folded cs o = k /\ In o l.
Proof.
  intros H. destruct (dget str_eqb (options_of cs l) k) as [o|] eqn:E.
  - exists o. split; [reflexivity|]. destruct (options_values cs l [] ltac:(discriminate) k o E) as [Hf [Hd|Hi]].
    + discriminate.
    + auto.
  - apply (dget_None _ str_eqb_spec) in E. contradiction.
Qed.

Lemma prefix_split {A} (P Q K X : list A) k : P ++ k :: Q = K ++ X -> ~ In k K -> exists R, P = K ++ R.
Proof.
  revert K. induction P as [|x P IH]; intros K E Hk.
  - destruct K as [|y K]; [exists []; reflexivity|]. cbn in E. injection E as -> _. exfalso. apply Hk. now left.
  - destruct K as [|y K]; [exists (x :: P); reflexivity|]. cbn in E. injection E as -> E.
    destruct (IH K E) as (R & ->); [intros H; apply Hk; now right|]. now exists R.
Qed.

Lemma C40_suggestion_l s strings maxd cs r : closest_match s strings maxd cs = Ok (Some r) ->
  In r strings /\
  exists d, is_distance (folded cs s) (folded cs r) d /\ d <= maxd /\
    (forall o d', In o strings -> is_distance (folded cs s) (folded cs o) d' -> d <= d') /\
    (forall pre o post, strings = pre ++ o :: post -> is_distance (folded cs s) (folded cs o) d ->
       exists o', In o' (pre ++ [o]) /\ folded cs o' = folded cs r).
Proof.
  unfold closest_match. rewrite best_of_fold. cbn [rbind].
  destruct (fold_left (pick (folded cs s)) (map fst (options_of cs strings)) (maxd + 1, None)) as [d k] eqn:E.
  cbn [snd]. apply pick_spec in E as [[E _]|(P & k' & Q & Ek & -> & -> & Hlt & HP & HQ)].
  { injection E as -> ->. discriminate. }
  assert (Hin : In k' (map fst (options_of cs strings))) by (rewrite Ek, in_app_iff; cbn; tauto).
  destruct (options_of_get _ _ _ Hin) as (o & Eo & Hf & Ho).
  destruct k' as [|c t]; [discriminate|]. rewrite Eo. intros [= <-]. split; [exact Ho|].
  exists (dist (folded cs s) (c :: t)). rewrite Hf. split; [apply dist_spec|].
  cbn [fst] in Hlt. split; [lia|]. split.
  - intros o' d' Ho' Hd'. pose proof (is_distance_fun _ _ _ _ Hd' (dist_spec _ _)) as ->.
    assert (H : In (folded cs o') (map fst (options_of cs strings))).
    { apply options_of_keys. now apply in_map. }
    rewrite Ek, in_app_iff in H. destruct H as [H|[H|H]].
    + apply HP in H. lia.
    + rewrite <- H. lia.
    + auto.
  - intros pre o' post -> Hd'. pose proof (is_distance_fun _ _ _ _ Hd' (dist_spec _ _)) as Ed.
    destruct (in_dec (list_eq_dec ascii_dec) (c :: t) (map (folded cs) (pre ++ [o']))) as [H|H].
    { apply in_map_iff in H as (o2 & E2 & H2). eauto. }
    exfalso.
    assert (Es : options_of cs (pre ++ o' :: post) = fold_left (add_opt cs) post (options_of cs (pre ++ [o']))).
    { unfold options_of. change (o' :: post) with ([o'] ++ post). rewrite app_assoc, fold_left_app. reflexivity. }
    destruct (options_keys cs post (options_of cs (pre ++ [o']))) as (extra & Ex & _).
    rewrite <- Es, Ek in Ex.
    apply prefix_split in Ex as (R & ->). 2:{ rewrite options_of_keys. exact H. }
    assert (Hin' : In (folded cs o') (map fst (options_of cs (pre ++ [o'])) ++ R)).
    { apply in_app_iff. left. apply options_of_keys. apply in_map. apply in_app_iff. right. now left. }
    apply HP in Hin'. lia.
Qed.

Lemma C40_total_l s strings maxd cs : exists r, closest_match s strings maxd cs = Ok r.
Proof.
  unfold closest_match. rewrite best_of_fold. cbn [rbind].
  destruct (fold_left (pick (folded cs s)) (map fst (options_of cs strings)) (maxd + 1, None)) as [d k] eqn:E.
  cbn [snd]. apply pick_spec in E as [[E _]|(P & k' & Q & Ek & -> & -> & Hlt & HP & HQ)].
  { injection E as -> ->. eauto. }
  assert (Hin : In k' (map fst (options_of cs strings))) by (rewrite Ek, in_app_iff; cbn; tauto).
  destruct (options_of_get _ _ _ Hin) as (o & Eo & _). destruct k'; [eauto|]. rewrite Eo. eauto.
Qed.

Lemma folded_nil cs o : folded cs o = [] -> o = [].
Proof. destruct cs; cbn; [auto|]. destruct o; [auto|discriminate]. Qed.

Lemma C40_none_l s strings maxd cs : ~ In [] strings ->
  closest_match s strings maxd cs = Ok None <->
  forall o d, In o strings -> is_distance (folded cs s) (folded cs o) d -> maxd < d.
Proof.
  intros Hne. unfold closest_match. rewrite best_of_fold. cbn [rbind].
  destruct (fold_left (pick (folded cs s)) (map fst (options_of cs strings)) (maxd + 1, None)) as [d k] eqn:E.
  cbn [snd]. apply pick_spec in E as [[E Hk]|(P & k' & Q & Ek & -> & -> & Hlt & HP & HQ)].
  - injection E as -> ->. split; [|reflexivity]. intros _ o d Ho Hd.
    pose proof (is_distance_fun _ _ _ _ Hd (dist_spec _ _)) as ->.
    specialize (Hk (folded cs o)). cbn [fst] in Hk. enough (maxd + 1 <= dist (folded cs s) (folded cs o)) by lia.
    apply Hk, options_of_keys. now apply in_map.
  - assert (Hin : In k' (map fst (options_of cs strings))) by (rewrite Ek, in_app_iff; cbn; tauto).
    destruct (options_of_get _ _ _ Hin) as (o & Eo & Hf & Ho).
    split; intros H; exfalso.
    + destruct k' as [|c t].
      * apply folded_nil in Hf. now subst o.
      * rewrite Eo in H. discriminate.
    + specialize (H o (dist (folded cs s) k') Ho). rewrite Hf in H. specialize (H (dist_spec _ _)).
      cbn [fst] in Hlt. lia.
Qed.

(** ** Case *)
Lemma lower_code c : nat_of_ascii (lower_char c) =
  if ((65 <=? nat_of_ascii c) && (nat_of_ascii c <=? 90))%nat then (nat_of_ascii c + 32)%nat else nat_of_ascii c.
Proof.
  unfold lower_char. destruct ((65 <=? nat_of_ascii c) && (nat_of_ascii c <=? 90))%nat eqn:E; [|reflexivity].
  apply nat_ascii_embedding. lia.
Qed.

Lemma lower_char_same c d : lower_char c = lower_char d <-> same_letter c d.
Proof.
  assert (I : lower_char c = lower_char d <-> nat_of_ascii (lower_char c) = nat_of_ascii (lower_char d)).
  { split; [now intros ->|apply ascii_code_inj]. }
  rewrite I, !lower_code. unfold same_letter.
  assert (J : c = d <-> nat_of_ascii c = nat_of_ascii d).
  { split; [now intros ->|apply ascii_code_inj]. }
  rewrite J.
  destruct ((65 <=? nat_of_ascii c) && (nat_of_ascii c <=? 90))%nat eqn:E1,
           ((65 <=? nat_of_ascii d) && (nat_of_ascii d <=? 90))%nat eqn:E2; lia.
Qed.

Lemma C40_case_l a : forall b, folded false a = folded false b <-> Forall2 same_letter a b.
Proof.
  cbn. induction a as [|c a IH]; intros [|d b]; cbn; split; intros H; try discriminate; try constructor; try now inversion H.
  - injection H as H _. now apply lower_char_same.
  - injection H as _ H. now apply IH.
  - inversion H; subst. f_equal; [now apply lower_char_same|now apply IH].
Qed.
