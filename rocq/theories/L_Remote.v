(** Lemmas about MSR access on a remote host: the output of the script. *)
From Coq Require Import ZifyBool.
From Verif Require Import Base L_Base L_Monad M_Text S_Text L_Text L_Uncore3 M_CPUInfo S_CPUInfo M_MSR S_MSR M_Remote.

(** The characters of a number. *)
Definition numch (c : ascii) : Prop := is_digit c \/ c = "-"%char.

Lemma numch_space c : numch c -> is_space c = false.
Proof. intros [H | ->]; [apply digit_nospace, H | reflexivity]. Qed.

Lemma numch_not c k : numch c -> ((nat_of_ascii k < 45) \/ (nat_of_ascii k = 46)%nat \/ (57 < nat_of_ascii k))%nat -> c <> k.
Proof. intros [H | ->] Hk E; subst; [unfold is_digit in H; lia | cbn in Hk; lia]. Qed.

Lemma dec_chars n : dec n <> [] /\ Forall numch (dec n).
Proof.
  destruct (Z_lt_le_dec n 0) as [H|H].
  - assert (E0 : dec n = "-"%char :: dec (- n)).
    { unfold dec. replace (n <? 0) with true by lia. now replace (- n <? 0) with false by lia. }
    rewrite E0. split; [discriminate|]. constructor; [now right|].
    destruct (dec_numeral (- n) ltac:(lia)) as (_ & D & _). eapply Forall_impl; [|exact D]. intros c Hc. now left.
  - destruct (dec_numeral n H) as (D0 & D & _). split; [exact D0|]. eapply Forall_impl; [|exact D]. intros c Hc. now left.
Qed.

Lemma strip_by_id p (m : str) : m <> [] -> Forall (fun c => p c = false) m -> strip_by p m = m.
Proof.
  intros Hm Hf. rewrite Forall_forall in Hf. transitivity (strip_by p ([] ++ m ++ [])).
  - cbn [app]. now rewrite app_nil_r.
  - apply strip_mid; [exact Hm | | | reflexivity | reflexivity].
    + apply Hf. destruct m; [congruence | now left].
    + apply Hf. destruct (exists_last Hm) as (l & x & ->). rewrite last_last. apply in_or_app. right. now left.
Qed.

Lemma split_on_free sep w : ~ In sep w -> split_on sep w = [w].
Proof.
  intros H. apply split_on_none. unfold has_char. destruct (existsb (Ascii.eqb sep) w) eqn:E; [|reflexivity].
  apply existsb_exists in E as (c & Hc & Hq). apply Ascii.eqb_eq in Hq. subst c. contradiction.
Qed.

Definition pair_line (c v : Z) : str := dec c ++ ","%char :: dec v.

Lemma pair_line_space c v : Forall (fun x => is_space x = false) (pair_line c v).
Proof.
  unfold pair_line. apply Forall_app. split; [|constructor; [reflexivity|]];
    (eapply Forall_impl; [|apply dec_chars]; intros x; apply numch_space).
Qed.

Lemma pair_line_split c v : split_csv_line "," false false (strip (pair_line c v)) = [dec c; dec v].
Proof.
  assert (E1 : strip (pair_line c v) = pair_line c v).
  { apply strip_by_id; [|apply pair_line_space]. unfold pair_line. destruct (dec c); discriminate. }
  rewrite E1. unfold split_csv_line. cbn beta iota zeta.
  destruct (dec_chars c) as (C0 & C1). destruct (dec_chars v) as (V0 & V1).
  assert (NC : forall n, ~ In ","%char (dec n)).
  { intros n Hi. destruct (dec_chars n) as (_ & D). rewrite Forall_forall in D. apply (numch_not _ ","%char (D _ Hi)); [cbn; lia | reflexivity]. }
  assert (E2 : strip_char "," (pair_line c v) = pair_line c v).
  { unfold strip_char. transitivity (strip_by (Ascii.eqb ",") ([] ++ pair_line c v ++ [])).
    - cbn [app]. now rewrite app_nil_r.
    - apply strip_mid; [unfold pair_line; destruct (dec c); discriminate | | | reflexivity | reflexivity].
      + unfold pair_line. specialize (NC c). destruct (dec c) as [|x w]; [congruence|]. cbn [app hd]. apply Ascii.eqb_neq. intros <-.
        apply NC. now left.
      + unfold pair_line. specialize (NC v). destruct (exists_last V0) as (w & x & E). rewrite E in *.
        rewrite app_comm_cons, app_assoc, last_last. apply Ascii.eqb_neq. intros <-. apply NC. apply in_or_app. right. now left. }
  rewrite E2. unfold pair_line. rewrite split_on_app, !split_on_free by apply NC. cbn [app flat_map].
  assert (S : forall n, strip (dec n) = dec n).
  { intros n. apply strip_by_id; [apply dec_chars|]. eapply Forall_impl; [|apply dec_chars]. intros x. apply numch_space. }
  destruct (dec c) as [|x w] eqn:Ec; [congruence|]. rewrite <- Ec. destruct (dec v) as [|y u] eqn:Ev; [congruence|]. rewrite <- Ev.
  rewrite !S. reflexivity.
Qed.

Lemma splitlines_concat (ls : list str) : Forall (fun l => ~ In nl l) ls -> splitlines (concat (map (fun l => l ++ [nl]) ls)) = ls.
Proof.
  intros H. unfold splitlines.
  assert (E : split_on nl (concat (map (fun l => l ++ [nl]) ls)) = ls ++ [[]]).
  { induction H as [|l ls Hl _ IH]; [reflexivity|]. cbn [map concat]. rewrite <- app_assoc. cbn [app].
    rewrite split_on_app, split_on_free, IH by exact Hl. reflexivity. }
  rewrite E, rev_app_distr. cbn [rev app]. apply rev_involutive.
Qed.

(** A line of the output: newline included. *)
Lemma script_lines (f : Z -> Z) cpus :
  splitlines (concat (map (fun c => dec c ++ ","%char :: dec (f c) ++ [nl]) cpus)) = map (fun c => pair_line c (f c)) cpus.
Proof.
  rewrite <- (splitlines_concat (map (fun c => pair_line c (f c)) cpus)).
  - rewrite map_map. f_equal. f_equal. apply map_ext. intros c. unfold pair_line. now rewrite <- app_assoc.
  - apply Forall_forall. intros l Hl. apply in_map_iff in Hl as (c & <- & _). intros Hi.
    assert (Q := pair_line_space c (f c)). rewrite Forall_forall in Q. specialize (Q _ Hi). discriminate.
Qed.

(** Reading the output. *)
Lemma take_lines_run env a sn (f : Z -> Z) : forall cpus regvals,
  forall s, take_lines env a sn (map (fun c => pair_line c (f c)) cpus) regvals s =
  (mfor cpus (fun c => cache_add env a c (f c) sn) ;; ret (fold_left (fun d c => dset Z.eqb d c (f c)) cpus regvals)) s.
Proof.
  induction cpus as [|c cpus IH]; intros regvals s; [reflexivity|]. cbn [map take_lines]. rewrite pair_line_split, !str_to_int_dec_all.
  change (mfor (c :: cpus) ?b) with (b c ;; mfor cpus b). unfold mbind, lift. unfold mbind in IH.
  destruct (cache_add env a c (f c) sn s) as ([[]|e], s1); [|reflexivity]. rewrite IH. reflexivity.
Qed.

Lemma dget_fold (f : Z -> Z) cpus c : forall regvals, dget Z.eqb (fold_left (fun d c => dset Z.eqb d c (f c)) cpus regvals) c =
  if inb c cpus then Some (f c) else dget Z.eqb regvals c.
Proof.
  induction cpus as [|x cpus IH]; intros d; [reflexivity|]. cbn [fold_left]. rewrite IH. unfold inb. cbn [existsb]. fold (inb c cpus).
  destruct (inb c cpus) eqn:E; [now rewrite orb_true_r|]. rewrite orb_false_r. destruct (Z.eqb_spec c x) as [-> |Hn].
  - apply dget_dset_same. apply Zeqb_spec.
  - apply dget_dset_other; [apply Zeqb_spec | congruence].
Qed.
