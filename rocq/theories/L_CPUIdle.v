(** Reading the C-state files: the sorted list of paths, CPU by CPU and C-state by C-state. *)
From Coq Require Import Ascii String ZifyBool Permutation Sorted.
From Verif Require Import Base L_Base M_CPUInfo S_CPUInfo M_Text S_Text L_Text M_Human L_Human M_CPUIdle S_CPUIdle.

(** ** The order of texts *)

Lemma str_leb_refl a : str_leb a a = true.
Proof. induction a as [|x a IH]; [reflexivity|]. cbn [str_leb]. rewrite Nat.ltb_irrefl, Ascii.eqb_refl. exact IH. Qed.

Lemma str_leb_total a b : str_leb a b = true \/ str_leb b a = true.
Proof.
  revert b. induction a as [|x a IH]; intros b; [now left|]. destruct b as [|y b]; [now right|]. cbn [str_leb].
  destruct (Nat.ltb_spec (nat_of_ascii x) (nat_of_ascii y)); [now left|].
  destruct (Nat.ltb_spec (nat_of_ascii y) (nat_of_ascii x)); [now right|].
  assert (x = y) as -> by (apply ascii_code_inj; lia). rewrite Ascii.eqb_refl. apply IH.
Qed.

Lemma str_leb_trans a b c : str_leb a b = true -> str_leb b c = true -> str_leb a c = true.
Proof.
  revert b c. induction a as [|x a IH]; intros b c Hab Hbc; [reflexivity|].
  destruct b as [|y b]; [discriminate|]. destruct c as [|z c]; [discriminate|]. cbn [str_leb] in *.
  destruct (Nat.ltb_spec (nat_of_ascii x) (nat_of_ascii y)).
  - destruct (Nat.ltb_spec (nat_of_ascii x) (nat_of_ascii z)); [reflexivity|].
    destruct (Nat.ltb_spec (nat_of_ascii y) (nat_of_ascii z)); [lia|].
    destruct (Ascii.eqb_spec y z) as [->|]; [lia|discriminate].
  - destruct (Ascii.eqb_spec x y) as [->|]; [|discriminate].
    destruct (Nat.ltb_spec (nat_of_ascii y) (nat_of_ascii z)); [reflexivity|].
    destruct (Ascii.eqb_spec y z) as [->|]; [|discriminate]. eapply IH; eassumption.
Qed.

Lemma str_leb_antisym a b : str_leb a b = true -> str_leb b a = true -> a = b.
Proof.
  revert b. induction a as [|x a IH]; intros b Hab Hba; [destruct b; [reflexivity|discriminate]|].
  destruct b as [|y b]; [discriminate|]. cbn [str_leb] in *.
  destruct (Nat.ltb_spec (nat_of_ascii x) (nat_of_ascii y)).
  - destruct (Nat.ltb_spec (nat_of_ascii y) (nat_of_ascii x)); [lia|].
    destruct (Ascii.eqb_spec y x) as [->|]; [lia|discriminate].
  - destruct (Ascii.eqb_spec x y) as [->|]; [|discriminate]. rewrite Nat.ltb_irrefl, Ascii.eqb_refl in Hba.
    f_equal. now apply IH.
Qed.

Definition sleP (a b : str) : Prop := str_leb a b = true.

Lemma sorted_perm_eq (a : list str) : forall b, StronglySorted sleP a -> StronglySorted sleP b -> Permutation a b -> a = b.
Proof.
  induction a as [|x a IH]; intros b Ha Hb P.
  - now apply Permutation_nil in P.
  - destruct b as [|y b]; [now apply Permutation_sym, Permutation_nil in P|].
    inversion Ha as [|? ? Ha' Fa]; inversion Hb as [|? ? Hb' Fb]; subst.
    assert (x = y) as ->.
    { rewrite Forall_forall in Fa, Fb.
      assert (In y (x :: a)) as [->|Iy] by (apply (Permutation_in _ (Permutation_sym P)); now left); [reflexivity|].
      assert (In x (y :: b)) as [->|Ix] by (apply (Permutation_in _ P); now left); [reflexivity|].
      apply str_leb_antisym; [now apply Fa|now apply Fb]. }
    f_equal. apply IH; [assumption..|]. now apply Permutation_cons_inv in P.
Qed.

Lemma sort_sorted (l : list str) : StronglySorted sleP (sort_by str_leb l).
Proof. apply sort_by_sorted; [apply str_leb_total|apply str_leb_trans]. Qed.

Lemma filter_sorted (f : str -> bool) l : StronglySorted sleP l -> StronglySorted sleP (filter f l).
Proof.
  induction 1 as [|x l Hs IH F]; [constructor|]. cbn [filter]. destruct (f x); [|exact IH]. constructor; [exact IH|].
  rewrite Forall_forall in *. intros y Hy. apply filter_In in Hy as (Hy & _). now apply F.
Qed.

(** Different decimal numbers, ended by a slash, decide the order. *)
Lemma app_same p a b : str_leb (p ++ a) (p ++ b) = str_leb a b.
Proof. induction p as [|x p IH]; [reflexivity|]. cbn [app str_leb]. now rewrite Nat.ltb_irrefl, Ascii.eqb_refl. Qed.

Lemma ended_order a b x y : Forall is_digit a -> Forall is_digit b -> a <> b ->
  str_leb (a ++ "/"%char :: x) (b ++ "/"%char :: y) = str_leb (a ++ ["/"%char]) (b ++ ["/"%char]).
Proof.
  revert b. induction a as [|c a IH]; intros b Ha Hb Hab.
  - destruct b as [|d b]; [now contradiction Hab|]. inversion Hb as [|? ? Hd _]; subst. unfold is_digit in Hd. cbn [app str_leb].
    replace (nat_of_ascii "/") with 47%nat by reflexivity.
    destruct (Nat.ltb_spec 47 (nat_of_ascii d)); [reflexivity|lia].
  - inversion Ha as [|? ? Hc Ha']; subst. destruct b as [|d b].
    + unfold is_digit in Hc. cbn [app str_leb]. replace (nat_of_ascii "/") with 47%nat by reflexivity.
      destruct (Nat.ltb_spec (nat_of_ascii c) 47); [lia|].
      destruct (Ascii.eqb_spec c "/") as [->|]; [change (48 <= 47 <= 57)%nat in Hc; lia|reflexivity].
    + inversion Hb as [|? ? Hd Hb']; subst. cbn [app str_leb].
      destruct (nat_of_ascii c <? nat_of_ascii d)%nat; [reflexivity|].
      destruct (Ascii.eqb_spec c d) as [->|]; [|reflexivity]. apply IH; [assumption..|congruence].
Qed.

Lemma dec_digits_all n : 0 <= n -> Forall is_digit (dec n).
Proof. intros H. apply (dec_numeral n H). Qed.

Lemma dec_inj0 a b : 0 <= a -> 0 <= b -> dec a = dec b -> a = b.
Proof.
  intros Ha Hb E. destruct (dec_numeral a Ha) as (_ & _ & <- & _). destruct (dec_numeral b Hb) as (_ & _ & <- & _). now rewrite E.
Qed.

(** The order of numbers by their text with a slash. *)
Definition num_leb (a b : Z) : bool := str_leb (dec a ++ ["/"%char]) (dec b ++ ["/"%char]).

Lemma num_leb_total a b : num_leb a b = true \/ num_leb b a = true.
Proof. apply str_leb_total. Qed.

Lemma num_leb_trans a b c : num_leb a b = true -> num_leb b c = true -> num_leb a c = true.
Proof. apply str_leb_trans. Qed.

Lemma num_leb_antisym a b : 0 <= a -> 0 <= b -> num_leb a b = true -> num_leb b a = true -> a = b.
Proof.
  intros Ha Hb H1 H2. apply dec_inj0; [assumption..|]. assert (E := str_leb_antisym _ _ H1 H2). now apply app_inj_tail in E as (E & _).
Qed.

Definition nleP (a b : Z) : Prop := num_leb a b = true.

(** Zero comes first. *)
Lemma zero_first n : 0 <= n -> num_leb 0 n = true.
Proof.
  intros Hn. unfold num_leb. change (dec 0) with ["0"%char]. destruct (dec n) as [|c t] eqn:E.
  - destruct (dec_numeral n Hn) as (H & _). congruence.
  - assert (Hd : is_digit c). { assert (H := dec_digits_all n Hn). rewrite E in H. now inversion H. }
    unfold is_digit in Hd. cbn [app str_leb]. replace (nat_of_ascii "0") with 48%nat by reflexivity.
    destruct (Nat.ltb_spec 48 (nat_of_ascii c)); [reflexivity|].
    assert (c = "0"%char) as -> by (apply ascii_code_inj; change (nat_of_ascii "0") with 48%nat; lia).
    cbn [Ascii.eqb Bool.eqb]. destruct t as [|d t]; [reflexivity|].
    assert (Hz := dec_numeral n Hn). destruct Hz as (_ & _ & _ & Hz). rewrite E in Hz. specialize (Hz eq_refl). discriminate.
Qed.

(** ** Paths *)

Definition cpu_prefix : str := sysfs_base ++ s2l "/cpu"%string.
Definition state_mid : str := s2l "/cpuidle/state"%string.

Lemma path_eq c i f : cst_path c i f = cpu_prefix ++ dec c ++ state_mid ++ dec i ++ "/"%char :: f.
Proof. unfold cst_path, cpu_prefix, state_mid. now rewrite <- app_assoc. Qed.

Definition line_of (t : Z * Z * str) : str := let '(c, i, f) := t in cst_path c i f ++ ["010"%char].

(** Two C-states of one CPU, and two CPUs. *)
Lemma order_states c i j f g : 0 <= i -> 0 <= j -> i <> j ->
  str_leb (line_of (c, i, f)) (line_of (c, j, g)) = num_leb i j.
Proof.
  intros Hi Hj Hij. unfold line_of. rewrite !path_eq. rewrite <- !app_assoc, !app_same. cbn [app].
  rewrite ended_order; [reflexivity|now apply dec_digits_all|now apply dec_digits_all|]. intros E. apply Hij. now apply dec_inj0.
Qed.

Lemma order_cpus c d i j f g : 0 <= c -> 0 <= d -> c <> d ->
  str_leb (line_of (c, i, f)) (line_of (d, j, g)) = num_leb c d.
Proof.
  intros Hc Hd Hcd. unfold line_of. rewrite !path_eq. rewrite <- !app_assoc, !app_same.
  change (state_mid) with ("/"%char :: s2l "cpuidle/state"%string). rewrite <- !app_comm_cons.
  rewrite ended_order; [reflexivity|now apply dec_digits_all|now apply dec_digits_all|]. intros E. apply Hcd. now apply dec_inj0.
Qed.

(** The names of the files in order. *)
Definition fnames_sorted : list str := map s2l ["desc"; "disable"; "latency"; "name"; "residency"; "time"; "usage"]%string.

Lemma fnames_perm : Permutation fnames_sorted cst_fnames.
Proof.
  unfold fnames_sorted, cst_fnames. apply Permutation_map.
  apply NoDup_Permutation.
  - repeat constructor; cbn; intuition discriminate.
  - repeat constructor; cbn; intuition discriminate.
  - intros x. cbn. tauto.
Qed.

Lemma group_sorted c i : StronglySorted sleP (map (fun f => line_of (c, i, f)) fnames_sorted).
Proof.
  assert (H : StronglySorted sleP (map (fun f => f ++ ["010"%char]) fnames_sorted)).
  { unfold fnames_sorted. cbn [map]. repeat (constructor; [|repeat (constructor; [reflexivity|]); constructor]). constructor. }
  clear -H. induction fnames_sorted as [|f l IH]; [constructor|]. inversion H as [|? ? H1 H2]; subst. cbn [map]. constructor; [now apply IH|].
  rewrite Forall_forall in *. intros y Hy. apply in_map_iff in Hy as (g & <- & Hg). specialize (H2 (g ++ ["010"%char])).
  unfold sleP, line_of in *. rewrite !path_eq. rewrite <- !app_assoc, !app_same. cbn [app str_leb]. rewrite Nat.ltb_irrefl, Ascii.eqb_refl.
  apply H2. apply in_map_iff. now exists g.
Qed.

Lemma sorted_app {A} (R : A -> A -> Prop) l m : StronglySorted R l -> StronglySorted R m ->
  (forall x y, In x l -> In y m -> R x y) -> StronglySorted R (l ++ m).
Proof.
  intros Hl Hm H. induction Hl as [|x l Hl IH F]; [exact Hm|]. cbn [app]. constructor.
  - apply IH. intros a b Ha Hb. apply H; [now right|exact Hb].
  - apply Forall_app. split; [exact F|]. apply Forall_forall. intros y Hy. apply H; [now left|exact Hy].
Qed.

Lemma sorted_flat_map {A B} (R : B -> B -> Prop) (le : A -> A -> Prop) (f : A -> list B) l : StronglySorted le l -> NoDup l ->
  (forall x, In x l -> StronglySorted R (f x)) ->
  (forall x y a b, In x l -> In y l -> x <> y -> le x y -> In a (f x) -> In b (f y) -> R a b) -> StronglySorted R (flat_map f l).
Proof.
  intros Hs Hn H1 H2. induction Hs as [|x l Hs IH F]; [constructor|]. inversion Hn as [|? ? Hx Hn']; subst. cbn [flat_map].
  apply sorted_app.
  - apply H1. now left.
  - apply IH; [assumption|intros y Hy; apply H1; now right|]. intros y z a b Hy Hz. apply H2; now right.
  - intros a b Ha Hb. apply in_flat_map in Hb as (y & Hy & Hb). rewrite Forall_forall in F. eapply (H2 x y); try eassumption; [now left|now right| |now apply F].
    intros ->. contradiction.
Qed.

(** The C-states of a CPU in the order of the paths. *)
Definition states (n : Z) : list Z := sort_by num_leb (map Z.of_nat (seq 0 (Z.to_nat n))).

Lemma states_In n i : In i (states n) <-> 0 <= i < n.
Proof.
  unfold states. rewrite sort_by_In, in_map_iff. split.
  - intros (k & <- & Hk). apply in_seq in Hk. lia.
  - intros H. exists (Z.to_nat i). split; [lia|]. apply in_seq. lia.
Qed.

Lemma of_nat_NoDup n : NoDup (map Z.of_nat (seq 0 n)).
Proof. apply FinFun.Injective_map_NoDup; [intros a b; lia|apply seq_NoDup]. Qed.

Lemma states_NoDup n : NoDup (states n).
Proof. unfold states. eapply Permutation_NoDup; [apply Permutation_sym, sort_by_perm|apply of_nat_NoDup]. Qed.

Lemma states_sorted n : StronglySorted nleP (states n).
Proof. apply sort_by_sorted; [apply num_leb_total|apply num_leb_trans]. Qed.

(** At least two of them: the first one is 0 and the last one is not. *)
Lemma states_ends n : 2 <= n -> exists mid l, states n = 0 :: mid ++ [l] /\ l <> 0.
Proof.
  intros Hn. assert (Hs := states_sorted n). assert (Hnd := states_NoDup n).
  destruct (states n) as [|h t] eqn:E.
  - assert (H : In 0 (states n)) by (apply states_In; lia). rewrite E in H. contradiction.
  - assert (h = 0) as ->.
    { inversion Hs as [|? ? _ F]; subst. rewrite Forall_forall in F.
      assert (H0 : In 0 (states n)) by (apply states_In; lia). rewrite E in H0. destruct H0 as [->|H0]; [reflexivity|].
      assert (Hh : 0 <= h < n) by (apply states_In; rewrite E; now left).
      apply num_leb_antisym; [lia|lia|now apply F|now apply zero_first]. }
    destruct t as [|x t _] using rev_ind.
    + assert (H1 : In 1 (states n)) by (apply states_In; lia). rewrite E in H1. destruct H1 as [H1|[]]. discriminate.
    + exists t, x. split; [reflexivity|]. intros ->. inversion Hnd as [|? ? Hx _]; subst. apply Hx, in_or_app. right. now left.
Qed.

(** All the paths, in order. *)
Definition all_lines (nst : Z -> Z) (cpus : list Z) : list str :=
  flat_map (fun c => flat_map (fun i => map (fun f => line_of (c, i, f)) fnames_sorted) (states (nst c))) cpus.

Lemma all_sorted nst cpus : StronglySorted nleP cpus -> NoDup cpus -> (forall c, In c cpus -> 0 <= c) ->
  StronglySorted sleP (all_lines nst cpus).
Proof.
  intros Hs Hn Hpos. unfold all_lines. eapply sorted_flat_map; [exact Hs|exact Hn| |].
  - intros c Hc. eapply sorted_flat_map; [apply states_sorted|apply states_NoDup| |].
    + intros i _. apply group_sorted.
    + intros i j a b Hi Hj Hij Hle Ha Hb. apply in_map_iff in Ha as (f & <- & _). apply in_map_iff in Hb as (g & <- & _).
      apply states_In in Hi, Hj. unfold sleP. rewrite order_states; [exact Hle|lia|lia|exact Hij].
  - intros c d a b Hc Hd Hcd Hle Ha Hb. apply in_flat_map in Ha as (i & _ & Ha). apply in_flat_map in Hb as (j & _ & Hb).
    apply in_map_iff in Ha as (f & <- & _). apply in_map_iff in Hb as (g & <- & _).
    unfold sleP. rewrite order_cpus; [exact Hle|now apply Hpos|now apply Hpos|exact Hcd].
Qed.

(** ** Parsing a path *)

Lemma strip_prefix_app p l : strip_prefix p (p ++ l) = Some l.
Proof. induction p as [|c p IH]; [reflexivity|]. cbn. now rewrite Ascii.eqb_refl. Qed.

Lemma is_digitb_spec c : is_digitb c = true <-> is_digit c.
Proof. unfold is_digitb, is_digit. lia. Qed.

Lemma span_digits d c r : Forall is_digit d -> ~ is_digit c -> span is_digitb (d ++ c :: r) = (d, c :: r).
Proof.
  induction 1 as [|x d Hx _ IH]; intros Hc; cbn [app span].
  - destruct (is_digitb c) eqn:E; [|reflexivity]. apply is_digitb_spec in E. contradiction.
  - apply is_digitb_spec in Hx. rewrite Hx. now rewrite IH.
Qed.

Lemma value_dec n : 0 <= n -> digits_value (dec n) = n.
Proof. intros H. destruct (dec_numeral n H) as (_ & _ & E & _). exact E. Qed.

Lemma slash_no_digit : ~ is_digit "/"%char.
Proof. intros H. change (48 <= 47 <= 57)%nat in H. lia. Qed.

Lemma parse_path c i f : 0 <= c -> 0 <= i -> f <> [] -> parse_fpath (cst_path c i f) = Some (c, i, f).
Proof.
  intros Hc Hi Hf. rewrite path_eq. unfold parse_fpath. fold cpu_prefix. rewrite strip_prefix_app.
  change (state_mid) with ("/"%char :: s2l "cpuidle/state"%string). rewrite <- app_comm_cons.
  rewrite span_digits; [|now apply dec_digits_all|apply slash_no_digit].
  change ("/"%char :: s2l "cpuidle/state"%string ++ dec i ++ "/"%char :: f) with (state_mid ++ dec i ++ "/"%char :: f).
  fold state_mid. rewrite strip_prefix_app. rewrite span_digits; [|now apply dec_digits_all|apply slash_no_digit].
  destruct f as [|x f]; [congruence|].
  assert (N : forall n, 0 <= n -> nonemptyb (dec n) = true).
  { intros n Hn. destruct (dec_numeral n Hn) as (H & _). destruct (dec n); [congruence|reflexivity]. }
  rewrite !N by assumption. cbn [Ascii.eqb Bool.eqb andb tl]. rewrite !value_dec by assumption. reflexivity.
Qed.

(** A path has no blanks; stripping it takes the newline off. *)
Lemma digits_nospace d : Forall is_digit d -> Forall (fun x => is_space x = false) d.
Proof. intros H. eapply Forall_impl; [|exact H]. intros x. apply digit_nospace. Qed.

Lemma nospaceb l : forallb (fun x => negb (is_space x)) l = true -> Forall (fun x => is_space x = false) l.
Proof. rewrite forallb_forall, Forall_forall. intros H x Hx. apply H in Hx. now apply negb_true_iff. Qed.

Lemma path_nospace c i f : 0 <= c -> 0 <= i -> Forall (fun x => is_space x = false) f ->
  Forall (fun x => is_space x = false) (cst_path c i f).
Proof.
  intros Hc Hi Hf. rewrite path_eq. apply Forall_app. split; [apply nospaceb; reflexivity|]. apply Forall_app. split; [now apply digits_nospace, dec_digits_all|].
  apply Forall_app. split; [apply nospaceb; reflexivity|]. apply Forall_app. split; [now apply digits_nospace, dec_digits_all|]. constructor; [reflexivity|exact Hf].
Qed.

Lemma lstrip_nospace x : Forall (fun c => is_space c = false) x -> lstrip_by is_space x = x.
Proof. intros [|c l H _]; [reflexivity|]. cbn. now rewrite H. Qed.

Lemma strip_nl x : Forall (fun c => is_space c = false) x -> strip (x ++ ["010"%char]) = x.
Proof.
  intros Hx. unfold strip, strip_by. destruct x as [|a x]; [reflexivity|]. inversion Hx as [|? ? Ha _]; subst.
  cbn [app lstrip_by]. rewrite Ha. rewrite app_comm_cons, rev_app_distr. cbn [rev app lstrip_by].
  replace (is_space "010") with true by reflexivity. rewrite lstrip_nospace; [|].
  - change (rev x ++ [a]) with (rev (a :: x)). apply rev_involutive.
  - change (rev x ++ [a]) with (rev (a :: x)). now apply Forall_rev.
Qed.

(** The last component of a path. *)
Lemma last_split f p : ~ In "/"%char f -> last (split_on "/" (p ++ "/"%char :: f)) [] = f.
Proof.
  intros Hf. rewrite split_on_app. rewrite (split_on_none "/" f); [apply last_last|]. now apply has_char_false.
Qed.
