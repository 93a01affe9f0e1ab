(** Lemmas about the fields of 'info' (C80). *)
From Coq Require Import Ascii String ZifyBool Lia.
From Verif Require Import Base M_Text S_Text M_Human S_Human M_Topo S_Systemd S_Prelude M_CFreq M_Ident S_Ident L_Base L_Text L_Human L_Prelude L_CFreq4 L_Ident.
Open Scope list_scope.
Open Scope Z_scope.

Lemma skip_us_foreign t : Exists foreign t -> Exists foreign (skip_us t).
Proof.
  intros H. destruct t as [|c t]; [exact H|]. cbn [skip_us]. destruct (Ascii.eqb_spec c "_") as [->|N]; [|exact H].
  inversion H as [? ? X|? ? X]; subst; [|exact X]. apply foreign_facts in X as (_ & _ & X & _). now destruct X.
Qed.

Lemma base0_odd l : Exists odd_char l -> int_base0 l = None.
Proof.
  intros H. assert (Hf : Exists foreign l) by (eapply Exists_impl; [|exact H]; now intros x (? & _)).
  unfold int_base0. destruct l as [|c t]; [reflexivity|]. destruct (Ascii.eqb_spec c "0") as [->|Nc].
  - assert (Ht : Exists odd_char t).
    { inversion H as [? ? X|? ? X]; subst; [|exact X]. destruct X as (X & _). apply foreign_facts in X as (X & _). specialize (X 0 eq_refl). lia. }
    assert (Hrest : forall x t', t = x :: t' -> x <> "o"%char /\ x <> "O"%char -> foreign x \/ Exists foreign t').
    { intros x t' -> _. inversion Ht as [? ? X|? ? X]; subst; [left; apply X|right; eapply Exists_impl; [|exact X]; now intros y (? & _)]. }
    destruct t as [|x t']; [inversion Ht|].
    assert (Hb : forall b, b <= 16 -> (foreign x -> False) \/ True) by (intros; now right).
    destruct ((Ascii.eqb x "x" || Ascii.eqb x "X")%bool) eqn:Ex.
    { rewrite int_digits_foreign; [reflexivity|lia|]. apply skip_us_foreign. inversion Ht as [? ? X|? ? X]; subst.
      - destruct X as (X & _). apply foreign_facts in X as (_ & _ & _ & _ & _ & X & Y).
        apply Bool.orb_true_iff in Ex as [E|E]; apply Ascii.eqb_eq in E; contradiction.
      - eapply Exists_impl; [|exact X]; now intros y (? & _). }
    destruct ((Ascii.eqb x "o" || Ascii.eqb x "O")%bool) eqn:Eo.
    { rewrite int_digits_foreign; [reflexivity|lia|]. apply skip_us_foreign. inversion Ht as [? ? X|? ? X]; subst.
      - destruct X as (_ & X & Y). apply Bool.orb_true_iff in Eo as [E|E]; apply Ascii.eqb_eq in E; contradiction.
      - eapply Exists_impl; [|exact X]; now intros y (? & _). }
    destruct ((Ascii.eqb x "b" || Ascii.eqb x "B")%bool) eqn:Eb.
    { rewrite int_digits_foreign; [reflexivity|lia|]. apply skip_us_foreign. inversion Ht as [? ? X|? ? X]; subst.
      - destruct X as (X & _). apply foreign_facts in X as (X & _).
        apply Bool.orb_true_iff in Eb as [E|E]; apply Ascii.eqb_eq in E; subst x; specialize (X 11 eq_refl); lia.
      - eapply Exists_impl; [|exact X]; now intros y (? & _). }
    rewrite int_digits_foreign; [reflexivity|lia|exact Hf].
  - apply int_digits_foreign; [lia|exact Hf].
Qed.

Lemma odd_not_sign c : odd_char c -> Ascii.eqb c "+" = false /\ Ascii.eqb c "-" = false.
Proof. intros (X & _). apply foreign_facts in X as (_ & _ & _ & A & B & _). split; now apply Ascii.eqb_neq. Qed.

Lemma lstrip_odd s : Exists odd_char s -> Exists odd_char (lstrip_by is_cspace s).
Proof.
  induction s as [|c t IH]; intros H; [exact H|]. cbn [lstrip_by]. destruct (is_cspace c) eqn:E; [|exact H].
  inversion H as [? ? X|? ? X]; subst; [destruct X as (X & _); apply foreign_facts in X as (_ & X & _); congruence|exact (IH X)].
Qed.

Lemma odd_tail c t : Ascii.eqb c "+" = true \/ Ascii.eqb c "-" = true -> Exists odd_char (c :: t) -> Exists odd_char t.
Proof. intros Hc H. inversion H as [? ? X|? ? X]; subst; [|exact X]. apply odd_not_sign in X as [A B]. destruct Hc; congruence. Qed.

Lemma odd_fg t : Exists odd_char t -> Exists foreign t.
Proof. intros H. eapply Exists_impl; [|exact H]. now intros x (? & _). Qed.

Lemma is_int_odd s : Exists odd_char s -> is_int s = false.
Proof.
  intros H. apply lstrip_odd in H. unfold is_int, py_int0, py_int. destruct (lstrip_by is_cspace s) as [|c t]; [reflexivity|].
  destruct (Ascii.eqb c "+") eqn:E1.
  { assert (H' := odd_tail c t (or_introl E1) H). rewrite (base0_odd t H'), int_digits_foreign; [reflexivity|lia|now apply odd_fg]. }
  destruct (Ascii.eqb c "-") eqn:E2.
  { assert (H' := odd_tail c t (or_intror E2) H). rewrite (base0_odd t H'), int_digits_foreign; [reflexivity|lia|now apply odd_fg]. }
  rewrite (base0_odd _ H), int_digits_foreign; [reflexivity|lia|now apply odd_fg].
Qed.

Lemma is_int_letter c s : letter c -> is_int (c :: s) = false.
Proof.
  intros Hc. unfold is_int, py_int0, py_int. assert (Hs : is_cspace c = false) by (unfold is_cspace, letter in *; lia).
  cbn [lstrip_by]. rewrite Hs.
  assert (E1 : Ascii.eqb c "+" = false) by (apply Ascii.eqb_neq; intros ->; unfold letter in Hc; cbn in Hc; lia).
  assert (E2 : Ascii.eqb c "-" = false) by (apply Ascii.eqb_neq; intros ->; unfold letter in Hc; cbn in Hc; lia).
  assert (E3 : Ascii.eqb c "0" = false) by (apply Ascii.eqb_neq; intros ->; unfold letter in Hc; cbn in Hc; lia).
  rewrite E1, E2. unfold int_base0. rewrite E3.
  assert (Hd : int_digits 10 (c :: s) = None).
  { unfold int_digits, digit_val. unfold letter in Hc.
    destruct ((48 <=? Z.of_nat (nat_of_ascii c)) && (Z.of_nat (nat_of_ascii c) <=? 57)) eqn:A1; [lia|].
    destruct ((97 <=? Z.of_nat (nat_of_ascii c)) && (Z.of_nat (nat_of_ascii c) <=? 122)) eqn:A2.
    { match goal with |- (if ?a <? ?b then _ else _) = _ => destruct (Z.ltb_spec a b) as [X|X]; [lia|reflexivity] end. }
    destruct ((65 <=? Z.of_nat (nat_of_ascii c)) && (Z.of_nat (nat_of_ascii c) <=? 90)) eqn:A3; [|lia].
    match goal with |- (if ?a <? ?b then _ else _) = _ => destruct (Z.ltb_spec a b) as [X|X]; [lia|reflexivity] end. }
  rewrite Hd. reflexivity.
Qed.

Lemma is_int_num s z : py_int s = Some z -> is_int s = true.
Proof. intros H. unfold is_int. destruct (py_int0 s); [reflexivity|]. now rewrite H. Qed.

Lemma convert_stands v x : stands_for v x -> convert v = Ok x.
Proof.
  intros H. unfold convert. destruct H as [s z H| |c s H|s H].
  - apply py_int_text in H. now rewrite (is_int_num s z H), H.
  - reflexivity.
  - now rewrite is_int_letter.
  - now rewrite is_int_odd.
Qed.

(** ** The dictionary *)
Lemma seqb_iff : forall x y : string, String.eqb x y = true <-> x = y.
Proof. intros x y. apply String.eqb_eq. Qed.

Lemma match_pats_get ps line : NoDup (map snd ps) -> forall d d', match_pats ps line d = Ok d' ->
  (forall p key, In (p, key) ps -> match match_pat p (strip line) with
                                   | Some v => exists x, convert v = Ok x /\ value_at d' key = Some x
                                   | None => value_at d' key = value_at d key end) /\
  (forall key, ~ In key (map snd ps) -> value_at d' key = value_at d key).
Proof.
  induction ps as [|[p k] ps IH]; intros Hn d d' H; cbn [match_pats] in H.
  - injection H as <-. split; [intros p key []|reflexivity].
  - inversion Hn as [|? ? Hk Hn']; subst. destruct (match_pat p (strip line)) as [v|] eqn:Ep.
    + destruct (convert v) as [x|e] eqn:Ex; [|discriminate H]. cbn [rbind] in H. destruct (IH Hn' _ _ H) as (A & B). split.
      * intros q key [[= <- <-]|Hin].
        -- rewrite Ep. exists x. split; [exact Ex|]. rewrite (B k Hk). apply (dget_dset_same _ seqb_iff).
        -- specialize (A q key Hin). destruct (match_pat q (strip line)); [exact A|]. rewrite A. apply (dget_dset_other _ seqb_iff).
           intros ->. apply Hk. apply (in_map snd) in Hin. exact Hin.
      * intros key Hkey. cbn [map snd In] in Hkey. rewrite B by tauto. apply (dget_dset_other _ seqb_iff). intros ->. tauto.
    + destruct (IH Hn' _ _ H) as (A & B). split.
      * intros q key [[= <- <-]|Hin]; [rewrite Ep; exact (B k Hk)|exact (A q key Hin)].
      * intros key Hkey. cbn [map snd In] in Hkey. apply B. tauto.
Qed.

Lemma patterns_nodup : NoDup (map snd patterns).
Proof. cbn [map snd patterns]. repeat (constructor; [cbn [In]; intuition discriminate|]). constructor. Qed.

Definition pat_says (p : pat) (line v : str) : Prop := match_pat p (strip line) = Some v.

Lemma parse_get lines : forall d d', parse_lines lines d = Ok d' -> forall p key, In (p, key) patterns ->
  (forall v, last_says (pat_says p) lines v -> exists x, convert v = Ok x /\ value_at d' key = Some x) /\
  (none_says (pat_says p) lines -> value_at d' key = value_at d key).
Proof.
  induction lines as [|line lines IH]; intros d d' H p key Hin; cbn [parse_lines] in H.
  - injection H as <-. split; [|reflexivity]. intros v (l1 & l & l2 & E & _). destruct l1; discriminate E.
  - destruct (match_pats patterns line d) as [d1|e] eqn:E1; [|discriminate H]. cbn [rbind] in H.
    destruct (match_pats_get _ line patterns_nodup _ _ E1) as (A & _). specialize (A p key Hin).
    destruct (IH _ _ H p key Hin) as (B1 & B2). split.
    + intros v (l1 & l & l2 & E & Hv & Hn). destruct l1 as [|l' l1]; cbn [app] in E; injection E as -> ->.
      * unfold pat_says in Hv. rewrite Hv in A. rewrite B2; [exact A|]. intros l' v' Hl. exact (Hn l' v' Hl).
      * apply B1. exists l1, l, l2. auto.
    + intros Hn. rewrite B2 by (intros l' v' Hl; apply Hn; now right).
      destruct (match_pat p (strip line)) as [v|] eqn:Ep; [|exact A]. exfalso. exact (Hn line v (or_introl eq_refl) Ep).
Qed.

Lemma parse_other lines : forall d d' key, parse_lines lines d = Ok d' -> ~ In key (map snd patterns) -> value_at d' key = value_at d key.
Proof.
  induction lines as [|line lines IH]; intros d d' key H Hk; cbn [parse_lines] in H; [now injection H as <-|].
  destruct (match_pats patterns line d) as [d1|e] eqn:E1; [|discriminate H]. cbn [rbind] in H. rewrite (IH _ _ _ H Hk).
  exact (proj2 (match_pats_get _ line patterns_nodup _ _ E1) key Hk).
Qed.

Lemma last_or_none p lines : none_says (pat_says p) lines \/ exists v, last_says (pat_says p) lines v.
Proof.
  induction lines as [|line lines IH]; [left; intros l v []|]. destruct IH as [IH|(v & l1 & l & l2 & -> & Hv & Hn)].
  - destruct (match_pat p (strip line)) as [v|] eqn:E.
    + right. exists v, [], line, lines. split; [reflexivity|]. split; [exact E|]. intros l' v' Hl. exact (IH l' v' Hl).
    + left. intros l v [<-|Hl]; [unfold pat_says; congruence|exact (IH l v Hl)].
  - right. exists v, (line :: l1), l, l2. auto.
Qed.

Lemma says_ext P Q lines v : (forall l w, P l w <-> Q l w) -> last_says P lines v -> last_says Q lines v.
Proof. intros H (l1 & l & l2 & E & Hv & Hn). exists l1, l, l2. split; [exact E|]. split; [now apply H|]. intros l' v' Hl Hq. apply (Hn l' v' Hl). now apply H. Qed.

Lemma none_ext P Q lines : (forall l w, P l w <-> Q l w) -> none_says P lines -> none_says Q lines.
Proof. intros H Hn l v Hl Hq. apply (Hn l v Hl). now apply H. Qed.

Ltac endsp := split; [intros ? ? [= <- _]; reflexivity|intros ?t ?c ?E; match type of E with s2l ?l = _ =>
   let n := eval vm_compute in (removelast (s2l l)) in let z := eval vm_compute in (last (s2l l) "a"%char) in
   change (s2l l) with (n ++ [z]) in E; apply app_inj_tail in E as [_ <-]; reflexivity end].

Lemma labels_ok key label : In (key, label) labels -> s2l label <> [] /\ tight (s2l label) /\ In (PLabel label, key) patterns.
Proof.
  intros H. cbn [labels In] in H.
  decompose [or] H; clear H; match goal with H : (_, _) = _ |- _ => injection H as <- <- | H : False |- _ => destruct H end;
    (split; [discriminate|]; split; [endsp|cbn [patterns In]; tauto]).
Qed.

Lemma label_iff key label : In (key, label) labels -> forall l w, line_says label l w <-> pat_says (PLabel label) l w.
Proof. intros H l w. apply labels_ok in H as (A & B & _). unfold pat_says. now rewrite (label_match label l w A B). Qed.

Lemma freq_iff l w : freq_says l w <-> pat_says PFreq l w.
Proof. unfold pat_says. now rewrite freq_match. Qed.

Lemma spread_other online d d' key : spread_flags online d = Ok d' -> key <> "flags"%string -> value_at d' key = value_at d key.
Proof.
  unfold spread_flags. intros H Hk. destruct (dget String.eqb d "flags"%string) as [[n|[|c s]|f|b]|]; try (injection H as <-; reflexivity).
  - destruct (n =? 0); [injection H as <-; reflexivity|discriminate H].
  - destruct online as [cpus|e]; [|discriminate H]. cbn [rbind] in H. injection H as <-. now apply (dget_dset_other _ seqb_iff).
Qed.

Lemma info_parts lines online atom d : get_cpu_info (Ok lines) online atom = Ok d ->
  exists d1 d2 h, parse_lines lines [] = Ok d1 /\ spread_flags online d1 = Ok d2 /\ atom = Ok h /\ d = dset String.eqb d2 "hybrid"%string (IBool h).
Proof.
  unfold get_cpu_info. cbn [rbind]. destruct (parse_lines lines []) as [d1|e]; [|discriminate]. cbn [rbind].
  destruct (spread_flags online d1) as [d2|e] eqn:E2; [|discriminate]. cbn [rbind]. destruct atom as [h|e]; [|discriminate].
  cbn [rbind]. intros [= <-]. exists d1, d2, h. auto.
Qed.

Lemma field_gen lines online atom d p key : get_cpu_info (Ok lines) online atom = Ok d -> In (p, key) patterns -> key <> "flags"%string ->
  (forall v x, last_says (pat_says p) lines v -> stands_for v x -> value_at d key = Some x) /\
  (none_says (pat_says p) lines -> value_at d key = None).
Proof.
  intros H Hin Hk. destruct (info_parts _ _ _ _ H) as (d1 & d2 & h & E1 & E2 & -> & ->).
  assert (Hh : key <> "hybrid"%string) by (intros ->; cbn [patterns In] in Hin; intuition discriminate).
  assert (E : value_at (dset String.eqb d2 "hybrid"%string (IBool h)) key = value_at d1 key).
  { rewrite <- (spread_other _ _ _ key E2 Hk). now apply (dget_dset_other _ seqb_iff). }
  rewrite E. destruct (parse_get _ _ _ E1 p key Hin) as (A & B). split; [|exact B].
  intros v x Hl Hs. destruct (A v Hl) as (y & Ey & ->). rewrite (convert_stands v x Hs) in Ey. now injection Ey as ->.
Qed.

Lemma field_l lines online atom d key label : get_cpu_info (Ok lines) online atom = Ok d -> In (key, label) labels -> key <> "flags"%string ->
  (forall v x, last_says (line_says label) lines v -> stands_for v x -> value_at d key = Some x) /\
  (none_says (line_says label) lines -> value_at d key = None).
Proof.
  intros H Hin Hk. destruct (labels_ok _ _ Hin) as (_ & _ & Hp). destruct (field_gen _ _ _ _ _ _ H Hp Hk) as (A & B). split.
  - intros v x Hl. apply A. apply (says_ext _ _ _ _ (label_iff _ _ Hin) Hl).
  - intros Hn. apply B. exact (none_ext _ _ _ (label_iff _ _ Hin) Hn).
Qed.

Lemma base_freq_l lines online atom d : get_cpu_info (Ok lines) online atom = Ok d ->
  (forall v x, last_says freq_says lines v -> stands_for v x -> value_at d "basefreq" = Some x) /\
  (none_says freq_says lines -> value_at d "basefreq" = None).
Proof.
  intros H. assert (Hp : In (PFreq, "basefreq"%string) patterns) by (cbn [patterns In]; tauto).
  destruct (field_gen _ _ _ _ _ _ H Hp) as (A & B); [discriminate|]. split.
  - intros v x Hl. apply A. exact (says_ext _ _ _ _ freq_iff Hl).
  - intros Hn. apply B. exact (none_ext _ _ _ freq_iff Hn).
Qed.

Lemma hybrid_l lines online atom d : get_cpu_info (Ok lines) online atom = Ok d -> exists h, atom = Ok h /\ value_at d "hybrid" = Some (IBool h).
Proof. intros H. destruct (info_parts _ _ _ _ H) as (d1 & d2 & h & _ & _ & -> & ->). exists h. split; [reflexivity|apply (dget_dset_same _ seqb_iff)]. Qed.

Lemma flags_l lines cpus atom d ws : get_cpu_info (Ok lines) (Ok cpus) atom = Ok d ->
  last_says (line_says "Flags:") lines (join " " ws) -> ws <> [] -> Forall a_word ws -> stands_for (join " " ws) (IText (join " " ws)) ->
  exists f, value_at d "flags" = Some (IFlags f) /\ forall cpu, (In cpu cpus -> dget Z.eqb f cpu = Some ws) /\ (~ In cpu cpus -> dget Z.eqb f cpu = None).
Proof.
  intros H Hl Hne Hw Hs. destruct (info_parts _ _ _ _ H) as (d1 & d2 & h & E1 & E2 & -> & ->).
  assert (Hin : In ("flags", "Flags:")%string labels) by (cbn [labels In]; tauto).
  destruct (labels_ok _ _ Hin) as (_ & _ & Hp). destruct (parse_get _ _ _ E1 _ _ Hp) as (A & _).
  destruct (A _ (says_ext _ _ _ _ (label_iff _ _ Hin) Hl)) as (x & Ex & Ef). rewrite (convert_stands _ _ Hs) in Ex. injection Ex as <-.
  unfold spread_flags in E2. unfold value_at in Ef. rewrite Ef in E2.
  destruct (join " " ws) as [|c s] eqn:Ej.
  { exfalso. destruct ws as [|w ws]; [congruence|]. inversion Hw as [|? ? [Hw1 _] _]; subst. destruct w as [|y w]; [congruence|]. destruct ws; discriminate Ej. }
  assert (Hww : words (c :: s) = ws).
  { rewrite <- Ej. apply words_join. eapply Forall_impl; [|exact Hw]. intros w (A1 & A2). split; [exact A1|]. now apply Forall_forall. }
  cbn [rbind] in E2. rewrite Hww in E2. injection E2 as <-.
  exists (map (fun cpu => (cpu, ws)) cpus). split.
  - unfold value_at. rewrite (dget_dset_other _ seqb_iff) by discriminate. apply (dget_dset_same _ seqb_iff).
  - intros cpu. clear. induction cpus as [|c cpus (A & B)]; [split; [intros []|reflexivity]|]. cbn [map dget]. split.
    + intros [->|Hc]; [now rewrite Z.eqb_refl|]. destruct (Z.eqb_spec cpu c); [reflexivity|exact (A Hc)].
    + intros Hn. destruct (Z.eqb_spec cpu c) as [->|N]; [exfalso; apply Hn; now left|]. apply B. intros Hc. apply Hn. now right.
Qed.

(** ** Success *)
Lemma match_pats_ok line ps : (forall p key v, In (p, key) ps -> pat_says p line v -> exists x, stands_for v x) -> forall d, exists d', match_pats ps line d = Ok d'.
Proof.
  induction ps as [|[p k] ps IH]; intros H d; cbn [match_pats]; [eauto|].
  destruct (match_pat p (strip line)) as [v|] eqn:E.
  - destruct (H p k v (or_introl eq_refl) E) as (x & Hx). rewrite (convert_stands _ _ Hx). cbn [rbind]. apply IH. intros q key w Hq. apply (H q key w). now right.
  - apply IH. intros q key w Hq. apply (H q key w). now right.
Qed.

Lemma parse_ok lines : (forall line p key v, In line lines -> In (p, key) patterns -> pat_says p line v -> exists x, stands_for v x) ->
  forall d, exists d', parse_lines lines d = Ok d'.
Proof.
  induction lines as [|l lines IH]; intros H d; cbn [parse_lines]; [eauto|].
  destruct (match_pats_ok l patterns) with (d := d) as (d1 & E1); [intros p key v Hp; apply (H l p key v); [now left|exact Hp]|].
  rewrite E1. cbn [rbind]. apply IH. intros l' p key v Hl. apply (H l' p key v). now right.
Qed.

Lemma pattern_label p key : In (p, key) patterns -> (p = PFreq /\ key = "basefreq"%string) \/ exists label, p = PLabel label /\ In (key, label) labels.
Proof.
  intros H. cbn [patterns In] in H.
  decompose [or] H; clear H; match goal with H : (_, _) = _ |- _ => injection H as <- <- | H : False |- _ => destruct H end;
    solve [left; auto|right; eexists; split; [reflexivity|cbn [labels In]; tauto]].
Qed.

Lemma identifies_l lines cpus h : plain lines -> exists d, get_cpu_info (Ok lines) (Ok cpus) (Ok h) = Ok d.
Proof.
  intros (P1 & P2 & P3). unfold get_cpu_info. cbn [rbind].
  destruct (parse_ok lines) with (d := @nil (string * ival)) as (d1 & E1).
  { intros line p key v Hl Hp Hs. destruct (pattern_label _ _ Hp) as [[-> ->]|(label & -> & Hlab)].
    - apply (P2 line v Hl). now apply freq_iff.
    - apply (P1 line key label v Hl Hlab). now apply (label_iff _ _ Hlab). }
  rewrite E1. cbn [rbind].
  assert (Hin : In ("flags", "Flags:")%string labels) by (cbn [labels In]; tauto).
  destruct (labels_ok _ _ Hin) as (_ & _ & Hp). destruct (parse_get _ _ _ E1 _ _ Hp) as (A & B).
  assert (Hf : exists d2, spread_flags (Ok cpus) d1 = Ok d2).
  { unfold spread_flags. destruct (last_or_none (PLabel "Flags:") lines) as [N|(v & L)].
    - specialize (B N). unfold value_at in B. rewrite B. cbn [dget]. eauto.
    - destruct (A v L) as (x & Ex & Ev). unfold value_at in Ev. rewrite Ev.
      destruct L as (l1 & l & l2 & -> & Hv & _). assert (Hs : stands_for v (IText v)).
      { apply (P3 l v); [apply in_elt|]. now apply (label_iff _ _ Hin). }
      rewrite (convert_stands _ _ Hs) in Ex. injection Ex as <-. destruct v; cbn [rbind]; eauto. }
  destruct Hf as (d2 & ->). cbn [rbind]. eauto.
Qed.
