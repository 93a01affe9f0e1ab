(** Lemmas about reading the topology files. *)
From Verif Require Import Base L_Base M_Text S_Text L_Text L_CPUIdle M_CPUInfo S_CPUInfo M_Topo S_Topo.
From Coq Require Import ZifyBool Permutation.

(** ** Numbers *)
Lemma int_digits_nl s n : numeral s n -> int_digits 10 (s ++ [newline]) = Some n.
Proof.
  intros (Hne & Hd & Hv & _). destruct s as [|c t]; [congruence|].
  unfold int_digits. cbn [app].
  inversion Hd as [|c' t' Hc Ht]; subst. rewrite digit_dec_val by exact Hc.
  destruct (Z.of_nat (nat_of_ascii c) - 48 <? 10) eqn:E; [|unfold is_digit in Hc; lia].
  change (c :: t ++ [newline]) with ((c :: t) ++ [newline]). rewrite scan_digits_num by exact Hd.
  reflexivity.
Qed.

Lemma number_read t n : number_file t n -> str_to_int t = Ok n.
Proof.
  intros (s & Hn & ->). pose proof (int_digits_nl s n Hn) as Hi.
  assert (Hb : int_base0 (s ++ [newline]) = Some n).
  { destruct Hn as (Hne & Hd & Hv & Hz). destruct s as [|c t]; [congruence|].
    unfold int_base0. cbn [app]. destruct (Ascii.eqb c "0") eqn:E; [|exact Hi].
    apply Ascii.eqb_eq in E. subst c. specialize (Hz eq_refl). injection Hz as ->. cbn [app] in *.
    assert (spelled ["0"%char] = 0) as E0 by reflexivity. rewrite E0 in *. subst n.
    rewrite Hi. reflexivity. }
  unfold str_to_int, py_int0.
  destruct Hn as (Hne & Hd & Hv & Hz). destruct s as [|c t]; [congruence|].
  inversion Hd as [|c' t' Hc Ht]; subst. cbn [app] in *.
  rewrite lstrip_stop by (now apply digit_nocspace).
  rewrite (digit_not c "+"), (digit_not c "-") by (auto; vm_compute; lia). now rewrite Hb.
Qed.

Lemma numeral_nospace s n : numeral s n -> Forall (fun c => is_space c = false) s.
Proof. intros (_ & H & _). now apply digits_nospace. Qed.

Lemma compact_nospace i s : compact i s -> Forall (fun c => is_space c = false) s.
Proof.
  intros [n s' H|a b s' t Hs Ht]; [now apply numeral_nospace in H|].
  apply Forall_app. split; [now apply numeral_nospace in Hs|].
  constructor; [reflexivity|now apply numeral_nospace in Ht].
Qed.

Lemma compact_written i s : compact i s -> written i s.
Proof.
  intros [n s' H|a b s' t Hs Ht].
  - rewrite <- (app_nil_r s'). apply (W_num n s' [] []); [exact H|constructor|constructor].
  - pose proof (W_range a b s' t [] [] [] [] Hs Ht) as W. cbn [app] in W. rewrite app_nil_r in W.
    apply W; constructor.
Qed.

Lemma commas_nospace ts : Forall (Forall (fun c => is_space c = false)) ts ->
  Forall (fun c => is_space c = false) (commas ts).
Proof.
  induction ts as [|w ws IH]; intros H; [constructor|]. inversion H as [|? ? Hw Hs]; subst.
  destruct ws as [|w' ws]; [exact Hw|].
  change (commas (w :: w' :: ws)) with (w ++ ","%char :: commas (w' :: ws)).
  apply Forall_app. split; [exact Hw|]. constructor; [reflexivity|]. now apply IH.
Qed.

Lemma list_read t l : list_file t l -> read_range (Ok t) = Ok l.
Proof.
  intros (its & ts & Hc & Hd & -> & ->). unfold read_range. cbn [rbind].
  change newline with ("010"%char). rewrite strip_nl.
  - assert (Hw : Forall2 written its (concat [ts])).
    { cbn [concat]. rewrite app_nil_r. induction Hc; constructor; [now apply compact_written|].
      apply IHHc. now inversion Hd. }
    pose proof (parse_chunks_ok [ts] its Hw Hd) as E. unfold parse_int_list in E. exact E.
  - apply commas_nospace. clear Hd. induction Hc; constructor; [now apply compact_nospace in H|exact IHHc].
Qed.

(** ** /proc/cpuinfo *)
Lemma prefix_app p l : has_prefix p (p ++ l) = true.
Proof. induction p as [|c p IH]; [reflexivity|]. cbn. now rewrite Ascii.eqb_refl. Qed.

Lemma after_colon_app a b : has_char ":" a = false -> after_colon (a ++ ":"%char :: b) = b.
Proof.
  unfold has_char. induction a as [|c a IH]; [reflexivity|]. cbn [existsb app after_colon].
  intros H. apply orb_false_iff in H as [H1 H2]. rewrite Ascii.eqb_sym, H1. now apply IH.
Qed.

Lemma field_number name n line lines i : has_char ":" (s2l name) = false -> field name n line ->
  nth_error lines i = Some line -> get_number name lines i = Ok n.
Proof.
  intros Hname (pad & s & Hp & Hn & ->) Hi. unfold get_number. rewrite Hi, prefix_app.
  rewrite app_assoc, after_colon_app.
  - unfold str_to_int. pose proof (py_int0_num [" "%char] s n [] Hn) as E. rewrite app_nil_r in E.
    cbn [app] in E. rewrite E; [reflexivity| |constructor]. repeat constructor.
  - apply has_char_false. intros H. apply in_app_or in H as [H|H].
    + apply has_char_false in Hname. contradiction.
    + pose proof (blanks_nochar pad ":" Hp ltac:(discriminate) ltac:(discriminate)) as E.
      apply has_char_false in E. contradiction.
Qed.

(** The text of a block without its last newline. *)
Lemma unlines_join ls : ls <> [] -> unlines ls = join newline ls ++ [newline].
Proof.
  induction ls as [|l ls IH]; [congruence|]. intros _. destruct ls as [|l' ls].
  - unfold unlines. cbn. now rewrite app_nil_r.
  - change (unlines (l :: l' :: ls)) with ((l ++ [newline]) ++ unlines (l' :: ls)).
    rewrite IH by discriminate. change (join newline (l :: l' :: ls)) with (l ++ newline :: join newline (l' :: ls)).
    rewrite <- !app_assoc. reflexivity.
Qed.

(** Lines that are not empty have no empty line in between. *)
Definition solid (t : str) : Prop := forall b, split_blank (t ++ newline :: newline :: b) = t :: split_blank b.

Lemma split_blank_cons a b l : Ascii.eqb a newline && Ascii.eqb b newline = false ->
  split_blank (a :: b :: l) = match split_blank (b :: l) with w :: ws => (a :: w) :: ws | [] => [[a]] end.
Proof. intros H. cbn [split_blank]. rewrite H. reflexivity. Qed.

Lemma split_blank_ne l : exists w ws, split_blank l = w :: ws.
Proof.
  destruct l as [|a [|b l]]; [now exists [], []|now exists [a], []|].
  destruct (Ascii.eqb a newline && Ascii.eqb b newline) eqn:E.
  - exists [], (split_blank l). cbn [split_blank]. now rewrite E.
  - rewrite split_blank_cons by exact E. destruct (split_blank (b :: l)); eauto.
Qed.

(** A character that is not a newline goes to the first piece. *)
Lemma split_blank_char a l : Ascii.eqb a newline = false ->
  exists w ws, split_blank l = w :: ws /\ split_blank (a :: l) = (a :: w) :: ws.
Proof.
  intros H. destruct l as [|b l].
  - exists [], []. split; reflexivity.
  - destruct (split_blank_ne (b :: l)) as (w & ws & E). exists w, ws. split; [exact E|].
    rewrite split_blank_cons by (now rewrite H). rewrite E. reflexivity.
Qed.

Lemma split_blank_word w l : ~ In newline w ->
  exists x xs, split_blank l = x :: xs /\ split_blank (w ++ l) = (w ++ x) :: xs.
Proof.
  induction w as [|a w IH]; intros H.
  - destruct (split_blank_ne l) as (x & xs & E). exists x, xs. split; exact E.
  - destruct IH as (x & xs & E1 & E2); [intros G; apply H; now right|].
    destruct (split_blank_char a (w ++ l)) as (y & ys & E3 & E4).
    { apply Ascii.eqb_neq. intros ->. apply H. now left. }
    exists x, xs. split; [exact E1|]. rewrite E2 in E3. injection E3 as <- <-. exact E4.
Qed.

Lemma split_blank_nl a l : Ascii.eqb a newline = false ->
  exists w ws, split_blank (a :: l) = w :: ws /\ split_blank (newline :: a :: l) = (newline :: w) :: ws.
Proof.
  intros H. destruct (split_blank_ne (a :: l)) as (w & ws & E). exists w, ws. split; [exact E|].
  rewrite split_blank_cons by (rewrite H; apply andb_false_r). rewrite E. reflexivity.
Qed.

Lemma solid_lines ls : ls <> [] -> Forall (fun l => l <> [] /\ ~ In newline l) ls -> solid (join newline ls).
Proof.
  induction ls as [|l ls IH]; [congruence|]. intros _ H b. inversion H as [|? ? [Hl1 Hl2] Hs]; subst.
  destruct ls as [|l' ls].
  - cbn [join]. destruct (split_blank_word l (newline :: newline :: b) Hl2) as (x & xs & E1 & E2).
    assert (E3 : split_blank (newline :: newline :: b) = [] :: split_blank b) by reflexivity.
    rewrite E3 in E1. injection E1 as <- <-. rewrite E2. now rewrite app_nil_r.
  - change (join newline (l :: l' :: ls)) with (l ++ newline :: join newline (l' :: ls)).
    rewrite <- app_assoc. cbn [app].
    destruct (split_blank_word l (newline :: join newline (l' :: ls) ++ newline :: newline :: b) Hl2) as (x & xs & E1 & E2).
    rewrite E2. specialize (IH ltac:(discriminate) Hs b).
    assert (exists a r, join newline (l' :: ls) ++ newline :: newline :: b = a :: r /\ Ascii.eqb a newline = false) as (a & r & Ea & Hn).
    { inversion Hs as [|? ? [H1 H2] _]; subst. destruct l' as [|a l']; [congruence|]. exists a.
      destruct ls as [|l'' ls]; cbn [join app]; eexists; (split; [reflexivity|]);
        apply Ascii.eqb_neq; intros ->; apply H2; now left. }
    destruct (split_blank_nl a r Hn) as (w & ws & E3 & E4). rewrite <- Ea in E3, E4.
    rewrite IH in E3. injection E3 as <- <-. rewrite E4 in E1. injection E1 as <- <-. reflexivity.
Qed.

Lemma split_blank_last ls : ls <> [] -> Forall (fun l => l <> [] /\ ~ In newline l) ls ->
  split_blank (join newline ls) = [join newline ls].
Proof.
  induction ls as [|l ls IH]; [congruence|]. intros _ H. inversion H as [|? ? [Hl1 Hl2] Hs]; subst.
  destruct ls as [|l' ls].
  - cbn [join]. destruct (split_blank_word l [] Hl2) as (x & xs & E1 & E2).
    cbn in E1. injection E1 as <- <-. rewrite !app_nil_r in E2. exact E2.
  - change (join newline (l :: l' :: ls)) with (l ++ newline :: join newline (l' :: ls)).
    destruct (split_blank_word l (newline :: join newline (l' :: ls)) Hl2) as (x & xs & E1 & E2).
    rewrite E2. specialize (IH ltac:(discriminate) Hs).
    assert (exists a r, join newline (l' :: ls) = a :: r /\ Ascii.eqb a newline = false) as (a & r & Ea & Hn).
    { inversion Hs as [|? ? [H1 H2] _]; subst. destruct l' as [|a l']; [congruence|]. exists a.
      destruct ls as [|l'' ls]; cbn [join app]; eexists; (split; [reflexivity|]);
        apply Ascii.eqb_neq; intros ->; apply H2; now left. }
    destruct (split_blank_nl a r Hn) as (w & ws & E3 & E4). rewrite <- Ea in E3, E4.
    rewrite IH in E3. injection E3 as <- <-. rewrite E4 in E1. injection E1 as <- <-. reflexivity.
Qed.

(** The blocks joined by empty lines. *)
Fixpoint block_text (bs : list (list str)) : str :=
  match bs with
  | [] => []
  | [b] => join newline b
  | b :: t => join newline b ++ newline :: newline :: block_text t
  end.

Definition good_block (b : list str) : Prop :=
  b <> [] /\ Forall (fun l => l <> [] /\ ~ In newline l) b.

Lemma split_blocks bs : bs <> [] -> Forall good_block bs ->
  split_blank (block_text bs) = map (join newline) bs.
Proof.
  induction bs as [|b bs IH]; [congruence|]. intros _ H. inversion H as [|? ? [H1 H2] Hs]; subst.
  destruct bs as [|b' bs].
  - cbn [block_text map]. now apply split_blank_last.
  - change (block_text (b :: b' :: bs)) with (join newline b ++ newline :: newline :: block_text (b' :: bs)).
    rewrite solid_lines by assumption. rewrite IH by (assumption || discriminate). reflexivity.
Qed.

Lemma file_text bs : bs <> [] -> Forall good_block bs ->
  concat (map (fun b => unlines b ++ [newline]) bs) = block_text bs ++ [newline; newline].
Proof.
  induction bs as [|b bs IH]; [congruence|]. intros _ H. inversion H as [|? ? [H1 H2] Hs]; subst.
  cbn [map concat]. rewrite unlines_join by exact H1. destruct bs as [|b' bs].
  - cbn [map concat block_text]. rewrite app_nil_r, <- app_assoc. reflexivity.
  - rewrite IH by (assumption || discriminate).
    change (block_text (b :: b' :: bs)) with (join newline b ++ newline :: newline :: block_text (b' :: bs)).
    rewrite <- !app_assoc. reflexivity.
Qed.

Lemma join_last ls l : exists p, join newline (ls ++ [l]) = p ++ l.
Proof.
  induction ls as [|x ls IH]; [now exists []|]. destruct IH as (p & E). exists (x ++ newline :: p).
  destruct (ls ++ [l]) as [|y ys] eqn:E2; [destruct ls; discriminate|].
  change ((x :: ls) ++ [l]) with (x :: (ls ++ [l])). rewrite E2.
  change (join newline (x :: y :: ys)) with (x ++ newline :: join newline (y :: ys)). rewrite E.
  rewrite <- app_assoc. reflexivity.
Qed.

Lemma block_text_last bs b : exists p, block_text (bs ++ [b]) = p ++ join newline b.
Proof.
  induction bs as [|x bs IH]; [now exists []|]. destruct IH as (p & E).
  exists (join newline x ++ newline :: newline :: p).
  destruct (bs ++ [b]) as [|y ys] eqn:E2; [destruct bs; discriminate|].
  change ((x :: bs) ++ [b]) with (x :: (bs ++ [b])). rewrite E2.
  change (block_text (x :: y :: ys)) with (join newline x ++ newline :: newline :: block_text (y :: ys)).
  rewrite E. rewrite <- app_assoc. reflexivity.
Qed.

Lemma strip_file t e l : l <> [] -> hd "0"%char l = e -> is_space e = false ->
  (exists p x, l = p ++ [x] /\ is_space x = false) -> forallb is_space t = true ->
  strip (l ++ t) = l.
Proof.
  intros Hne He Hs (p & x & Hl & Hx) Ht. change (strip_by is_space ([] ++ l ++ t) = l).
  apply strip_mid; [exact Hne|now rewrite He| |reflexivity|exact Ht]. rewrite Hl, last_last. exact Hx.
Qed.

Lemma printable_nospace e : (33 <= nat_of_ascii e <= 126)%nat -> is_space e = false.
Proof. unfold is_space. lia. Qed.

Lemma block_good m c b : cpuinfo_block m c b -> good_block b.
Proof.
  intros (H1 & (ls & l & e & -> & _) & _). split; [destruct ls; discriminate|exact H1].
Qed.

Lemma block_head m c b : cpuinfo_block m c b -> hd "0"%char (join newline b) = "p"%char /\ join newline b <> [].
Proof.
  intros (_ & _ & (l & Hl & (pad & s & _ & _ & El)) & _). destruct b as [|x b]; [discriminate|].
  cbn in Hl. injection Hl as ->. subst l. destruct b as [|y b]; split; try reflexivity; discriminate.
Qed.

Lemma block_lines b : good_block b -> split_on newline (join newline b) = b.
Proof.
  intros [Hne H]. rewrite split_join by exact Hne. clear Hne.
  induction H as [|l b [_ Hl] H IH]; [reflexivity|]. cbn [flat_map]. rewrite split_on_none.
  - cbn [app]. now rewrite IH.
  - now apply has_char_false.
Qed.

Lemma cpu_blocks_read m bs : forall info, Forall (fun b => cpuinfo_block m (fst b) (snd b)) bs ->
  cpu_blocks (map (join newline) (map snd bs)) info =
  Ok (fold_left (fun d b => dset Z.eqb d (fst b) (snd b)) bs info).
Proof.
  induction bs as [|[c b] bs IH]; intros info H; [reflexivity|]. inversion H as [|? ? Hb Hs]; subst.
  cbn [map fst snd] in *. cbn [cpu_blocks fold_left fst snd]. rewrite block_lines by (eapply block_good; exact Hb).
  destruct Hb as (_ & _ & (l & Hl & Hf) & _).
  erewrite field_number; [|reflexivity|exact Hf|exact Hl]. cbn [rbind]. now apply IH.
Qed.

Lemma dget_fold_keys {V} bs : forall (info : list (Z * V)) c, ~ In c (map fst bs) ->
  dget Z.eqb (fold_left (fun d b => dset Z.eqb d (fst b) (snd b)) bs info) c = dget Z.eqb info c.
Proof.
  induction bs as [|[x b] bs IH]; intros info c H; [reflexivity|]. cbn [map fst In] in H. cbn [fold_left fst snd].
  rewrite IH by tauto. apply dget_dset_other; [apply Zeqb_spec|]. intros ->. apply H. now left.
Qed.

Lemma dget_fold_blocks {V} bs : forall (info : list (Z * V)) c b, NoDup (map fst bs) -> In (c, b) bs ->
  dget Z.eqb (fold_left (fun d b => dset Z.eqb d (fst b) (snd b)) bs info) c = Some b.
Proof.
  induction bs as [|[x y] bs IH]; intros info c b Hn Hi; [contradiction|].
  cbn [map fst] in Hn. inversion Hn as [|? ? Hx Hn']; subst. cbn [fold_left fst snd]. destruct Hi as [E|Hi].
  - injection E as -> ->. rewrite dget_fold_keys by exact Hx. apply dget_dset_same. apply Zeqb_spec.
  - now apply IH.
Qed.

Lemma cpuinfo_blocks m bs : bs <> [] -> Forall (fun b => cpuinfo_block m (fst b) (snd b)) bs ->
  cpu_blocks (split_blank (strip (concat (map (fun b : Z * list str => unlines (snd b) ++ [newline]) bs)))) [] =
  Ok (fold_left (fun d b => dset Z.eqb d (fst b) (snd b)) bs []).
Proof.
  intros Hne Hb.
  assert (Hg : Forall good_block (map snd bs)).
  { rewrite Forall_map. eapply Forall_impl; [|exact Hb]. intros b. apply block_good. }
  assert (Hne2 : map snd bs <> []) by (destruct bs; [congruence|discriminate]).
  assert (Et : concat (map (fun b : Z * list str => unlines (snd b) ++ [newline]) bs) =
               block_text (map snd bs) ++ [newline; newline]).
  { rewrite <- file_text by assumption. now rewrite map_map. }
  rewrite Et.
    rewrite (strip_file _ "p"%char).
    + rewrite split_blocks by assumption. apply (cpu_blocks_read m). exact Hb.
    + destruct bs as [|[c b] bs]; [congruence|]. inversion Hb as [|? ? Hb1 _]; subst.
      apply block_head in Hb1 as [_ Hb1]. cbn [map snd] in *. intros E. apply Hb1.
      destruct (map snd bs); cbn [block_text] in E; [exact E|]. now destruct (join newline b).
    + destruct bs as [|[c b] bs]; [congruence|]. inversion Hb as [|? ? Hb1 _]; subst.
      apply block_head in Hb1 as [Hb1 Hb2]. cbn [map snd] in *.
      destruct (map snd bs); cbn [block_text]; [exact Hb1|]. now destruct (join newline b).
    + reflexivity.
    + destruct (@exists_last _ bs Hne) as (bs' & [c b] & E). subst bs. rewrite map_app. cbn [map snd].
      apply Forall_app in Hb as [_ Hb]. inversion Hb as [|? ? (_ & (ls & l & e & E & He) & _) _]; subst.
      cbn [snd] in E. subst b. destruct (block_text_last (map snd bs') (ls ++ [l ++ [e]])) as (p & ->).
      destruct (join_last ls (l ++ [e])) as (p' & E'). exists (p ++ p' ++ l), e.
      split; [|now apply printable_nospace].
      transitivity (p ++ (p' ++ (l ++ [e]))); [apply (f_equal (app p)); exact E'|]. now rewrite <- !app_assoc.
    + reflexivity.
Qed.

Lemma cpuinfo_missing m on t c : on <> [] -> cpuinfo_file m on t -> ~ In c on ->
  exists info, cpu_blocks (split_blank (strip t)) [] = Ok info /\ dget Z.eqb info c = None.
Proof.
  intros Hon (bs & Hp & Hb & ->) Hc.
  assert (Hne : bs <> []). { intros ->. cbn in Hp. apply Permutation_nil in Hp. congruence. }
  eexists. split; [apply (cpuinfo_blocks m); assumption|]. rewrite dget_fold_keys; [reflexivity|].
  intros Hi. apply Hc. exact (Permutation_in _ Hp Hi).
Qed.

Lemma cpuinfo_read m on t : on <> [] -> NoDup on -> cpuinfo_file m on t ->
  exists info, cpu_blocks (split_blank (strip t)) [] = Ok info /\
    forall c, In c on -> exists lines, dget Z.eqb info c = Some lines /\
      get_number "physical id" lines 9 = Ok (number m LPkg c) /\
      get_number "core id" lines 11 = Ok (number m LCore c).
Proof.
  intros Hon Hnd (bs & Hp & Hb & ->).
  assert (Hne : bs <> []). { intros ->. cbn in Hp. apply Permutation_nil in Hp. congruence. }
  exists (fold_left (fun d b => dset Z.eqb d (fst b) (snd b)) bs []). split; [apply (cpuinfo_blocks m); assumption|].
  - intros c Hc. apply (Permutation_in _ (Permutation_sym Hp)) in Hc. apply in_map_iff in Hc as ((c' & b) & E & Hi).
    cbn in E. subst c'. exists b. split.
    + apply dget_fold_blocks; [|exact Hi]. eapply Permutation_NoDup; [symmetry; exact Hp|exact Hnd].
    + rewrite Forall_forall in Hb. specialize (Hb _ Hi). cbn [fst snd] in Hb.
      destruct Hb as (_ & _ & _ & (l9 & H9 & F9) & (l11 & H11 & F11)).
      split; [eapply field_number; [reflexivity|exact F9|exact H9]|eapply field_number; [reflexivity|exact F11|exact H11]].
Qed.
