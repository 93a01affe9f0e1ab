(** Lemmas about TPMI: the positions recorded for the words of a dump. *)
From Verif Require Import Base L_Base M_Text S_Text L_Text M_Kver S_Kver L_Kver M_Osa M_Tpmi S_Tpmi L_Tpmi.
From Coq Require Import ZifyBool.

(** ** Lines of the file *)
Definition all_lines (d : dump) : list str :=
  flat_map (fun s => show_head s :: map show_row (ds_rows s)) d.

Lemma show_lines d : show d = flat_map (fun l => l ++ [newline]) (all_lines d).
Proof.
  induction d as [|s d IH]; [reflexivity|]. unfold show in *. cbn [flat_map all_lines].
  unfold all_lines in *. cbn [flat_map]. rewrite flat_map_app, IH. f_equal. unfold show_section. cbn [flat_map].
  rewrite <- app_assoc. cbn [app]. f_equal. f_equal.
  induction (ds_rows s) as [|r rs IHr]; [reflexivity|]. cbn [flat_map map]. now rewrite IHr.
Qed.

Lemma split_lines ls : Forall (fun l => has_char newline l = false) ls ->
  split_on newline (flat_map (fun l => l ++ [newline]) ls) = ls ++ [[]].
Proof.
  intros H. induction H as [|l ls Hl H IH]; [reflexivity|]. cbn [flat_map].
  rewrite <- app_assoc. cbn [app]. rewrite split_on_app, IH, split_on_none by exact Hl. reflexivity.
Qed.

Lemma file_lines_show ls : Forall (fun l => has_char newline l = false) ls ->
  file_lines (flat_map (fun l => l ++ [newline]) ls) = ls.
Proof.
  intros H. unfold file_lines. rewrite split_lines by exact H. rewrite rev_app_distr. cbn. apply rev_involutive.
Qed.

Lemma nohex_newline : ~ is_hex newline.
Proof. unfold is_hex, newline. cbn. lia. Qed.

Lemma head_nonl s : sec_ok s -> has_char newline (show_head s) = false.
Proof.
  intros (Hi & Hw & Hx & _). unfold show_head. rewrite !has_char_app. rewrite !orb_false_iff.
  split; [reflexivity|]. split; [|split; [reflexivity|]].
  - destruct (dec_numeral _ Hi) as (_ & Hd & _). apply digits_nochar; [exact Hd|].
    unfold is_digit, newline. cbn. lia.
  - apply hex_nochar; [exact nohex_newline|exact Hx].
Qed.

Lemma join_nochar c sep ws : c <> sep -> Forall (fun w => has_char c w = false) ws -> has_char c (join sep ws) = false.
Proof.
  intros Hc H. induction H as [|w ws Hw H IH]; [reflexivity|]. destruct ws as [|w' ws]; [exact Hw|].
  rewrite join_cons by discriminate. rewrite has_char_app, Hw. cbn [orb].
  unfold has_char in *. cbn [existsb]. rewrite IH, orb_false_r. now apply Ascii.eqb_neq.
Qed.

Lemma row_nonl r : row_ok r -> has_char newline (show_row r) = false.
Proof.
  intros (Ha & Hx & Hn & Hw).
  assert (J : has_char newline (join " " (dr_words r)) = false).
  { apply join_nochar; [discriminate|]. apply Forall_forall. intros w H. rewrite Forall_forall in Hw.
    apply hex_nochar; [exact nohex_newline|]. now apply Hw. }
  assert (A : has_char newline (dr_at r) = false) by (apply hex_nochar; [exact nohex_newline|exact Hx]).
  unfold show_row. apply has_char_false. apply has_char_false in J, A. intros H.
  cbn [In] in H. rewrite in_app_iff in H. cbn [In] in H.
  destruct H as [H|[H|[H|[H|H]]]]; try tauto.
  - destruct (dr_old r); discriminate.
  - destruct (dr_old r); discriminate.
  - discriminate.
Qed.

Lemma lines_nonl d : Forall sec_ok d -> Forall (fun l => has_char newline l = false) (all_lines d).
Proof.
  intros H. apply Forall_forall. intros l Hl. unfold all_lines in Hl. apply in_flat_map in Hl as (s & Hs & Hl).
  rewrite Forall_forall in H. specialize (H s Hs). destruct Hl as [Hl|Hl].
  - subst l. now apply head_nonl.
  - apply in_map_iff in Hl as (r & <- & Hr). apply row_nonl. destruct H as (_ & _ & _ & _ & H).
    rewrite Forall_forall in H. auto.
Qed.

(** ** Where the words are *)
Fixpoint words_pos (o p : Z) (ws : list str) : list (Z * Z) :=
  match ws with
  | [] => []
  | _ :: t => (o, p) :: words_pos (o + 4) (p + 9) t
  end.
Fixpoint rows_pos (p : Z) (rs : list drow) : list (Z * Z) :=
  match rs with
  | [] => []
  | r :: t => words_pos (hexval (dr_at r)) (p + 3 + Z.of_nat (length (dr_at r))) (dr_words r) ++
              rows_pos (p + Z.of_nat (length (show_row r)) + 1) t
  end.
Fixpoint exp_md (p : Z) (d : dump) : mdmap :=
  match d with
  | [] => []
  | s :: t => (ds_inst s, rows_pos (p + Z.of_nat (length (show_head s)) + 1) (ds_rows s)) ::
              exp_md (p + Z.of_nat (length (show_section s))) t
  end.

Section Dict.
  Context {V : Type}.
  Lemma dset_fresh (d : list (Z * V)) k v : ~ In k (map fst d) -> dset Z.eqb d k v = d ++ [(k, v)].
  Proof.
    induction d as [|[k' v'] d IH]; [reflexivity|]. cbn. intros H.
    destruct (k =? k') eqn:E; [exfalso; apply H; left; lia|]. rewrite IH by tauto. reflexivity.
  Qed.
  Lemma dget_last (d : list (Z * V)) k v : ~ In k (map fst d) -> dget Z.eqb (d ++ [(k, v)]) k = Some v.
  Proof.
    induction d as [|[k' v'] d IH]; cbn; intros H.
    - now rewrite Z.eqb_refl.
    - destruct (k =? k') eqn:E; [exfalso; apply H; left; lia|]. apply IH. tauto.
  Qed.
  Lemma dset_last (d : list (Z * V)) k v w : ~ In k (map fst d) -> dset Z.eqb (d ++ [(k, v)]) k w = d ++ [(k, w)].
  Proof.
    induction d as [|[k' v'] d IH]; cbn; intros H.
    - now rewrite Z.eqb_refl.
    - destruct (k =? k') eqn:E; [exfalso; apply H; left; lia|]. rewrite IH by tauto. reflexivity.
  Qed.
End Dict.

Lemma words_pos_keys o p ws : map fst (words_pos o p ws) = map (fun w => snd (fst w)) (row_words 0 o ws).
Proof. revert o p. induction ws as [|w ws IH]; intros o p; [reflexivity|]. cbn. now rewrite IH. Qed.

Lemma NoDup_mid {A} (a b c : list A) : NoDup (a ++ b ++ c) -> NoDup (a ++ b).
Proof. intros H. rewrite app_assoc in H. now apply NoDup_app_l in H. Qed.

Lemma md_values m0 i pos : ~ In i (map fst m0) -> forall ws od lp offs,
  Forall (fun w => length w = 8%nat /\ Forall is_hex w) ws ->
  NoDup (map fst (od ++ words_pos offs (pos + lp) ws)) ->
  exists lp' offs', rfold (md_value pos (Some i)) ws (m0 ++ [(i, od)], lp, offs) =
    Ok (m0 ++ [(i, od ++ words_pos offs (pos + lp) ws)], lp', offs').
Proof.
  intros Hi. induction ws as [|w ws IH]; intros od lp offs H Hn.
  - cbn. rewrite app_nil_r. eauto.
  - inversion H as [|? ? [Hl Hx] Hw]; subst. cbn [rfold md_value words_pos].
    rewrite str_to_int16_hex; [|now destruct w|exact Hx]. cbn [rbind].
    rewrite dget_last by exact Hi. rewrite dset_last by exact Hi. cbn [words_pos] in Hn.
    rewrite dset_fresh.
    2:{ rewrite map_app in Hn. cbn [map] in Hn. apply NoDup_remove_2 in Hn. cbn [fst] in Hn.
        rewrite in_app_iff in Hn. tauto. }
    cbn [rbind].
    replace (pos + lp + 9) with (pos + (lp + 9)) in * by lia.
    destruct (IH (od ++ [(offs, pos + lp)]) (lp + 9) (offs + 4) Hw) as (lp' & offs' & E).
    { rewrite <- app_assoc. exact Hn. }
    exists lp', offs'. rewrite E. now rewrite <- app_assoc.
Qed.

Lemma md_rows m0 i : ~ In i (map fst m0) -> forall rs od pos, Forall row_ok rs ->
  NoDup (map fst (od ++ rows_pos pos rs)) ->
  rfold md_line (map show_row rs) (m0 ++ [(i, od)], pos, Some i) =
  Ok (m0 ++ [(i, od ++ rows_pos pos rs)], pos + Z.of_nat (length (flat_map (fun r => show_row r ++ [newline]) rs)), Some i).
Proof.
  intros Hi. induction rs as [|r rs IH]; intros od pos H Hn.
  - cbn. now rewrite app_nil_r, Z.add_0_r.
  - inversion H as [|? ? Hr Hrs]; subst. cbn [map rfold].
    unfold md_line at 1. cbv beta iota zeta. rewrite rstrip_row by exact Hr. rewrite match_head_row.
    rewrite match_row_show by exact Hr. pose proof Hr as (Ha & Hx & Hwn & Hw).
    rewrite str_to_int16_hex by assumption. cbn [rbind]. rewrite split_words by assumption.
    cbn [rows_pos] in Hn.
    replace (pos + 3 + Z.of_nat (length (dr_at r))) with (pos + (3 + Z.of_nat (length (dr_at r)))) in * by lia.
    destruct (md_values m0 i pos Hi (dr_words r) od (3 + Z.of_nat (length (dr_at r))) (hexval (dr_at r)) Hw) as (lp' & offs' & E).
    { rewrite !map_app in *. now apply NoDup_mid in Hn. }
    unfold mdmap, mdstate in *. rewrite E. cbn [rbind fst]. rewrite IH; [|exact Hrs|rewrite <- app_assoc; exact Hn].
    cbn [rows_pos flat_map]. replace (pos + 3 + Z.of_nat (length (dr_at r))) with (pos + (3 + Z.of_nat (length (dr_at r)))) by lia.
    rewrite <- app_assoc. rewrite !app_length. cbn [length].
    match goal with |- Ok (_, ?p, _) = Ok (_, ?p', _) => replace p with p' by lia end. reflexivity.
Qed.

Lemma rows_pos_keys p rs i : map (fun o => (i, o)) (map fst (rows_pos p rs)) =
  map fst (flat_map (fun r => row_words i (hexval (dr_at r)) (dr_words r)) rs).
Proof.
  revert p. induction rs as [|r rs IH]; intros p; [reflexivity|]. cbn [rows_pos flat_map].
  rewrite !map_app, IH. f_equal. generalize (hexval (dr_at r)) as o.
  generalize (p + 3 + Z.of_nat (length (dr_at r))) as q. induction (dr_words r) as [|w ws IHw]; intros q o; [reflexivity|].
  cbn. now rewrite IHw.
Qed.

Lemma exp_md_keys p d : map fst (exp_md p d) = map ds_inst d.
Proof. revert p. induction d as [|s d IH]; intros p; [reflexivity|]. cbn. now rewrite IH. Qed.

Lemma sec_keys_NoDup s d p : NoDup (map fst (words (s :: d))) -> NoDup (map fst (rows_pos p (ds_rows s))).
Proof.
  unfold words. cbn [flat_map]. rewrite map_app. intros H. apply NoDup_app_l in H.
  rewrite <- (rows_pos_keys p) in H. now apply NoDup_map_inv in H.
Qed.

Lemma rfold_app {A B} (f : A -> B -> res A) l m a : rfold f (l ++ m) a = rbind (rfold f l a) (rfold f m).
Proof.
  revert a. induction l as [|x l IH]; intros a; [reflexivity|]. cbn. destruct (f a x); cbn; [apply IH|reflexivity].
Qed.

Lemma md_sections : forall d md pos inst, Forall sec_ok d -> NoDup (map fst md ++ map ds_inst d) ->
  NoDup (map fst (words d)) ->
  exists inst', rfold md_line (all_lines d) (md, pos, inst) =
    Ok (md ++ exp_md pos d, pos + Z.of_nat (length (show d)), inst').
Proof.
  induction d as [|s d IH]; intros md pos inst Hok Hi Hw.
  - cbn. rewrite app_nil_r, Z.add_0_r. eauto.
  - inversion Hok as [|? ? Hs Hd]; subst. unfold all_lines. cbn [flat_map]. fold (all_lines d).
    change ((show_head s :: map show_row (ds_rows s)) ++ all_lines d) with
      (show_head s :: (map show_row (ds_rows s) ++ all_lines d)).
    cbn [rfold]. unfold md_line at 1. cbv beta iota zeta. rewrite rstrip_head by exact Hs. rewrite match_head_show by exact Hs.
    rewrite str_to_int_dec by apply Hs. cbn [rbind].
    cbn [map] in Hi. pose proof (NoDup_remove_2 _ _ _ Hi) as Hni. rewrite in_app_iff in Hni.
    rewrite dset_fresh by tauto. rewrite rfold_app.
    rewrite (md_rows md (ds_inst s)); [|tauto|apply Hs|].
    2:{ cbn [app]. eapply sec_keys_NoDup. exact Hw. }
    cbn [rbind app].
    destruct (IH (md ++ [(ds_inst s, rows_pos (pos + Z.of_nat (length (show_head s)) + 1) (ds_rows s))])
                 (pos + Z.of_nat (length (show_section s))) (Some (ds_inst s)) Hd) as (inst' & E).
    + rewrite map_app. cbn [map fst]. rewrite <- app_assoc. exact Hi.
    + unfold words in Hw |- *. cbn [flat_map] in Hw. rewrite map_app in Hw. now apply NoDup_app_r in Hw.
    + exists inst'.
      replace (pos + Z.of_nat (length (show_head s)) + 1 +
               Z.of_nat (length (flat_map (fun r => show_row r ++ [newline]) (ds_rows s))))
        with (pos + Z.of_nat (length (show_section s))).
      2:{ unfold show_section. rewrite app_length. cbn [length]. lia. }
      rewrite E. rewrite <- app_assoc. cbn [app exp_md]. unfold show. cbn [flat_map]. rewrite app_length.
      match goal with |- Ok (_, ?p, _) = Ok (_, ?p', _) => replace p with p' by lia end. reflexivity.
Qed.

Lemma build_show d : dump_ok d -> build_mdmap (show d) = Ok (exp_md 0 d).
Proof.
  intros (Hok & Hi & Hw). unfold build_mdmap. rewrite show_lines.
  rewrite file_lines_show by now apply lines_nonl.
  destruct (md_sections d [] 0 None Hok Hi Hw) as (inst' & E). rewrite E. reflexivity.
Qed.

(** ** What is at those positions *)
Lemma skipn_pos {A} (p : Z) (a b : list A) : p = Z.of_nat (length a) -> skipn (Z.to_nat p) (a ++ b) = b.
Proof.
  intros ->. rewrite Nat2Z.id, skipn_app, skipn_all, Nat.sub_diag. reflexivity.
Qed.

Lemma word_at i : forall ws o w pre post p, Forall (fun w => length w = 8%nat /\ Forall is_hex w) ws ->
  In (i, o, w) (row_words i p ws) -> forall q, q = Z.of_nat (length pre) ->
  exists pp, In (o, pp) (words_pos p q ws) /\
    firstn 8 (skipn (Z.to_nat pp) (pre ++ join " " ws ++ newline :: post)) = w.
Proof.
  induction ws as [|x ws IH]; intros o w pre post p H Hin q Hq; [destruct Hin|].
  inversion H as [|? ? [Hl Hx] Hw]; subst. cbn [row_words words_pos] in *. destruct Hin as [E|Hin].
  - injection E as <- <-. eexists. split; [now left|]. rewrite skipn_pos by reflexivity.
    destruct ws as [|y ws].
    + cbn [join]. rewrite <- Hl. rewrite firstn_app, firstn_all, Nat.sub_diag. apply app_nil_r.
    + rewrite join_cons by discriminate. rewrite <- app_assoc. rewrite <- Hl.
      rewrite firstn_app, firstn_all, Nat.sub_diag. apply app_nil_r.
  - destruct ws as [|y ws]; [destruct Hin|]. rewrite join_cons by discriminate.
    destruct (IH o w (pre ++ x ++ [" "%char]) post (p + 4) Hw Hin (Z.of_nat (length pre) + 9)) as (pp & H1 & H2).
    { rewrite !app_length, Hl. cbn [length]. lia. }
    exists pp. split; [now right|]. rewrite <- H2. f_equal. f_equal. rewrite <- !app_assoc. reflexivity.
Qed.

Lemma row_at i : forall rs o w pre post p, Forall row_ok rs ->
  In (i, o, w) (flat_map (fun r => row_words i (hexval (dr_at r)) (dr_words r)) rs) ->
  p = Z.of_nat (length pre) ->
  exists pp, In (o, pp) (rows_pos p rs) /\
    firstn 8 (skipn (Z.to_nat pp) (pre ++ flat_map (fun r => show_row r ++ [newline]) rs ++ post)) = w.
Proof.
  induction rs as [|r rs IH]; intros o w pre post p H Hin Hp; [destruct Hin|].
  inversion H as [|? ? Hr Hrs]; subst. cbn [flat_map rows_pos] in *. apply in_app_iff in Hin as [Hin|Hin].
  - destruct Hr as (Ha & Hx & Hn & Hw).
    set (c1 := if dr_old r then "["%char else " "%char). set (c2 := if dr_old r then "]"%char else ":"%char).
    destruct (word_at i (dr_words r) o w (pre ++ c1 :: dr_at r ++ [c2; " "%char])
                (flat_map (fun r => show_row r ++ [newline]) rs ++ post) _ Hw Hin
                (Z.of_nat (length pre) + 3 + Z.of_nat (length (dr_at r)))) as (pp & H1 & H2).
    { rewrite app_length. cbn [length]. rewrite app_length. cbn [length]. lia. }
    exists pp. split; [apply in_app_iff; now left|]. rewrite <- H2. f_equal. f_equal.
    unfold show_row. fold c1 c2. rewrite <- !app_assoc. cbn [app]. rewrite <- !app_assoc. reflexivity.
  - destruct (IH o w (pre ++ show_row r ++ [newline]) post (Z.of_nat (length pre) + Z.of_nat (length (show_row r)) + 1) Hrs Hin) as (pp & H1 & H2).
    { rewrite !app_length. cbn [length]. lia. }
    exists pp. split; [apply in_app_iff; now right|]. rewrite <- H2. f_equal. f_equal. rewrite <- !app_assoc. reflexivity.
Qed.

Lemma dump_at : forall d i o w pre post p, Forall sec_ok d -> In (i, o, w) (words d) ->
  p = Z.of_nat (length pre) ->
  exists od pp, In (i, od) (exp_md p d) /\ In (o, pp) od /\
    firstn 8 (skipn (Z.to_nat pp) (pre ++ show d ++ post)) = w.
Proof.
  induction d as [|s d IH]; intros i o w pre post p H Hin Hp; [destruct Hin|].
  inversion H as [|? ? Hs Hd]; subst. unfold words in Hin. cbn [flat_map] in Hin. cbn [exp_md].
  unfold show. cbn [flat_map]. fold (show d). apply in_app_iff in Hin as [Hin|Hin].
  - assert (Ei : i = ds_inst s).
    { apply in_flat_map in Hin as (r & _ & Hr). revert Hr. generalize (hexval (dr_at r)) as q.
      induction (dr_words r) as [|x ws IHw]; intros q Hr; [destruct Hr|]. destruct Hr as [E|Hr]; [congruence|eauto]. }
    subst i. destruct (row_at (ds_inst s) (ds_rows s) o w (pre ++ show_head s ++ [newline]) (show d ++ post)
       (Z.of_nat (length pre) + Z.of_nat (length (show_head s)) + 1)) as (pp & H1 & H2).
    + apply Hs.
    + exact Hin.
    + rewrite !app_length. cbn [length]. lia.
    + eexists _, pp. split; [now left|]. split; [exact H1|]. rewrite <- H2. f_equal. f_equal.
      unfold show_section. rewrite <- !app_assoc. cbn [app]. rewrite <- ?app_assoc. reflexivity.
  - destruct (IH i o w (pre ++ show_section s) post (Z.of_nat (length pre) + Z.of_nat (length (show_section s))) Hd Hin) as (od & pp & H1 & H2 & H3).
    { rewrite app_length. lia. }
    exists od, pp. split; [now right|]. split; [exact H2|]. rewrite <- H3. f_equal. f_equal. rewrite <- !app_assoc. reflexivity.
Qed.

Lemma words_pos_in i o p : forall ws q pp, In (o, pp) (words_pos q p ws) -> exists w, In (i, o, w) (row_words i q ws).
Proof.
  intros ws. revert p. induction ws as [|w ws IH]; intros p q pp H; [destruct H|]. destruct H as [E|H].
  - injection E as <- <-. exists w. now left.
  - destruct (IH _ _ _ H) as (w' & Hw). exists w'. now right.
Qed.

Lemma exp_md_in : forall d p i od o pp, In (i, od) (exp_md p d) -> In (o, pp) od -> exists w, In (i, o, w) (words d).
Proof.
  induction d as [|s d IH]; intros p i od o pp H1 H2; [destruct H1|]. unfold words. cbn [flat_map]. destruct H1 as [E|H1].
  - apply pair_equal_spec in E as [<- <-].
    enough (G : exists w, In (ds_inst s, o, w) (flat_map (fun r => row_words (ds_inst s) (hexval (dr_at r)) (dr_words r)) (ds_rows s))).
    { destruct G as (w & Hw). exists w. apply in_app_iff. now left. }
    revert H2. generalize (p + Z.of_nat (length (show_head s)) + 1) as q. induction (ds_rows s) as [|r rs IHr]; intros q H2; [destruct H2|].
    cbn [rows_pos flat_map] in *. apply in_app_iff in H2 as [H2|H2].
    + apply (words_pos_in (ds_inst s)) in H2 as (w & Hw). exists w. apply in_app_iff. now left.
    + apply IHr in H2 as (w & Hw). exists w. apply in_app_iff. now right.
  - destruct (IH _ _ _ _ _ H1 H2) as (w & Hw). exists w. apply in_app_iff. now right.
Qed.

(** ** The layout decides the positions *)
Lemma join_length ws ws' : Forall (fun w => length w = 8%nat /\ Forall is_hex w) ws ->
  Forall (fun w => length w = 8%nat /\ Forall is_hex w) ws' -> length ws = length ws' ->
  length (join " " ws) = length (join " " ws').
Proof.
  revert ws'. induction ws as [|w ws IH]; intros [|w' ws'] H H' E; try discriminate; [reflexivity|].
  inversion H as [|? ? [Hl _] Hw]; inversion H' as [|? ? [Hl' _] Hw']; subst. injection E as E. specialize (IH ws' Hw Hw' E).
  destruct ws as [|x ws], ws' as [|x' ws']; try discriminate; [cbn [join]; congruence|].
  rewrite (join_cons _ w), (join_cons _ w') by discriminate. rewrite !app_length. cbn [length]. lia.
Qed.

Lemma words_pos_len : forall ws ws' o p, length ws = length ws' -> words_pos o p ws = words_pos o p ws'.
Proof.
  induction ws as [|w ws IH]; intros [|w' ws'] o p E; try discriminate; [reflexivity|]. cbn in *. f_equal. apply IH. lia.
Qed.

Lemma row_len r r' : row_ok r -> row_ok r' -> same_row r r' -> length (show_row r) = length (show_row r').
Proof.
  intros (_ & _ & _ & H) (_ & _ & _ & H') (E1 & E2 & E3). unfold show_row. rewrite E1, E2. cbn [length].
  rewrite !app_length. cbn [length]. now rewrite (join_length _ _ H H' E3).
Qed.

Lemma rows_pos_same rs rs' : Forall2 same_row rs rs' -> Forall row_ok rs -> Forall row_ok rs' -> forall p,
  rows_pos p rs = rows_pos p rs' /\
  length (flat_map (fun r => show_row r ++ [newline]) rs) = length (flat_map (fun r => show_row r ++ [newline]) rs').
Proof.
  intros H. induction H as [|r r' rs rs' Hr H IH]; intros H1 H2 p; [split; reflexivity|].
  inversion H1 as [|? ? K1 K2]; inversion H2 as [|? ? K3 K4]; subst. pose proof (row_len _ _ K1 K3 Hr) as L. destruct Hr as (E1 & E2 & E3).
  cbn [rows_pos flat_map]. rewrite !app_length, L, E2. cbn [length].
  destruct (IH K2 K4 (p + Z.of_nat (length (show_row r')) + 1)) as [-> ->]. split; [|reflexivity].
  f_equal. now apply words_pos_len.
Qed.

Lemma exp_md_same d d' : same_layout d d' -> Forall sec_ok d -> Forall sec_ok d' -> forall p, exp_md p d = exp_md p d'.
Proof.
  intros H. induction H as [|s s' d d' (E1 & E2 & Hr) H IH]; intros H1 H2 p; [reflexivity|].
  inversion H1 as [|? ? Hs Hd]; inversion H2 as [|? ? Hs' Hd']; subst.
  assert (L : show_head s = show_head s') by (unfold show_head; now rewrite E1, E2).
  destruct (rows_pos_same _ _ Hr ltac:(apply Hs) ltac:(apply Hs') (p + Z.of_nat (length (show_head s')) + 1)) as [E3 E4].
  cbn [exp_md]. rewrite E1, L, E3. unfold show_section. rewrite L, !app_length. cbn [length]. rewrite E4. f_equal. now apply IH.
Qed.

(** ** Final form *)
Lemma words_NoDup_val d i o w w' : NoDup (map fst (words d)) -> In (i, o, w) (words d) -> In (i, o, w') (words d) -> w = w'.
Proof.
  intros Hn. induction (words d) as [|[io x] l IH]; [intros []|]. cbn in Hn. inversion Hn; subst. intros [E|H] [E'|H'].
  - congruence.
  - injection E as -> ->. exfalso. apply H1. now apply (in_map fst) in H'.
  - injection E' as -> ->. exfalso. apply H1. now apply (in_map fst) in H.
  - auto.
Qed.

Lemma exp_md_sec_NoDup : forall d p i od, NoDup (map fst (words d)) -> In (i, od) (exp_md p d) -> NoDup (map fst od).
Proof.
  induction d as [|s d IH]; intros p i od Hn H; [destruct H|]. destruct H as [E|H].
  - apply pair_equal_spec in E as [<- <-]. eapply sec_keys_NoDup. exact Hn.
  - apply (IH _ _ _ ltac:(unfold words in *; cbn [flat_map] in Hn; rewrite map_app in Hn; now apply NoDup_app_r in Hn) H).
Qed.

Lemma words_ok d i o w : Forall sec_ok d -> In (i, o, w) (words d) -> length w = 8%nat /\ Forall is_hex w.
Proof.
  intros H Hin. unfold words in Hin. apply in_flat_map in Hin as (s & Hs & Hin). apply in_flat_map in Hin as (r & Hr & Hin).
  rewrite Forall_forall in H. specialize (H s Hs). destruct H as (_ & _ & _ & _ & H). rewrite Forall_forall in H.
  destruct (H r Hr) as (_ & _ & _ & Hw). revert Hin. generalize (hexval (dr_at r)) as q.
  induction Hw as [|x ws Hx Hw IH]; intros q Hin; [destruct Hin|]. destruct Hin as [E|Hin]; [|eauto]. congruence.
Qed.

Lemma exp_md_get d d' i o v : dump_ok d -> dump_ok d' -> same_layout d d' -> holds d' i o v ->
  exists od pp, dget Z.eqb (exp_md 0 d) i = Some od /\ dget Z.eqb od o = Some pp /\
    str_to_int16 (firstn 8 (skipn (Z.to_nat pp) (show d'))) = Ok v.
Proof.
  intros Hd Hd' Hs (w & Hin & Hv).
  destruct (dump_at d' i o w [] [] 0 ltac:(apply Hd') Hin eq_refl) as (od & pp & H1 & H2 & H3).
  rewrite <- (exp_md_same d d' Hs ltac:(apply Hd) ltac:(apply Hd')) in H1.
  exists od, pp. split; [|split].
  - apply (In_dget _ Zeqb_spec); [rewrite exp_md_keys; apply Hd|exact H1].
  - apply (In_dget _ Zeqb_spec); [|exact H2]. eapply exp_md_sec_NoDup; [apply Hd|exact H1].
  - rewrite app_nil_r in H3. cbn [app] in H3. rewrite H3. destruct (words_ok d' i o w ltac:(apply Hd') Hin) as [Hl Hx].
    rewrite str_to_int16_hex; [now rewrite Hv|now destruct w|exact Hx].
Qed.

Lemma C34_read_l d d' i o v : dump_ok d -> dump_ok d' -> same_layout d d' -> holds d' i o v -> 0 <= o -> o mod 4 = 0 ->
  exists md, build_mdmap (show d) = Ok md /\ read_text md (show d') i o = Ok v.
Proof.
  intros Hd Hd' Hs Hh Ho Hm. exists (exp_md 0 d). split; [now apply build_show|].
  destruct (exp_md_get d d' i o v Hd Hd' Hs Hh) as (od & pp & E1 & E2 & E3).
  unfold read_text, validate_instance_offset. rewrite E1, E2.
  destruct ((o <? 0) || negb (o mod 4 =? 0)) eqn:E; [lia|]. cbn [rbind]. exact E3.
Qed.

Lemma rows_pos_ne p rs : rs <> [] -> Forall row_ok rs -> rows_pos p rs <> [].
Proof.
  intros Hn H. destruct H as [|r rs Hr H]; [congruence|]. cbn [rows_pos]. destruct Hr as (_ & _ & Hw & _).
  destruct (dr_words r); [congruence|discriminate].
Qed.

Lemma exp_md_ne : forall d p i od, Forall sec_ok d -> In (i, od) (exp_md p d) -> od <> [].
Proof.
  induction d as [|s d IH]; intros p i od H Hin; [destruct Hin|]. inversion H as [|? ? Hs Hd]; subst.
  destruct Hin as [E|Hin].
  - apply pair_equal_spec in E as [<- <-]. apply rows_pos_ne; apply Hs.
  - eapply IH; eassumption.
Qed.

Lemma C34_only_l d i o text : dump_ok d -> (forall v, ~ holds d i o v) ->
  exists md, build_mdmap (show d) = Ok md /\ read_text md text i o = Exn EError.
Proof.
  intros Hd Hh. exists (exp_md 0 d). split; [now apply build_show|]. unfold read_text, validate_instance_offset.
  destruct (dget Z.eqb (exp_md 0 d) i) as [od|] eqn:E1; [|reflexivity].
  apply (dget_In _ Zeqb_spec) in E1.
  destruct (dget Z.eqb od o) as [pp|] eqn:E2.
  - apply (dget_In _ Zeqb_spec) in E2. destruct (exp_md_in _ _ _ _ _ _ E1 E2) as (w & Hw). exfalso. eapply Hh. exists w. eauto.
  - destruct od; [|reflexivity]. exfalso. eapply exp_md_ne; [apply Hd|exact E1|reflexivity].
Qed.

Lemma C34_instances_l d : dump_ok d -> exists md, build_mdmap (show d) = Ok md /\ map fst md = map ds_inst d.
Proof. intros Hd. exists (exp_md 0 d). split; [now apply build_show|]. apply exp_md_keys. Qed.
