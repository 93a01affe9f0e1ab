(** Lemmas about "pepc topology info": the output. *)
From Verif Require Import Base L_Base M_Text S_Text L_Text M_Osa S_Osa L_Osa M_CPUInfo S_CPUInfo M_OpTarget S_OpTarget
  L_OpTarget3 L_OpTarget5 M_TopoInfo S_TopoInfo L_TopoInfo L_TopoInfo2.
From Coq Require Import Sorted ZifyBool.

Lemma same_level_eq a b : same_level a b = true <-> a = b.
Proof. destruct a, b; vm_compute; split; intros H; try reflexivity; discriminate. Qed.

Lemma pair_inb_In p l : pair_inb p l = true <-> In p l.
Proof.
  unfold pair_inb. rewrite existsb_exists. split.
  - intros (q & Hq & E). destruct p, q; cbn in *. assert (z = z1 /\ z0 = z2) as [-> ->] by lia. exact Hq.
  - intros H. exists p. split; [exact H|]. lia.
Qed.

Lemma die_column ls hy : existsb (same_level LDie) ls = true <-> In (CLvl LDie) (cols_of ls hy).
Proof.
  unfold cols_of. rewrite existsb_exists, in_app_iff, in_map_iff. split.
  - intros (l & Hl & E). apply same_level_eq in E. subst. left. eauto.
  - intros [(l & E & Hl)|H]; [injection E as ->; exists LDie; split; [exact Hl|reflexivity]|].
    destruct hy; [|destruct H]. destruct H as [H|[]]. discriminate.
Qed.

Lemma lex_not_after ls : forall t u, lexleb (map (fun l => lget l t) ls) (map (fun l => lget l u) ls) = true <-> not_after ls t u.
Proof.
  induction ls as [|l ls IH]; intros t u; cbn [map lexleb not_after]; [tauto|].
  destruct (Z.ltb_spec (lget l t) (lget l u)); [intuition lia|].
  destruct (Z.eqb_spec (lget l t) (lget l u)).
  - rewrite IH. intuition lia.
  - split; [discriminate|intuition lia].
Qed.

Lemma order_keys order : skeys order = order_levels order.
Proof. destruct order; reflexivity. Qed.

(** The cells. *)
Definition row_ok (r : trow) : Prop :=
  match r with OnRow t => forall l, 0 <= lget l t | OffRow c => 0 <= c end.

Lemma cell_ok pcores r c : row_ok r -> cell_is pcores r c (cell pcores r c) /\ word (cell pcores r c).
Proof.
  destruct r as [t|x], c as [l|]; cbn [row_ok cell cell_is]; intros H.
  - destruct (Z.eqb_spec (lget l t) NA) as [E|E].
    + split; [now left|]. split; [discriminate|]. vm_compute. intuition discriminate.
    + pose proof (dec_numeral _ (H l)) as N. split; [now right|]. now apply numeral_word in N.
  - destruct (inb (t_cpu t) pcores) eqn:E.
    + split; [left; split; [now apply inb_In|reflexivity]|]. split; [discriminate|]. vm_compute. intuition discriminate.
    + split; [right; split; [|reflexivity]; intros X; apply inb_In in X; congruence|].
      split; [discriminate|]. vm_compute. intuition discriminate.
  - destruct l; try (split; [reflexivity|]; split; [discriminate|]; vm_compute; intuition discriminate).
    pose proof (dec_numeral _ H) as N. split; [exact N|]. now apply numeral_word in N.
  - split; [reflexivity|]. split; [discriminate|]. vm_compute. intuition discriminate.
Qed.

Lemma printed_ok pcores ls hy rows : Forall row_ok rows ->
  exists words, Forall2 (fun r ws => Forall2 (cell_is pcores r) (cols_of ls hy) ws) rows words /\
    exists printed, once words printed /\
      Forall2 reads printed (list_dedup str_eqb (map (fun r => format ls hy (cell pcores r)) rows)).
Proof.
  intros H. rewrite Forall_forall in H.
  assert (Hr : forall r, In r rows -> reads (map (cell pcores r) (cols_of ls hy)) (format ls hy (cell pcores r))).
  { intros r Hi. apply format_reads. intros c _. apply cell_ok. auto. }
  exists (map (fun r => map (cell pcores r) (cols_of ls hy)) rows). split.
  - clear Hr. induction rows as [|r rows IH]; [constructor|]. cbn [map]. constructor.
    + assert (R : row_ok r) by (apply H; now left). clear -R. induction (cols_of ls hy) as [|c cs IH]; constructor; auto.
      now apply cell_ok.
    + apply IH. intros; apply H; now right.
  - destruct (once_transfer (fun r => format ls hy (cell pcores r)) (fun r => map (cell pcores r) (cols_of ls hy)) rows)
      with (body := list_dedup str_eqb (map (fun r => format ls hy (cell pcores r)) rows)) as (rs & Hi & E & Ho).
    + intros r s Hr1 Hs1. split.
      * intros E. apply (reads_unique _ _ (format ls hy (cell pcores r))); [now apply Hr|]. rewrite E. now apply Hr.
      * apply format_ext.
    + apply once_dedup. intros; apply str_eqb_eq.
    + exists (map (fun r => map (cell pcores r) (cols_of ls hy)) rs). split; [exact Ho|]. rewrite E.
      clear -Hi Hr. induction rs as [|r rs IH]; cbn [map]; [constructor|]. constructor.
      * apply Hr, Hi. now left.
      * apply IH. intros x Hx. apply Hi. now right.
Qed.

Section Info.
  Variables (e : tenv) (a : otargs) (o : topts).
  Let ci := te_ci e.
  Hypothesis wf : wf_ci ci.
  Hypothesis io : io_dies_exact ci.
  Hypothesis on : ci_online ci <> [].
  Hypothesis sib : siblings_ok ci a.
  Hypothesis prop : args_proper a.

  Let a' := opts a o.
  Lemma sib' : siblings_ok ci a'. Proof using sib. exact sib. Qed.
  Lemma prop' : args_proper a'. Proof using prop. exact prop. Qed.

  (** What is parsed and what is printed. *)
  Lemma columns_sound ls asked :
    match to_columns o with
    | None => Ok (default_colnames ci, false)
    | Some s => parse_columns (split_csv_line "," false false s)
    end = Ok (ls, asked) -> asked && negb (te_hybrid e) = false ->
    asked || te_hybrid e = te_hybrid e /\ shows_columns e o (cols_of ls (te_hybrid e)).
  Proof using.
    intros E Ha. split; [destruct asked, (te_hybrid e); cbn in *; congruence|].
    unfold shows_columns. destruct (to_columns o) as [text|].
    - apply parse_columns_ok in E as (cs & H1 & H2 & H3).
      exists (split_csv_line "," false false text), cs. split; [now apply lists_iff|]. split; [exact H1|]. split.
      + intros Hh. apply H3 in Hh. subst. destruct (te_hybrid e); [reflexivity|discriminate].
      + unfold cols_of. now rewrite H2.
    - injection E as <- <-. exists (default_colnames ci). split; [apply default_ok|reflexivity].
  Qed.

  Lemma columns_live cols : shows_columns e o cols -> exists ls asked,
    match to_columns o with
    | None => Ok (default_colnames ci, false)
    | Some s => parse_columns (split_csv_line "," false false s)
    end = Ok (ls, asked) /\ asked && negb (te_hybrid e) = false.
  Proof using.
    unfold shows_columns. destruct (to_columns o) as [text|].
    - intros (names & cs & Hl & Hn & Hh & _). apply lists_iff in Hl. subst names.
      destruct (parse_columns_live _ _ Hn) as ([ls asked] & E). exists ls, asked. split; [exact E|].
      apply parse_columns_ok in E as (cs' & H1 & _ & H3).
      assert (cs' = cs) as ->.
      { clear -H1 Hn. revert cs' H1. induction Hn as [|n c ns cs Hc Hn IH]; intros cs' H1; inversion H1; subst; [reflexivity|].
        f_equal; eauto using names_column_unique. }
      destruct asked; [|reflexivity]. rewrite Hh by now apply H3. reflexivity.
    - intros _. eexists _, _. split; reflexivity.
  Qed.

  Lemma get_cpus_after ot r ot1 : ot_init ci a' = Ok ot -> ot_get_cpus ci ot = (Ok r, ot1) ->
    NoDup r /\ (forall c, In c r <-> target_cpu ci a' c) /\ asked ci a' [QCpus] ot1.
  Proof using wf io on sib prop.
    intros E1 E2.
    destruct (cpus_l ci a' [] ot wf io on sib' prop' (ex_intro _ ot (conj E1 eq_refl)) r ot1 E2) as (_ & H1 & H2).
    split; [exact H1|]. split; [exact H2|]. exists ot. split; [exact E1|]. cbn [fold_left ask]. now rewrite E2.
  Qed.

  Lemma get_dies_after ot1 : asked ci a' [QCpus] ot1 ->
    exists d ot2, ot_get_dies ci false ot1 = (Ok d, ot2) /\
      forall pd, In pd d <-> full_die ci a' pd \/ named_die ci a' pd.
  Proof using wf io on sib prop.
    intros H. destruct (ot_get_dies ci false ot1) as [[d|x] ot2] eqn:E.
    - exists d, ot2. split; [reflexivity|].
      now destruct (dies_l ci a' [QCpus] ot1 wf io on sib' prop' H false d ot2 E) as (_ & X & _).
    - exfalso. destruct (dies_fail_l ci a' [QCpus] ot1 wf io on sib' prop' H false x ot2 E) as (_ & X & _). discriminate.
  Qed.

  Lemma lines_l out : numbers_ok ci -> topology_info e a o = Ok out ->
    exists pcores, (te_hybrid e = true -> te_pcores e = Ok pcores) /\ right_output e a o pcores out.
  Proof using wf io on sib prop.
    intros Hnum. unfold topology_info. fold ci.
    match goal with |- context [match to_columns o with None => ?x | Some s => @?y s end] =>
      destruct (match to_columns o with None => x | Some s => y s end) as [[ls askd]|] eqn:Ecols end; [|discriminate].
    cbn [rbind]. cbn beta iota.
    destruct (askd && negb (te_hybrid e)) eqn:Eask; [discriminate|].
    destruct (columns_sound ls askd Ecols Eask) as [Ehy Hcols]. rewrite Ehy.
    destruct (find_level (to_order o)) as [order|] eqn:Eorder; [|discriminate].
    apply find_level_iff in Eorder.
    change (with_offline_ok (negb (to_online o)) a) with a'.
    destruct (ot_init ci a') as [ot|] eqn:Eot; [|discriminate]. cbn [rbind].
    destruct (if te_hybrid e then te_pcores e else Ok []) as [pcores|] eqn:Ep; [|discriminate]. cbn [rbind].
    destruct (ot_get_cpus ci ot) as [[cpus|] ot1] eqn:Ecpus; [|discriminate]. cbn [rbind].
    destruct (get_cpus_after ot cpus ot1 Eot Ecpus) as (_ & Hcpus & Hask).
    destruct (get_dies_after ot1 Hask) as (d & ot2 & Ed & Hd).
    assert (Edies : exists dies, (if existsb (same_level LDie) ls then fst (ot_get_dies ci false ot1) else Ok []) = Ok dies /\
              forall pd, In pd dies <-> In (CLvl LDie) (cols_of ls (te_hybrid e)) /\ (full_die ci a' pd \/ named_die ci a' pd)).
    { rewrite Ed. destruct (existsb (same_level LDie) ls) eqn:Ex.
      - exists d. split; [reflexivity|]. intros pd. rewrite Hd. rewrite (die_column ls (te_hybrid e)) in Ex. tauto.
      - exists []. split; [reflexivity|]. intros pd. split; [intros []|]. intros [X _].
        apply (die_column ls (te_hybrid e)) in X. congruence. }
    destruct Edies as (dies & -> & Hdies). cbn [rbind]. intros E. injection E as <-.
    exists pcores. split; [destruct (te_hybrid e); [auto|discriminate]|].
    set (lines := filter_io_dies dies (filter_cpus cpus (get_topology ci order))).
    set (off := if to_online o then [] else filter (fun c => inb c cpus) (get_offline_cpus ci)).
    assert (Hlines : forall t, In t lines <-> shown e a' (cols_of ls (te_hybrid e)) t).
    { intros t. unfold lines, filter_io_dies, filter_cpus, shown, cpu_line. rewrite !filter_In, topo_In.
      rewrite !orb_true_iff, negb_true_iff, Z.eqb_eq, Z.eqb_neq, inb_In, pair_inb_In, Hcpus, Hdies.
      fold ci. destruct (Z.eq_dec (t_cpu t) NA); tauto. }
    assert (Hoff : NoDup off /\ forall c, In c off <-> to_online o = false /\ In c (ci_all ci) /\ ~ In c (ci_online ci) /\
                              target_cpu ci a' c).
    { unfold off, get_offline_cpus. destruct (to_online o).
      - split; [constructor|]. intros c. split; [intros []|]. intros [X _]. discriminate.
      - split; [apply NoDup_filter, NoDup_filter; apply (wf_all_nodup ci wf)|]. intros c.
        rewrite !filter_In, negb_true_iff, inb_In, Hcpus. rewrite <- not_true_iff_false, inb_In. tauto. }
    destruct Hoff as [Hoff1 Hoff2].
    exists (cols_of ls (te_hybrid e)), order.
    eexists _, _. split; [exact Hcols|]. split; [exact Eorder|]. split; [reflexivity|].
    split; [apply format_reads; intros c _; apply title_word|].
    exists lines, off.
    destruct (printed_ok pcores ls (te_hybrid e) (map OnRow lines ++ map OffRow off)) as (words & H1 & H2).
    { apply Forall_app. split; apply Forall_forall; intros r Hr; apply in_map_iff in Hr as (x & <- & Hx); cbn.
      - intros l. apply (proj1 Hnum). apply Hlines in Hx as [Hx _]. exact Hx.
      - apply (proj2 Hnum). apply Hoff2 in Hx. tauto. }
    exists words. split; [exact Hlines|]. split.
    { unfold lines, filter_io_dies, filter_cpus. apply sorted_filter, sorted_filter.
      eapply sorted_impl; [|apply topo_sorted]. intros x y Hxy. unfold tkey in Hxy. rewrite order_keys in Hxy.
      now apply lex_not_after. }
    split; [exact Hoff1|]. split; [exact Hoff2|]. split; [exact H1|exact H2].
  Qed.

  Lemma succeeds_l :
    (exists out, topology_info e a o = Ok out) <->
    (exists cols, shows_columns e o cols) /\ (exists order, names_level (to_order o) order) /\
    valid_args ci a' /\ (te_hybrid e = true -> exists p, te_pcores e = Ok p) /\ exists c, target_cpu ci a' c.
  Proof using wf io on sib prop.
    unfold topology_info. fold ci. split.
    - intros (out & E). revert E.
      match goal with |- context [match to_columns o with None => ?x | Some s => @?y s end] =>
        destruct (match to_columns o with None => x | Some s => y s end) as [[ls askd]|] eqn:Ecols end; [|discriminate].
      cbn [rbind]. cbn beta iota.
      destruct (askd && negb (te_hybrid e)) eqn:Eask; [discriminate|].
      destruct (columns_sound ls askd Ecols Eask) as [Ehy Hcols]. rewrite Ehy.
      destruct (find_level (to_order o)) as [order|] eqn:Eorder; [|discriminate].
      apply find_level_iff in Eorder.
      change (with_offline_ok (negb (to_online o)) a) with a'.
      destruct (ot_init ci a') as [ot|] eqn:Eot; [|discriminate]. cbn [rbind].
      destruct (if te_hybrid e then te_pcores e else Ok []) as [pcores|] eqn:Ep; [|discriminate]. cbn [rbind].
      destruct (ot_get_cpus ci ot) as [[cpus|] ot1] eqn:Ecpus; [|discriminate]. cbn [rbind].
      intros _. split; [eauto|]. split; [eauto|]. split; [apply (ot_init_iff ci a' wf prop'); eauto|].
      split; [intros Eh; rewrite Eh in Ep; eauto|].
      destruct (cpus_l ci a' [] ot wf io on sib' prop' (ex_intro _ ot (conj Eot eq_refl)) cpus ot1 Ecpus) as (H0 & _ & H2).
      destruct cpus as [|c cpus]; [congruence|]. exists c. apply H2. now left.
    - intros ((cols & Hc) & (order & Ho) & Hv & Hp & Ht).
      destruct (columns_live cols Hc) as (ls & askd & -> & Eask). cbn [rbind]. cbn beta iota. rewrite Eask.
      apply find_level_iff in Ho. rewrite Ho.
      change (with_offline_ok (negb (to_online o)) a) with a'.
      apply (ot_init_iff ci a' wf prop') in Hv as (ot & Eot). rewrite Eot. cbn [rbind].
      assert (Ehy : askd || te_hybrid e = te_hybrid e) by (destruct askd, (te_hybrid e); cbn in *; congruence).
      rewrite Ehy.
      assert (Ep : exists p, (if te_hybrid e then te_pcores e else Ok []) = Ok p).
      { destruct (te_hybrid e); [now apply Hp|eauto]. }
      destruct Ep as (p & ->). cbn [rbind].
      destruct (cpus_live_l ci a' [] ot wf io on sib' prop' (ex_intro _ ot (conj Eot eq_refl)) Ht) as (cpus & ot1 & Ecpus).
      rewrite Ecpus. cbn [rbind].
      destruct (get_cpus_after ot cpus ot1 Eot Ecpus) as (_ & _ & Hask).
      destruct (get_dies_after ot1 Hask) as (d & ot2 & Ed & _). rewrite Ed. cbn [fst].
      destruct (existsb (same_level LDie) ls); cbn [rbind]; eauto.
  Qed.
End Info.
