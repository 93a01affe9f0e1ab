(** Lemmas about TPMI: bit fields, and the states that can be reached. *)
From Verif Require Import Base L_Base L_Monad M_Text S_Text L_Text M_Kver M_Osa M_CPUInfo M_MSR S_MSR L_Bits
  M_Tpmi S_Tpmi L_Tpmi L_Tpmi2 L_Tpmi3.
From Coq Require Import ZifyBool.

(** ** Bit fields *)
Lemma sub_ones a b n : 0 <= b <= a -> 0 <= n ->
  Z.testbit (Z.ones a - Z.ones b) n = true <-> b <= n < a.
Proof.
  intros H Hn. assert (E : Z.ones a - Z.ones b = Z.shiftl (Z.ones (a - b)) b).
  { rewrite Z.shiftl_mul_pow2 by lia. rewrite !Z.ones_equiv. replace (2 ^ a) with (2 ^ (a - b) * 2 ^ b).
    - lia.
    - rewrite <- Z.pow_add_r by lia. f_equal. lia. }
  rewrite E, Z.shiftl_spec by lia. destruct (Z.lt_ge_cases n b) as [Hlt|Hge].
  - rewrite Z.testbit_neg_r by lia. split; [discriminate|lia].
  - rewrite ones_testbit by lia. lia.
Qed.

Lemma digit_hex c : is_digit c -> is_hex c.
Proof. unfold is_digit, is_hex. lia. Qed.

Lemma dec_hex n : 0 <= n -> dec n <> [] /\ Forall is_hex (dec n).
Proof.
  intros H. destruct (dec_numeral n H) as (H1 & H2 & _). split; [exact H1|].
  eapply Forall_impl; [|exact H2]. exact digit_hex.
Qed.

Lemma toks_hex sep w : ~ is_hex sep -> w <> [] -> Forall is_hex w -> toks sep w = [w].
Proof.
  intros Hs Hn Hx. unfold toks. rewrite split_on_none by now apply hex_nochar. now destruct w.
Qed.

Lemma split_colon high low : 0 <= high -> 0 <= low ->
  split_csv_line ":" false false (dec high ++ ":"%char :: dec low) = [dec high; dec low].
Proof.
  intros Hh Hl. rewrite split_csv_toks, toks_app. cbn [negb].
  destruct (dec_hex high Hh) as [H1 H2]. destruct (dec_hex low Hl) as [H3 H4].
  assert (~ is_hex ":"%char) by (unfold is_hex; cbn; lia).
  rewrite !toks_hex by assumption. cbn [app map]. now rewrite !strip_hex.
Qed.

Lemma C35_format_l high low : 0 <= low <= high ->
  exists sm, format_bits (dec high ++ ":"%char :: dec low) = Ok sm /\ mask_of (high, low) sm.
Proof.
  intros H. unfold format_bits. rewrite split_colon by lia. rewrite !str_to_int_dec by lia. cbn [rbind].
  destruct (high <? low) eqn:E; [lia|]. destruct ((high + 1 <? 0) || (low <? 0)) eqn:E2; [lia|].
  eexists. split; [reflexivity|]. unfold mask_of, in_field. cbn [fst snd]. split; [reflexivity|]. split; [exact H|].
  intros n Hn. rewrite !ones_eq by lia. rewrite sub_ones by lia. lia.
Qed.

Lemma C35_format_rejects_l high low : 0 <= high < low -> format_bits (dec high ++ ":"%char :: dec low) = Exn EError.
Proof.
  intros H. unfold format_bits. rewrite split_colon by lia. rewrite !str_to_int_dec by lia. cbn [rbind].
  destruct (high <? low) eqn:E; [reflexivity|lia].
Qed.

Lemma format_bits_mask b sm : format_bits b = Ok sm -> exists hl, mask_of hl sm.
Proof.
  unfold format_bits. destruct (split_csv_line ":" false false b) as [|h [|l [|x t]]]; try discriminate.
  destruct (str_to_int h) as [high|]; [|discriminate]. destruct (str_to_int l) as [low|]; [|discriminate]. cbn [rbind].
  destruct (high <? low) eqn:E; [discriminate|]. destruct ((high + 1 <? 0) || (low <? 0)) eqn:E2; [discriminate|].
  intros [= <-]. exists (high, low). unfold mask_of, in_field. cbn [fst snd]. split; [reflexivity|]. split; [lia|].
  intros n Hn. rewrite !ones_eq by lia. rewrite sub_ones by lia. lia.
Qed.

Lemma rmap_in {A B} (f : A -> res B) l l' y : rmap l f = Ok l' -> In y l' -> exists x, In x l /\ f x = Ok y.
Proof.
  revert l'. induction l as [|x l IH]; intros l' E Hy; cbn in E.
  - injection E as <-. destruct Hy.
  - destruct (f x) as [y0|] eqn:Ef; [|discriminate]. cbn [rbind] in E.
    destruct (rmap l f) as [l0|] eqn:El; [|discriminate]. cbn [rbind] in E. injection E as <-.
    destruct Hy as [Hy|Hy].
    + subst y0. exists x. split; [now left|exact Ef].
    + destruct (IH l0 eq_refl Hy) as (x' & H1 & H2). exists x'. split; [now right|exact H2].
Qed.

Lemma C35_tables_l spec fd : format_fdict spec = Ok fd -> (forall r s, In (r, s) spec -> 0 <= rs_offset s) ->
  forall r rd, dget Z.eqb fd r = Some rd -> reg_ok rd /\
    exists s, In (r, s) spec /\ rd_offset rd = rs_offset s /\ rd_width rd = rs_width s /\
      forall b sm, dget Z.eqb (rd_fields rd) b = Some sm -> exists t, In (b, t) (rs_fields s) /\ format_bits t = Ok sm.
Proof.
  intros E Hs r rd Hr. apply (dget_In _ Zeqb_spec) in Hr.
  destruct (rmap_in _ _ _ _ E Hr) as ([r0 s] & Hin & E2). cbn [fst snd] in E2.
  destruct (format_reg s) as [rd0|] eqn:Ef; [|discriminate]. cbn [rbind] in E2.
  assert (r0 = r) by congruence. assert (rd0 = rd) by congruence. subst r0 rd0. clear E2. specialize (Hs _ _ Hin).
  unfold format_reg in Ef. destruct (negb (rs_offset s mod 4 =? 0)) eqn:E1; [discriminate|].
  destruct (negb ((rs_width s =? 32) || (rs_width s =? 64))) eqn:E2; [discriminate|].
  match type of Ef with context [rmap ?l ?g] => destruct (rmap l g) as [fs|] eqn:E3; [|discriminate] end. cbn [rbind] in Ef.
  assert (Hrd : RD (rs_offset s) (rs_width s) fs = rd) by congruence. subst rd. unfold reg_ok. cbn [rd_offset rd_width rd_fields].
  assert (F : forall b sm, dget Z.eqb fs b = Some sm -> exists t, In (b, t) (rs_fields s) /\ format_bits t = Ok sm).
  { intros b sm Hb. apply (dget_In _ Zeqb_spec) in Hb.
    destruct (rmap_in _ _ _ _ E3 Hb) as ([b0 t] & Hin2 & E4). cbn [fst snd] in E4.
    destruct (format_bits t) as [sm0|] eqn:Et; [|discriminate]. cbn [rbind] in E4. injection E4 as -> ->. eauto. }
  split.
  - split; [exact Hs|]. split; [lia|]. split; [lia|]. intros b sm Hb. destruct (F b sm Hb) as (t & _ & Et).
    eapply format_bits_mask; exact Et.
  - exists s. auto.
Qed.

Lemma get_bitfield_field b sm v : mask_of b sm -> is_field b v (get_bitfield v sm).
Proof.
  intros (E & Hr & Hm). unfold is_field, get_bitfield, fits. rewrite E.
  assert (Hbit : forall i, 0 <= i -> Z.testbit (Z.shiftr (Z.land v (snd sm)) (snd b)) i =
                           if i <? field_width b then Z.testbit v (i + snd b) else false).
  { intros i Hi. rewrite Z.shiftr_spec, Z.land_spec by lia. specialize (Hm (i + snd b) ltac:(lia)).
    unfold in_field, field_width in *. destruct (i <? fst b - snd b + 1) eqn:El.
    - rewrite (proj2 Hm) by lia. now rewrite andb_true_r.
    - destruct (Z.testbit (snd sm) (i + snd b)) eqn:Et; [|now rewrite andb_false_r].
      destruct Hm as [Hm _]. specialize (Hm eq_refl). lia. }
  assert (Hw : 0 < field_width b) by (unfold field_width; lia).
  assert (Hn : 0 <= Z.shiftr (Z.land v (snd sm)) (snd b)).
  { apply Z.bits_iff_nonneg_ex. exists (field_width b). intros i Hi. rewrite Hbit by lia.
    destruct (i <? field_width b) eqn:El; [lia|reflexivity]. }
  split.
  - split; [exact Hn|]. apply lt_pow2_bits; [lia|exact Hn|]. intros i Hi. rewrite Hbit by lia.
    destruct (i <? field_width b) eqn:El; [lia|reflexivity].
  - intros i Hi. unfold in_field in Hi. rewrite Hbit by lia. destruct (i - snd b <? field_width b) eqn:El.
    + f_equal. lia.
    + unfold field_width in El. lia.
Qed.

Lemma set_bitfield_set b sm old v : mask_of b sm -> fits b v -> is_set b v old (set_bitfield old v sm).
Proof.
  intros (E & Hr & Hm) [Hv0 Hv1] i Hi. unfold set_bitfield. rewrite E.
  rewrite Z.lor_spec, Z.lxor_spec, Z.land_spec, Z.shiftl_spec by lia. specialize (Hm i Hi). unfold in_field in *.
  assert (Hw : 0 <= field_width b) by (unfold field_width; lia).
  split; intros H.
  - rewrite (proj2 Hm H), andb_true_r. now rewrite xorb_nilpotent.
  - destruct (Z.testbit (snd sm) i) eqn:Et; [tauto|]. rewrite andb_false_r, xorb_false_r.
    destruct (Z.lt_ge_cases i (snd b)).
    + rewrite (Z.testbit_neg_r v) by lia. now rewrite orb_false_r.
    + rewrite (proj1 (lt_pow2_bits v (field_width b) Hw Hv0) Hv1) by (unfold field_width; lia). now rewrite orb_false_r.
Qed.

Lemma set_bitfield_range b sm old v n : mask_of b sm -> fits b v -> fst b < n -> 0 <= old < 2 ^ n ->
  0 <= set_bitfield old v sm < 2 ^ n.
Proof.
  intros Hb Hv Hn [H0 H1]. pose proof (set_bitfield_set b sm old v Hb Hv) as Hs. destruct Hb as (E & Hr & _).
  assert (G : forall i, n <= i -> Z.testbit (set_bitfield old v sm) i = false).
  { intros i Hi. rewrite (proj2 (Hs i ltac:(lia))) by (unfold in_field; lia).
    apply (proj1 (lt_pow2_bits old n ltac:(lia) H0) H1 i Hi). }
  assert (Hnn : 0 <= set_bitfield old v sm).
  { apply Z.bits_iff_nonneg_ex. exists n. intros i Hi. apply G. lia. }
  split; [exact Hnn|]. apply lt_pow2_bits; [lia|exact Hnn|exact G].
Qed.

Lemma mask_unique b b' sm : mask_of b sm -> mask_of b' sm -> b = b'.
Proof.
  destruct b as [h l], b' as [h' l']. unfold mask_of, in_field. cbn [fst snd].
  intros (E & Hr & H) (E' & Hr' & H'). f_equal; [|lia].
  pose proof (proj1 (H' h ltac:(lia))) as K1. pose proof (proj1 (H h' ltac:(lia))) as K2.
  rewrite (proj2 (H h ltac:(lia))) in K1 by lia. rewrite (proj2 (H' h' ltac:(lia))) in K2 by lia.
  specialize (K1 eq_refl). specialize (K2 eq_refl). lia.
Qed.

Lemma field_unique b r x y : 0 <= snd b <= fst b -> is_field b r x -> is_field b r y -> x = y.
Proof.
  intros Hb ([Hx0 Hx1] & Hx) ([Hy0 Hy1] & Hy). apply Z.bits_inj'. intros i Hi.
  assert (Hw : 0 <= field_width b) by (unfold field_width; lia).
  destruct (Z.lt_ge_cases i (field_width b)) as [Hl|Hl].
  - specialize (Hx (i + snd b)). specialize (Hy (i + snd b)). replace (i + snd b - snd b) with i in Hx, Hy by lia.
    rewrite <- Hx, <- Hy; [reflexivity| |]; unfold in_field, field_width in *; lia.
  - rewrite (proj1 (lt_pow2_bits x _ Hw Hx0) Hx1 i Hl). symmetry. apply (proj1 (lt_pow2_bits y _ Hw Hy0) Hy1 i Hl).
Qed.

Lemma holds_unique d i o v v' : dump_ok d -> holds d i o v -> holds d i o v' -> v = v'.
Proof.
  intros (_ & _ & Hn) (w & H1 & <-) (w' & H2 & <-). f_equal. eapply words_NoDup_val; eassumption.
Qed.

Lemma holds_range d i o v : dump_ok d -> holds d i o v -> 0 <= v < 2 ^ 32.
Proof.
  intros Hd (w & Hin & <-). destruct (words_ok d i o w ltac:(apply Hd) Hin) as [Hl Hx]. split.
  - now apply hexval_nonneg.
  - pose proof (hexval_bound w Hx) as Hb. rewrite Hl in Hb. exact Hb.
Qed.

Lemma reg_value_range d i rd v : dump_ok d -> reg_value d i rd v -> 0 <= v < 2 ^ rd_width rd.
Proof.
  intros Hd [(-> & H)|(-> & lo & hi & Hlo & Hhi & ->)].
  - eapply holds_range; eassumption.
  - pose proof (holds_range _ _ _ _ Hd Hlo). pose proof (holds_range _ _ _ _ Hd Hhi). lia.
Qed.

Lemma reg_value_unique d i rd v v' : dump_ok d -> reg_value d i rd v -> reg_value d i rd v' -> v = v'.
Proof.
  intros Hd [(E & H)|(E & lo & hi & Hlo & Hhi & ->)] [(E' & H')|(E' & lo' & hi' & Hlo' & Hhi' & ->)]; try lia.
  - eapply holds_unique; eassumption.
  - rewrite (holds_unique _ _ _ _ _ Hd Hlo Hlo'), (holds_unique _ _ _ _ _ Hd Hhi Hhi'). reflexivity.
Qed.

Lemma same_layout_keys d d' : same_layout d d' -> map fst (words d) = map fst (words d').
Proof.
  intros H. induction H as [|s s' d d' (E1 & E2 & E3) H IH]; [reflexivity|]. unfold words in *. cbn [flat_map].
  rewrite !map_app, IH. f_equal. rewrite <- E1. clear - E3. induction E3 as [|r r' rs rs' (K1 & K2 & K3) E IH]; [reflexivity|].
  cbn [flat_map]. rewrite !map_app, IH, <- K2. f_equal. generalize (hexval (dr_at r)) as p. clear - K3.
  revert K3. generalize (dr_words r') as l'. generalize (dr_words r) as l. induction l as [|x l IH]; intros [|y l'] E p; try discriminate; [reflexivity|].
  cbn [row_words map]. f_equal. apply IH. now injection E.
Qed.

Lemma same_layout_holds d d' i o v : same_layout d d' -> holds d i o v -> exists v', holds d' i o v'.
Proof.
  intros H (w & Hin & _). apply (in_map fst) in Hin. rewrite (same_layout_keys _ _ H) in Hin.
  apply in_map_iff in Hin as ([k w'] & E & Hin). cbn [fst] in E. subst k. exists (hexval w'), w'. auto.
Qed.

Lemma same_layout_reg d d' i rd v : same_layout d d' -> reg_value d i rd v -> exists v', reg_value d' i rd v'.
Proof.
  intros H [(E & Hv)|(E & lo & hi & Hlo & Hhi & ->)].
  - destruct (same_layout_holds _ _ _ _ _ H Hv) as (v' & Hv'). exists v'. left. auto.
  - destruct (same_layout_holds _ _ _ _ _ H Hlo) as (lo' & Hlo'). destruct (same_layout_holds _ _ _ _ _ H Hhi) as (hi' & Hhi').
    exists (lo' + 2 ^ 32 * hi'). right. eauto 10.
Qed.

(** ** Operations that leave the devices alone, or keep their layout *)
Definition ro {A} (m : M tstate A) : Prop :=
  forall s, tinv s -> tinv (snd (m s)) /\ t_devs (snd (m s)) = t_devs s.
Definition lay (D D' : list ((Z * Z) * dump)) : Prop :=
  forall k, match dget pair_eqb D k, dget pair_eqb D' k with
            | Some d, Some d' => same_layout d d'
            | None, None => True
            | _, _ => False
            end.
Definition wr {A} (m : M tstate A) : Prop :=
  forall s, tinv s -> tinv (snd (m s)) /\ lay (t_devs s) (t_devs (snd (m s))).

Lemma lay_refl D : lay D D.
Proof. intros k. destruct (dget pair_eqb D k); [apply same_layout_refl|exact I]. Qed.
Lemma lay_trans A B C : lay A B -> lay B C -> lay A C.
Proof.
  intros H1 H2 k. specialize (H1 k). specialize (H2 k).
  destruct (dget pair_eqb A k), (dget pair_eqb B k), (dget pair_eqb C k); try tauto. eapply same_layout_trans; eassumption.
Qed.
Lemma lay_dset D k d d' : dget pair_eqb D k = Some d -> same_layout d d' -> lay D (dset pair_eqb D k d').
Proof.
  intros E H k'. destruct (pair_dec k' k) as [->|Hne].
  - now rewrite E, (dget_dset_same _ pair_eqb_spec).
  - rewrite (dget_dset_other _ pair_eqb_spec) by exact Hne. apply lay_refl.
Qed.

Lemma ro_ret {A} (a : A) : ro (ret a).
Proof. intros s H. auto. Qed.
Lemma ro_throw {A} e : ro (throw (A := A) e).
Proof. intros s H. auto. Qed.
Lemma ro_lift {A} (r : res A) : ro (lift r).
Proof. intros s H. destruct r; auto. Qed.
Lemma ro_bind {A B} (m : M tstate A) (f : A -> M tstate B) : ro m -> (forall a, ro (f a)) -> ro (mbind m f).
Proof.
  intros Hm Hf s H. destruct (Hm s H) as [H1 H2]. unfold mbind. destruct (m s) as [[a|e] s1]; cbn [snd] in *; [|auto].
  destruct (Hf a s1 H1) as [H3 H4]. split; [exact H3|congruence].
Qed.
Lemma ro_build a f : ro (t_build a f).
Proof. intros s H. rewrite t_build_run by exact H. destruct (dget pair_eqb (t_devs s) (a, f)); auto. Qed.
Lemma ro_get_mdmap f a : ro (t_get_mdmap f a).
Proof.
  intros s H. destruct (t_get_mdmap_run f a s H) as (s' & H1 & H2 & ->). destruct (dget pair_eqb (t_devs s) (a, f)); auto.
Qed.
Lemma ro_read a f i o md : ro (t_read a f i o md).
Proof.
  unfold t_read. apply ro_bind; [apply ro_lift|]. intros _. apply ro_bind; [|intros; apply ro_lift].
  intros s H. unfold t_text. destruct (dget pair_eqb (t_devs s) (a, f)); auto.
Qed.
Lemma ro_mfor {A} (l : list A) f : (forall x, ro (f x)) -> ro (mfor l f).
Proof. intros H. induction l as [|x l IH]; [apply ro_ret|]. cbn [mfor]. apply ro_bind; [apply H|]. intros _. exact IH. Qed.
Lemma ro_mfold {A B} (f : A -> B -> M tstate A) l : (forall a x, ro (f a x)) -> forall a, ro (mfold f l a).
Proof.
  intros H. induction l as [|x l IH]; intros a; [apply ro_ret|]. cbn [mfold]. apply ro_bind; [apply H|]. exact IH.
Qed.
Lemma ro_wr {A} (m : M tstate A) : ro m -> wr m.
Proof. intros H s Hs. destruct (H s Hs) as [H1 H2]. split; [exact H1|]. rewrite H2. apply lay_refl. Qed.
Lemma wr_bind {A B} (m : M tstate A) (f : A -> M tstate B) : wr m -> (forall a, wr (f a)) -> wr (mbind m f).
Proof.
  intros Hm Hf s H. destruct (Hm s H) as [H1 H2]. unfold mbind. destruct (m s) as [[a|e] s1]; cbn [snd] in *; [|auto].
  destruct (Hf a s1 H1) as [H3 H4]. split; [exact H3|]. eapply lay_trans; eassumption.
Qed.
Lemma wr_poke a f i o v : 0 <= v < 2 ^ 32 -> wr (t_poke a f i o v).
Proof.
  intros Hv s H. destruct (dget pair_eqb (t_devs s) (a, f)) as [d|] eqn:E.
  - destruct (word_exists d i o) eqn:Ew.
    + destruct (t_poke_run a f i o v s d H E (proj1 (word_exists_spec d i o) Ew) Hv) as (d' & -> & H1 & _ & H2 & _).
      cbn [snd t_devs]. split; [exact H1|]. eapply lay_dset; eassumption.
    + unfold t_poke. rewrite E, Ew. split; [exact H|apply lay_refl].
  - unfold t_poke. rewrite E. split; [exact H|apply lay_refl].
Qed.

Section Env.
  Variable env : tenv.
  Lemma ro_read0 f a i r b : ro (t_read_register0 env f a i r b).
  Proof.
    unfold t_read_register0. apply ro_bind; [apply ro_lift|]. intros rd. apply ro_bind; [apply ro_build|]. intros md.
    apply ro_bind; [apply ro_read|]. intros v0. apply ro_bind.
    - destruct (32 <? rd_width rd); [|apply ro_ret]. apply ro_bind; [apply ro_read|]. intros. apply ro_ret.
    - intros v. destruct b; [|apply ro_ret]. apply ro_bind; [apply ro_lift|]. intros. apply ro_ret.
  Qed.
  Lemma ro_validate_instance f a i : ro (validate_instance f a i).
  Proof.
    unfold validate_instance. apply ro_bind; [apply ro_get_mdmap|]. intros md. destruct (dget Z.eqb md i); [apply ro_ret|apply ro_throw].
  Qed.
  Lemma ro_read_register f a i r b : ro (t_read_register env f a i r b).
  Proof.
    unfold t_read_register. apply ro_bind; [apply ro_lift|]. intros _. apply ro_bind; [apply ro_validate_instance|]. intros _. apply ro_read0.
  Qed.
  Lemma wr_words n a f i : forall o w v, wr (t_write_words n a f i o w v).
  Proof.
    induction n as [|n IH]; intros o w v; cbn [t_write_words]; [apply ro_wr, ro_ret|].
    destruct (0 <? w); [|apply ro_wr, ro_ret]. apply wr_bind; [|intros _; apply IH]. apply wr_poke.
    change 0xffffffff with (Z.ones 32). rewrite Z.land_ones by lia. apply Z.mod_pos_bound. lia.
  Qed.
  Lemma wr_write_register v f a i r b : wr (t_write_register env v f a i r b).
  Proof.
    unfold t_write_register. apply wr_bind; [apply ro_wr, ro_lift|]. intros _.
    apply wr_bind; [apply ro_wr, ro_validate_instance|]. intros _. unfold t_write_register0.
    apply wr_bind; [apply ro_wr, ro_lift|]. intros rd. destruct (v <? 0); [apply ro_wr, ro_throw|].
    destruct (Z.shiftl 1 (rd_width rd) - 1 <? v); [apply ro_wr, ro_throw|].
    apply wr_bind; [apply ro_wr, ro_get_mdmap|]. intros md. apply wr_bind; [apply ro_wr, ro_lift|]. intros _.
    apply wr_bind; [|intros; apply wr_words]. apply ro_wr. destruct b; [|apply ro_ret].
    apply ro_bind; [apply ro_read0|]. intros. apply ro_bind; [apply ro_lift|]. intros. apply ro_ret.
  Qed.
  Lemma ro_iter_device f a p st : ro (iter_device f a p st).
  Proof.
    unfold iter_device. destruct st as [ins out]. apply ro_bind; [|intros; apply ro_ret].
    destruct ins as [l|].
    - apply ro_bind; [|intros; apply ro_ret]. apply ro_mfor. intros. apply ro_validate_instance.
    - apply ro_bind; [apply ro_get_mdmap|]. intros; apply ro_ret.
  Qed.
  Lemma ro_iter f a p i : ro (iter_feature env f a p i).
  Proof.
    unfold iter_feature. apply ro_bind; [apply ro_lift|]. intros fmap. apply ro_bind; [apply ro_lift|]. intros _.
    apply ro_bind; [|intros; apply ro_ret]. apply ro_mfold. intros st x. destruct (dget Z.eqb fmap x); [|apply ro_ret].
    apply ro_mfold. intros st2 y. destruct (_ =? y); [apply ro_iter_device|apply ro_ret].
  Qed.
End Env.
