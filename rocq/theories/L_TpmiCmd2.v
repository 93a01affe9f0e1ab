(** Lemmas about 'tpmi write'. *)
From Verif Require Import Base L_Base L_Monad M_Text S_Text L_Text M_Kver M_Osa M_CPUInfo M_MSR S_MSR L_Bits
  M_Tpmi S_Tpmi L_Tpmi L_Tpmi2 L_Tpmi3 L_Tpmi4 L_Tpmi5 L_Tpmi6 M_TpmiCmd S_TpmiCmd L_TpmiCmd.
From Coq Require Import ZifyBool.

(** ** Typed numbers *)
Lemma typed_run t l : typed t l -> exists l', num_list t = Ok l' /\
  match l, l' with None, None => True | Some l, Some l' => forall n, In n l' <-> In n l | _, _ => False end.
Proof.
  intros H. destruct H as [| |its ts H1 H2 H3]; [exists None; auto|exists None; auto|].
  destruct (parse_dedup_members [ts] its) as (r & E & Hr).
  - cbn [concat]. now rewrite app_nil_r.
  - exact H2.
  - exists (Some r). split; [|exact Hr]. unfold num_list. unfold parse_int_list in E. cbn [map nstr join] in E.
    destruct (commas ts) as [|c t] eqn:Ec; [congruence|]. change (join "," [c :: t]) with (c :: t) in E. now rewrite E.
Qed.

Lemma numeral_int s n : numeral s n -> py_int0 s = Some n.
Proof.
  intros H. pose proof (py_int0_num [] s n [] H ltac:(constructor) ltac:(constructor)) as E.
  rewrite app_nil_r in E. exact E.
Qed.

Lemma typed_value_run t v : typed_value t v -> str_to_int t = Ok v.
Proof.
  intros H. destruct H as [s n H|s n H|s H1 H2].
  - unfold str_to_int. now rewrite (numeral_int s n H).
  - unfold str_to_int, py_int0. cbn [lstrip_by]. change (is_cspace "-") with false. cbn iota.
    change (Ascii.eqb "-" "+") with false. change (Ascii.eqb "-" "-") with true. cbn iota.
    pose proof (int_base0_num s n [] H ltac:(constructor)) as E. rewrite app_nil_r in E. now rewrite E.
  - unfold str_to_int, py_int0. cbn [lstrip_by]. change (is_cspace "0") with false. cbn iota.
    change (Ascii.eqb "0" "+") with false. change (Ascii.eqb "0" "-") with false. cbn iota. unfold int_base0.
    change (Ascii.eqb "0" "0") with true. change (Ascii.eqb "x" "x" || Ascii.eqb "x" "X")%bool with true. cbn iota.
    assert (Es : skip_us s = s).
    { destruct s as [|c s]; [reflexivity|]. unfold skip_us. inversion H2; subst.
      rewrite (hex_not c "_") by (try assumption; unfold is_hex; cbn; lia). reflexivity. }
    rewrite Es, int_digits_hex by assumption. reflexivity.
Qed.

(** ** Filters only matter by their members *)
Definition same_filter (l l' : option (list Z)) : Prop :=
  match l, l' with None, None => True | Some l, Some l' => forall n, In n l' <-> In n l | _, _ => False end.
Lemma same_wanted l l' n : same_filter l l' -> wanted l' n <-> wanted l n.
Proof. destruct l, l'; cbn; firstorder. Qed.
Lemma same_selected nm env created s f addrs pk pk' a p d : same_filter pk pk' ->
  selected nm env created s f addrs pk' a p d <-> selected nm env created s f addrs pk a p d.
Proof. intros H. unfold selected. rewrite (same_wanted pk pk' p H). reflexivity. Qed.
Lemma same_uniform nm env created s f addrs pk pk' : same_filter pk pk' ->
  uniform nm env created s f addrs pk -> uniform nm env created s f addrs pk'.
Proof.
  intros H U a p d a' p' d' i H1 H2. apply (same_selected _ _ _ _ _ _ _ _ _ _ _ H) in H1, H2. exact (U _ _ _ _ _ _ i H1 H2).
Qed.
Lemma same_asked nm env created s f addrs pk pk' ins ins' a p i : same_filter pk pk' -> same_filter ins ins' ->
  asked_for nm env created s f addrs pk' ins' a p i <-> asked_for nm env created s f addrs pk ins a p i.
Proof.
  intros H1 H2. unfold asked_for. split; intros (d & K1 & K2 & K3); exists d; (split; [|split; [exact K2|]]).
  - now apply (same_selected _ _ _ _ _ _ _ _ _ _ _ H1).
  - now apply (same_wanted _ _ _ H2).
  - now apply (same_selected _ _ _ _ _ _ _ _ _ _ _ H1).
  - now apply (same_wanted _ _ _ H2).
Qed.
Lemma same_fit nm env created s f addrs pk pk' ins ins' : same_filter pk pk' -> same_filter ins ins' ->
  filters_fit nm env created s f addrs pk ins -> filters_fit nm env created s f addrs pk' ins'.
Proof.
  intros H1 H2 (F1 & F2 & F3 & F4). split; [exact F1|]. split; [exact F2|]. split.
  - intros l p -> Hp. destruct pk as [l0|]; [|destruct H1]. apply (F3 l0); [reflexivity|]. now apply H1.
  - intros l i a p d -> Hx Hs. destruct ins as [l0|]; [|destruct H2]. apply (F4 l0 i a p d); [reflexivity|now apply H2|].
    now apply (same_selected _ _ _ _ _ _ _ _ _ _ _ H1).
Qed.

(** ** Words that may change *)
Lemma only_refl f P s : only_words f P s s.
Proof.
  split; [reflexivity|]. intros a. destruct (dget pair_eqb (t_devs s) (a, f)); [|exact I].
  split; [apply same_layout_refl|reflexivity].
Qed.
Lemma only_trans f P s s1 s2 : only_words f P s s1 -> only_words f P s1 s2 -> only_words f P s s2.
Proof.
  intros [A1 A2] [B1 B2]. split.
  - intros a g Hg. now rewrite B1, A1.
  - intros a. specialize (A2 a). specialize (B2 a).
    destruct (dget pair_eqb (t_devs s) (a, f)), (dget pair_eqb (t_devs s1) (a, f)), (dget pair_eqb (t_devs s2) (a, f)); try tauto.
    destruct A2 as [L1 W1], B2 as [L2 W2]. split; [eapply same_layout_trans; eassumption|].
    intros i o w Hn. rewrite (W1 i o w Hn). now apply W2.
Qed.
Lemma only_mono f (P Q : Z -> Z -> Z -> Prop) s s' : (forall a i o, P a i o -> Q a i o) -> only_words f P s s' -> only_words f Q s s'.
Proof.
  intros H [A1 A2]. split; [exact A1|]. intros a. specialize (A2 a).
  destruct (dget pair_eqb (t_devs s) (a, f)), (dget pair_eqb (t_devs s') (a, f)); try tauto.
  destruct A2 as [L W]. split; [exact L|]. intros i o w Hn. apply W. auto.
Qed.
Lemma only_devs f P s s' : t_devs s' = t_devs s -> only_words f P s s'.
Proof.
  intros E. split; [intros a g _; now rewrite E|]. intros a. rewrite E. destruct (dget pair_eqb (t_devs s) (a, f)); [|exact I].
  split; [apply same_layout_refl|reflexivity].
Qed.
Lemma only_devs_l f P s s1 s2 : only_words f P s s1 -> t_devs s2 = t_devs s1 -> only_words f P s s2.
Proof. intros H E. eapply only_trans; [exact H|now apply only_devs]. Qed.
Lemma only_lay f P s s' : only_words f P s s' -> lay (t_devs s) (t_devs s').
Proof.
  intros [A1 A2] [a g]. destruct (Z.eq_dec g f) as [->|Hg].
  - specialize (A2 a). destruct (dget pair_eqb (t_devs s) (a, f)), (dget pair_eqb (t_devs s') (a, f)); tauto.
  - rewrite A1 by exact Hg. destruct (dget pair_eqb (t_devs s) (a, g)); [apply same_layout_refl|exact I].
Qed.
Lemma only_dset f (P : Z -> Z -> Z -> Prop) s s' a d d' : dget pair_eqb (t_devs s) (a, f) = Some d ->
  t_devs s' = dset pair_eqb (t_devs s) (a, f) d' -> same_layout d d' ->
  (forall i o w, ~ P a i o -> (holds d i o w <-> holds d' i o w)) -> only_words f P s s'.
Proof.
  intros Ed E Hl Hw. split.
  - intros b g Hg. rewrite E. apply (dget_dset_other _ pair_eqb_spec). congruence.
  - intros b. rewrite E. destruct (Z.eq_dec b a) as [->|Hb].
    + rewrite Ed, (dget_dset_same _ pair_eqb_spec). auto.
    + rewrite (dget_dset_other _ pair_eqb_spec) by congruence. destruct (dget pair_eqb (t_devs s) (b, f)); [|exact I].
      split; [apply same_layout_refl|reflexivity].
Qed.

Lemma low_word v : 0 <= Z.land v 0xffffffff < 2 ^ 32.
Proof. change 0xffffffff with (Z.ones 32). rewrite Z.land_ones by lia. apply Z.mod_pos_bound. lia. Qed.

Lemma poke_only a f i o v s : tinv s -> 0 <= v < 2 ^ 32 ->
  tinv (snd (t_poke a f i o v s)) /\
  only_words f (fun a' i' o' => a' = a /\ i' = i /\ o' = o) s (snd (t_poke a f i o v s)).
Proof.
  intros Hi Hv. destruct (dget pair_eqb (t_devs s) (a, f)) as [d|] eqn:Ed.
  - destruct (word_exists d i o) eqn:Ew.
    + destruct (t_poke_run a f i o v s d Hi Ed (proj1 (word_exists_spec d i o) Ew) Hv) as (d' & E & K1 & _ & K2 & _ & K3).
      rewrite E. cbn [snd]. split; [exact K1|]. eapply only_dset; [exact Ed|reflexivity|exact K2|].
      intros i' o' w Hn. apply K3. tauto.
    + unfold t_poke. rewrite Ed, Ew. split; [exact Hi|apply only_refl].
  - unfold t_poke. rewrite Ed. split; [exact Hi|apply only_refl].
Qed.

Lemma words_only a f i rd v s : tinv s -> rd_width rd = 32 \/ rd_width rd = 64 ->
  tinv (snd (t_write_words (Z.to_nat (rd_width rd)) a f i (rd_offset rd) (rd_width rd) v s)) /\
  only_words f (fun a' i' o' => a' = a /\ i' = i /\ reg_word rd o') s
    (snd (t_write_words (Z.to_nat (rd_width rd)) a f i (rd_offset rd) (rd_width rd) v s)).
Proof.
  intros Hi Hw. destruct (poke_only a f i (rd_offset rd) _ s Hi (low_word v)) as [P1 P2].
  unfold reg_word. destruct Hw as [Ew|Ew]; rewrite Ew.
  - change (Z.to_nat 32) with (S (S 30)). cbn [t_write_words]. change (0 <? 32) with true. cbv iota.
    unfold mbind. destruct (t_poke a f i (rd_offset rd) (Z.land v 0xffffffff) s) as [[[]|e] s1]; cbn [snd] in *.
    + change (0 <? 32 - 32) with false. cbv iota. cbn [snd ret]. split; [exact P1|]. eapply only_mono; [|exact P2]. cbn beta. tauto.
    + split; [exact P1|]. eapply only_mono; [|exact P2]. cbn beta. tauto.
  - change (Z.to_nat 64) with (S (S (S 61))). cbn [t_write_words]. change (0 <? 64) with true. cbv iota.
    unfold mbind. destruct (t_poke a f i (rd_offset rd) (Z.land v 0xffffffff) s) as [[[]|e] s1]; cbn [snd] in *.
    + change (0 <? 64 - 32) with true. cbv iota.
      destruct (poke_only a f i (rd_offset rd + 4) _ s1 P1 (low_word (Z.shiftr v 32))) as [Q1 Q2].
      destruct (t_poke a f i (rd_offset rd + 4) (Z.land (Z.shiftr v 32) 0xffffffff) s1) as [[[]|e] s2]; cbn [snd] in *.
      * change (0 <? 64 - 32 - 32) with false. cbv iota. cbn [snd ret]. split; [exact Q1|]. eapply only_trans.
        -- eapply only_mono; [|exact P2]. cbn beta. tauto.
        -- eapply only_mono; [|exact Q2]. cbn beta. tauto.
      * split; [exact Q1|]. eapply only_trans; [eapply only_mono; [|exact P2]|eapply only_mono; [|exact Q2]]; cbn beta; tauto.
    + split; [exact P1|]. eapply only_mono; [|exact P2]. cbn beta. tauto.
Qed.

Section Env.
  Variable env : tenv.
  Hypothesis Ht : tables_ok (te_fdicts env).

  Lemma regdict_def f r rd : get_regdict env f r = Ok rd -> reg_def env f r rd.
  Proof.
    unfold get_regdict. destruct (dget Z.eqb (te_fdicts env) f) as [fd|] eqn:Efd; [|discriminate].
    destruct (dget Z.eqb fd r) as [rd0|] eqn:Erd; [|discriminate]. intros [= ->]. exists fd. auto.
  Qed.
  Lemma def_ok f r rd : reg_def env f r rd -> reg_ok rd.
  Proof. intros (fd & E1 & E2). exact (Ht _ _ _ _ E1 E2). Qed.
  Lemma def_unique f r rd rd' : reg_def env f r rd -> reg_def env f r rd' -> rd = rd'.
  Proof. intros (fd & E1 & E2) (fd' & E3 & E4). congruence. Qed.

  (** A write: what it may change, whatever its outcome, and what its success means. *)
  Lemma write_any f a i r b v s : tinv s ->
    let P a' i' o := a' = a /\ i' = i /\ exists rd, reg_def env f r rd /\ reg_word rd o in
    post (t_write_register env v f a i r b) s
      (fun _ s' => tinv s' /\ only_words f P s s' /\
         exists d rd old, dget pair_eqb (t_devs s) (a, f) = Some d /\ reg_def env f r rd /\ reg_value d i rd old)
      (fun e s' => tinv s' /\ only_words f P s s').
  Proof.
    intros Hi P. assert (Rl : forall s1, tinv s1 -> t_devs s1 = t_devs s -> tinv s1 /\ only_words f P s s1).
    { intros s1 H1 H2. split; [exact H1|]. now apply only_devs. }
    unfold t_write_register. apply post_bind. apply post_lift; [|auto]. intros [] Ev. apply post_bind.
    destruct (ro_validate_instance f a i s Hi) as [R1 R2]. unfold post at 1.
    destruct (validate_instance f a i s) as [[[]|e] s1]; cbn [snd] in R1, R2; [|auto].
    unfold t_write_register0. apply post_bind. apply post_lift; [|auto]. intros rd Er.
    pose proof (regdict_def f r rd Er) as Hr. pose proof (def_ok _ _ _ Hr) as Hok.
    destruct (v <? 0); [apply post_throw; auto|]. destruct (_ <? v); [apply post_throw; auto|].
    apply post_bind. destruct (t_get_mdmap_run f a s1 R1) as (s2 & T1 & T2 & T3). unfold post at 1. rewrite T3. clear T3.
    destruct (dget pair_eqb (t_devs s1) (a, f)) as [d|] eqn:Ed; [|apply Rl; [exact T1|congruence]].
    apply post_bind. apply post_lift; [|intros; apply Rl; [exact T1|congruence]].
    intros pp Eo. apply post_bind.
    match goal with |- post ?m s2 _ _ => assert (Rm : ro m) end.
    { destruct b; [|apply ro_ret]. apply ro_bind; [apply ro_read0|]. intros. apply ro_bind; [apply ro_lift|]. intros. apply ro_ret. }
    match goal with |- post ?m s2 _ _ => destruct (Rm s2 T1) as [U1 U2]; unfold post at 1; destruct (m s2) as [[new|e0] s3] end;
      cbn [snd] in *; [|apply Rl; [exact U1|congruence]].
    assert (Hd : dump_ok d) by (apply (proj1 R1 _ _ Ed)).
    assert (Hlo : exists lo, holds d i (rd_offset rd) lo).
    { apply word_exists_spec. destruct (word_exists d i (rd_offset rd)) eqn:Ew; [reflexivity|].
      assert (Hno : forall x, ~ holds d i (rd_offset rd) x).
      { intros x Hx. assert (word_exists d i (rd_offset rd) = true) by (apply word_exists_spec; eauto). congruence. }
      destruct (C34_only_l d i (rd_offset rd) [] Hd Hno) as (md & Eb & Em). rewrite build_show in Eb by exact Hd. injection Eb as <-.
      unfold read_text in Em. rewrite Eo in Em. cbn [rbind] in Em.
      assert (Hn : str_to_int16 (firstn 8 (skipn (Z.to_nat pp) [])) = Exn EBadFormat) by now rewrite skipn_nil.
      rewrite Hn in Em. discriminate. }
    assert (E3 : dget pair_eqb (t_devs s3) (a, f) = Some d) by congruence.
    assert (Hw : rd_width rd = 32 \/ rd_width rd = 64) by apply Hok.
    destruct (words_only a f i rd new s3 U1 Hw) as [W1 W2].
    assert (W3 : only_words f P s (snd (t_write_words (Z.to_nat (rd_width rd)) a f i (rd_offset rd) (rd_width rd) new s3))).
    { eapply only_trans; [apply only_devs; transitivity (t_devs s2); [exact U2|congruence]|]. eapply only_mono; [|exact W2].
      cbn beta. intros a' i' o' (K1 & K2 & K3). unfold P. eauto. }
    unfold post.
    destruct (t_write_words (Z.to_nat (rd_width rd)) a f i (rd_offset rd) (rd_width rd) new s3) as [[[]|e] s4] eqn:E4; cbn [snd] in W1, W3; [|auto].
    split; [exact W1|]. split; [exact W3|]. exists d, rd. destruct Hlo as (lo & Hlo).
    assert (Hv : exists old, reg_value d i rd old).
    { destruct Hw as [Hw|Hw].
      - exists lo. left. auto.
      - rewrite Hw in E4. change (Z.to_nat 64) with (S (S (S 61))) in E4. cbn [t_write_words] in E4. change (0 <? 64) with true in E4. cbv iota in E4.
        destruct (t_poke_run a f i (rd_offset rd) (Z.land new 0xffffffff) s3 d U1 E3 ltac:(eauto) (low_word new)) as (d' & P0 & Hi' & _ & _ & _ & Hf).
        unfold mbind at 1 in E4. rewrite P0 in E4. change (0 <? 64 - 32) with true in E4. cbv iota in E4. unfold mbind at 1 in E4.
        set (s5 := TS (dset pair_eqb (t_devs s3) (a, f) d') (t_mds s3)) in *.
        assert (E5 : dget pair_eqb (t_devs s5) (a, f) = Some d') by apply (dget_dset_same _ pair_eqb_spec).
        destruct (word_exists d' i (rd_offset rd + 4)) eqn:Ew.
        + apply word_exists_spec in Ew as (hi & Hhi). exists (lo + 2 ^ 32 * hi). right. split; [exact Hw|].
          exists lo, hi. split; [exact Hlo|]. split; [|reflexivity]. apply Hf; [lia|exact Hhi].
        + assert (Et : t_poke a f i (rd_offset rd + 4) (Z.land (Z.shiftr new 32) 0xffffffff) s5 = (Exn EError, s5)).
          { unfold t_poke. now rewrite E5, Ew. }
          rewrite Et in E4. discriminate. }
    destruct Hv as (old & Hold). exists old. split; [congruence|]. auto.
  Qed.
End Env.

(** ** Reading values *)
Lemma reg_value_unique d i rd v v' : dump_ok d -> reg_value d i rd v -> reg_value d i rd v' -> v = v'.
Proof.
  intros Hd [(E1 & H1)|(E1 & lo & hi & H1 & H2 & ->)] [(E2 & K1)|(E2 & lo' & hi' & K1 & K2 & ->)]; try congruence.
  - exact (holds_unique _ _ _ _ _ Hd H1 K1).
  - rewrite (holds_unique _ _ _ _ _ Hd H1 K1), (holds_unique _ _ _ _ _ Hd H2 K2). reflexivity.
Qed.

Lemma reg_value_same d d' i rd v : (forall o w, reg_word rd o -> (holds d i o w <-> holds d' i o w)) ->
  reg_value d i rd v -> reg_value d' i rd v.
Proof.
  intros H [(E1 & H1)|(E1 & lo & hi & H1 & H2 & ->)].
  - left. split; [exact E1|]. apply H; [now left|exact H1].
  - right. split; [exact E1|]. exists lo, hi. split; [|split; [|reflexivity]].
    + apply H; [now left|exact H1].
    + apply H; [right; auto|exact H2].
Qed.

Lemma after_again rd b v old mid new : after_write rd b v old mid -> after_write rd b v mid new -> after_write rd b v old new.
Proof.
  destruct b as [b|]; cbn [after_write]; [|auto]. intros (sm & hl & E1 & M1 & S1) (sm' & hl' & E2 & M2 & S2).
  assert (sm' = sm) by congruence. subst sm'. exists sm, hl'. split; [exact E1|]. split; [exact M2|].
  assert (Hin : forall n, 0 <= n -> in_field hl n <-> in_field hl' n).
  { intros n Hn. destruct M1 as (_ & _ & M1), M2 as (_ & _ & M2). rewrite <- M1, <- M2 by exact Hn. reflexivity. }
  intros n Hn. destruct (S1 n Hn) as [A1 A2], (S2 n Hn) as [B1 B2]. split; [exact B1|].
  intros Hf. rewrite B2 by exact Hf. apply A2. now rewrite Hin.
Qed.
