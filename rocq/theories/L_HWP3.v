(** Lemmas about the HWP request registers: bus clock, reading and setting frequencies and EPP. *)
From Coq Require Import Ascii String ZifyBool.
From Verif Require Import Base L_Base L_Monad M_CPUInfo S_CPUInfo L_CPUInfo L_CPUInfo2
  M_Text M_MSR S_MSR L_Bits L_MSR L_MSR2 L_MSR3 L_MSR4 L_MSR5 M_FMSR S_FMSR L_Text L_FMSR L_FMSR2 L_FMSR3 L_FMSR4 X_FMSR
  M_HWP S_HWP L_Quiet L_OpTarget L_HWP L_HWP2.

(** How the request of a CPU may change when a setting is written: its "valid" bit may be set, if package control is
    on, and the setting may change if the CPU is meant. *)
Definition evolves (k : hset) (meant : Prop) (old new : Z) : Prop :=
  forall i, 0 <= i -> Z.testbit new i <> Z.testbit old i ->
    (i = valid_bit k /\ Z.testbit new i = true /\ Z.testbit old pkg_bit = true) \/ (meant /\ in_field (hbits k) i).

Lemma pkg_not_valid k : pkg_bit <> valid_bit k.
Proof. destruct k; discriminate. Qed.
Lemma pkg_not_field k : ~ in_field (hbits k) pkg_bit.
Proof. destruct k; unfold in_field; cbn; unfold pkg_bit; lia. Qed.
Lemma valid_not_field k k' : ~ in_field (hbits k) (valid_bit k').
Proof. destruct k, k'; unfold in_field; cbn; lia. Qed.
Lemma valid_inj k k' : valid_bit k = valid_bit k' -> k = k'.
Proof. destruct k, k'; cbn; congruence. Qed.
Lemma fields_disjoint k k' i : in_field (hbits k) i -> in_field (hbits k') i -> k = k'.
Proof. destruct k, k'; unfold in_field; cbn; auto; lia. Qed.
Lemma field_nonneg k i : in_field (hbits k) i -> 0 <= i.
Proof. destruct k; unfold in_field; cbn; lia. Qed.

Lemma evolves_refl k P r : evolves k P r r.
Proof. intros i _ H. congruence. Qed.
Lemma evolves_pkg k P old new : evolves k P old new -> Z.testbit new pkg_bit = Z.testbit old pkg_bit.
Proof.
  intros H. destruct (Bool.bool_dec (Z.testbit new pkg_bit) (Z.testbit old pkg_bit)) as [E|N]; [exact E|].
  destruct (H pkg_bit) as [(E & _)|(_ & E)]; [unfold pkg_bit; lia|exact N| |]; [now apply pkg_not_valid in E|now apply pkg_not_field in E].
Qed.
Lemma evolves_trans k P a b c : evolves k P a b -> evolves k P b c -> evolves k P a c.
Proof.
  intros H1 H2 i Hi N. pose proof (evolves_pkg _ _ _ _ H1) as Ep.
  destruct (Bool.bool_dec (Z.testbit b i) (Z.testbit a i)) as [E1|N1].
  - destruct (H2 i Hi) as [(A & B & C)|A]; [congruence| |now right]. left. rewrite <- Ep. auto.
  - destruct (H1 i Hi N1) as [(A & B & C)|A]; [|now right].
    destruct (Bool.bool_dec (Z.testbit c i) (Z.testbit b i)) as [E2|N2]; [left; rewrite E2; auto|].
    destruct (H2 i Hi N2) as [(A' & B' & C')|A']; [left; auto|right; exact A'].
Qed.
Lemma evolves_mono k (P Q : Prop) a b : (P -> Q) -> evolves k P a b -> evolves k Q a b.
Proof. intros PQ H i Hi N. destruct (H i Hi N) as [A|(A & B)]; [now left|right; auto]. Qed.
Lemma evolves_field k P a b k' v : evolves k P a b -> (k' <> k \/ ~ P) -> is_field (hbits k') a v -> is_field (hbits k') b v.
Proof.
  intros H Hc (Hf & Hv). split; [exact Hf|]. intros i Hi. rewrite <- (Hv i Hi).
  destruct (Bool.bool_dec (Z.testbit b i) (Z.testbit a i)) as [E|N]; [exact E|].
  destruct (H i (field_nonneg _ _ Hi) N) as [(-> & _)|(HP & Hi')]; [now apply valid_not_field in Hi|].
  pose proof (fields_disjoint _ _ _ Hi Hi') as ->. tauto.
Qed.
Lemma evolves_field_back k P a b k' v : evolves k P a b -> (k' <> k \/ ~ P) -> is_field (hbits k') b v -> is_field (hbits k') a v.
Proof.
  intros H Hc (Hf & Hv). split; [exact Hf|]. intros i Hi. rewrite <- (Hv i Hi).
  destruct (Bool.bool_dec (Z.testbit b i) (Z.testbit a i)) as [E|N]; [now symmetry|].
  destruct (H i (field_nonneg _ _ Hi) N) as [(-> & _)|(HP & Hi')]; [now apply valid_not_field in Hi|].
  pose proof (fields_disjoint _ _ _ Hi Hi') as ->. tauto.
Qed.
Lemma evolves_valid_other k P a b k' : evolves k P a b -> k' <> k -> Z.testbit b (valid_bit k') = Z.testbit a (valid_bit k').
Proof.
  intros H Hk. destruct (Bool.bool_dec (Z.testbit b (valid_bit k')) (Z.testbit a (valid_bit k'))) as [E|N]; [exact E|].
  destruct (H (valid_bit k') (proj1 (valid_bit_range k')) N) as [(E & _)|(_ & E)].
  - apply valid_inj in E. congruence.
  - now apply valid_not_field in E.
Qed.
Lemma evolves_valid k P a b : evolves k P a b -> Z.testbit a (valid_bit k) = true -> Z.testbit b (valid_bit k) = true.
Proof.
  intros H Ha. destruct (Bool.bool_dec (Z.testbit b (valid_bit k)) (Z.testbit a (valid_bit k))) as [E|N]; [congruence|].
  destruct (H (valid_bit k) (proj1 (valid_bit_range k)) N) as [(_ & E & _)|(_ & E)]; [exact E|].
  now apply valid_not_field in E.
Qed.
Lemma evolves_off k P a b : evolves k P a b -> ~ P -> Z.testbit a pkg_bit = false -> forall i, 0 <= i -> Z.testbit b i = Z.testbit a i.
Proof.
  intros H HP Ha i Hi. destruct (Bool.bool_dec (Z.testbit b i) (Z.testbit a i)) as [E|N]; [exact E|].
  destruct (H i Hi N) as [(_ & _ & E)|(E & _)]; [congruence|tauto].
Qed.

Lemma set_field_evolves k (P : Prop) v old new : P -> is_set (hbits k) v old new -> evolves k P old new.
Proof.
  intros HP H i Hi N. right. split; [exact HP|]. destruct (H i Hi) as (_ & H2).
  destruct (Z_le_dec (snd (hbits k)) i) as [A|A]; [|elim N; apply H2; unfold in_field; lia].
  destruct (Z_le_dec i (fst (hbits k))) as [B|B]; [unfold in_field; lia|elim N; apply H2; unfold in_field; lia].
Qed.
Lemma set_valid_evolves k P old new : is_set (valid_bit k, valid_bit k) 1 old new -> Z.testbit old pkg_bit = true -> evolves k P old new.
Proof.
  intros H Hp i Hi N. left. destruct (Z.eq_dec i (valid_bit k)) as [->|Ne].
  - split; [reflexivity|]. split; [|exact Hp]. eapply is_set_bit; eauto.
  - elim N. eapply is_set_bit_other; eauto.
Qed.

Lemma means_on i code : means (fbool i 1 (Some SCPU) true) (VStr (s2l "on"%string)) code -> code = 1.
Proof.
  intros (n & Hin & Hs). cbn [fbool fe_vals In] in Hin. destruct Hin as [E|[E|[]]]; apply pair_equal_spec in E as (<- & <-); [reflexivity|exfalso].
  destruct Hs as [[E|(a & b & E1 & E2 & Hn)]|[(a & al & t & _ & _ & [] & _)|(_ & b & t & E & _)]]; [discriminate| |discriminate].
  injection E1 as <-. injection E2 as <-. do 3 (inversion_clear Hn as [|? ? ? ? _ Hn1]; rename Hn1 into Hn).
Qed.
Lemma means_int hi lo ios w n code : means (fint hi lo ios w) (VInt n) code -> code = n.
Proof. unfold means. cbn [fint fe_vals]. intros [E|(b & E & _)]; congruence. Qed.

(** ** Grouping CPUs by level *)
Lemma add_perf_spec l : forall d, NoDup (map fst d) ->
  let d' := fold_left add_perf l d in NoDup (map fst d') /\
  forall p c, (exists cs, In (p, cs) d' /\ In c cs) <-> (exists cs, In (p, cs) d /\ In c cs) \/ In (c, p) l.
Proof.
  induction l as [|[c0 p0] t IH]; intros d Hd; [cbn; split; [exact Hd|]; intros; tauto|].
  cbn [fold_left]. cbv zeta in *.
  assert (Hn : NoDup (map fst (add_perf d (c0, p0)))).
  { unfold add_perf. destruct (dget Z.eqb d (snd (c0, p0))); apply (dset_NoDup _ Zeqb_spec); exact Hd. }
  destruct (IH _ Hn) as (I1 & I2). split; [exact I1|]. intros p c. rewrite I2. clear I1 I2 IH. cbn [In].
  assert (S : (exists cs, In (p, cs) (add_perf d (c0, p0)) /\ In c cs) <-> (exists cs, In (p, cs) d /\ In c cs) \/ (c, p) = (c0, p0)).
  { assert (G : forall dd (Hdd : NoDup (map fst dd)), (exists cs, In (p, cs) dd /\ In c cs) <-> exists cs, dget Z.eqb dd p = Some cs /\ In c cs).
    { intros dd Hdd. split; intros (cs & A & B); exists cs; (split; [|exact B]); [now apply (In_dget _ Zeqb_spec)|now apply (dget_In _ Zeqb_spec)]. }
    rewrite (G _ Hn), (G _ Hd). unfold add_perf. cbn [fst snd]. destruct (dget Z.eqb d p0) as [cs0|] eqn:E0.
    - destruct (Z.eq_dec p p0) as [->|Np].
      + rewrite (dget_dset_same _ Zeqb_spec). split.
        * intros (cs & E & B). injection E as <-. apply in_app_iff in B. destruct B as [B|[->|[]]]; [left; eauto|now right].
        * intros [(cs & E & B)|E]; eexists; (split; [reflexivity|]); apply in_app_iff; [left; congruence|right; left; congruence].
      + rewrite (dget_dset_other _ Zeqb_spec) by congruence. split; [intros H; left; exact H|]. intros [H|H]; [exact H|congruence].
    - destruct (Z.eq_dec p p0) as [->|Np].
      + rewrite (dget_dset_same _ Zeqb_spec). split.
        * intros (cs & E & B). injection E as <-. destruct B as [->|[]]. now right.
        * intros [(cs & E & B)|E]; [congruence|]. eexists. split; [reflexivity|]. left. congruence.
      + rewrite (dget_dset_other _ Zeqb_spec) by congruence. split; [intros H; left; exact H|]. intros [H|H]; [exact H|congruence]. }
  rewrite S. clear. split; [intros [[A|A]|A]; auto|intros [A|[A|A]]; auto].
Qed.

Lemma add_perf_nonempty l : forall d, (forall p cs, In (p, cs) d -> cs <> []) ->
  forall p cs, In (p, cs) (fold_left add_perf l d) -> cs <> [].
Proof.
  assert (G : forall d q (v : list Z), v <> [] -> (forall p cs, In (p, cs) d -> cs <> []) -> forall p cs, In (p, cs) (dset Z.eqb d q v) -> cs <> []).
  { intros d q v Hv. induction d as [|[q' v'] t IH]; intros H p cs; cbn [dset].
    - intros [E|[]]. congruence.
    - destruct (q =? q'); intros [E|Hin].
      + congruence.
      + apply (H p cs). now right.
      + injection E as <- <-. apply (H q' v'). now left.
      + revert Hin. apply IH. intros p' cs' Hin'. apply (H p' cs'). now right. }
  induction l as [|[c0 p0] t IH]; intros d Hd; [exact Hd|]. cbn [fold_left]. apply IH. unfold add_perf. cbn [fst snd].
  destruct (dget Z.eqb d p0) as [v|]; apply G; auto; [|discriminate]. intros E. apply app_eq_nil in E. destruct E as (_ & E). discriminate.
Qed.
