(** Lemmas about the HWP request registers: reading and writing single features. *)
From Coq Require Import Ascii String ZifyBool.
From Verif Require Import Base L_Base L_Monad M_CPUInfo S_CPUInfo L_CPUInfo L_CPUInfo2
  M_Text M_MSR S_MSR L_Bits L_MSR L_MSR2 L_MSR3 L_MSR4 L_MSR5 M_FMSR S_FMSR L_Text L_FMSR L_FMSR2 L_FMSR3 X_FMSR M_HWP S_HWP L_Quiet L_OpTarget.

(** ** The tables *)
Definition hbits_feature (k : hset) : feature :=
  match k with HMin => fint 7 0 (Some SCPU) true | HMax => fint 15 8 (Some SCPU) true | HEpp => fint 31 24 (Some SCPU) true end.
Definition hvalid_feature (k : hset) : feature := fbool (valid_bit k) 1 (Some SCPU) true.
Definition pkgctl_feature : feature := fbool 42 1 (Some SCPU) true.
Definition pkg_feature (ios : option scope) (k : hset) : feature :=
  match k with HMin => fint 7 0 ios true | HMax => fint 15 8 ios true | HEpp => fint 31 24 ios true end.

Lemma hname_get k : dget str_eqb hwp_request_feats (hname k) = Some (hbits_feature k).
Proof. destruct k; vm_compute; reflexivity. Qed.
Lemma hvalid_get k : dget str_eqb hwp_request_feats (hvalid k) = Some (hvalid_feature k).
Proof. destruct k; vm_compute; reflexivity. Qed.
Lemma pkgctl_get : dget str_eqb hwp_request_feats (s2l "pkg_control"%string) = Some pkgctl_feature.
Proof. vm_compute. reflexivity. Qed.
Lemma pkg_get ios k : dget str_eqb (hwp_request_pkg_feats ios) (hname k) = Some (pkg_feature ios k).
Proof. destruct k; reflexivity. Qed.

Lemma hbits_feature_ok k : feature_ok (hbits_feature k).
Proof. apply feature_okb_sound. destruct k; vm_compute; reflexivity. Qed.
Lemma hvalid_feature_ok k : feature_ok (hvalid_feature k).
Proof. apply feature_okb_sound. destruct k; vm_compute; reflexivity. Qed.
Lemma pkgctl_feature_ok : feature_ok pkgctl_feature.
Proof. apply feature_okb_sound. vm_compute. reflexivity. Qed.
Lemma pkg_feature_ok ios k : feature_ok (pkg_feature ios k).
Proof. apply feature_okb_sound. destruct k; vm_compute; reflexivity. Qed.
Lemma fsb_feature_ok ios hi lo codes : In (hi, lo, codes) fsb_tables -> feature_ok (ffsb hi lo ios codes).
Proof.
  intros H. apply feature_okb_sound. unfold fsb_tables in H. cbn [In] in H.
  repeat (destruct H as [E|H]; [injection E as <- <- <-; vm_compute; reflexivity|]). destruct H.
Qed.
Lemma hbits_of k : fe_bits (hbits_feature k) = hbits k.
Proof. destruct k; reflexivity. Qed.
Lemma pkg_bits_of ios k : fe_bits (pkg_feature ios k) = hbits k.
Proof. destruct k; reflexivity. Qed.
Lemma hbits_ok k : field_ok (hbits k).
Proof. destruct k; unfold field_ok; cbn; lia. Qed.
Lemma bit_ok i : 0 <= i <= 63 -> field_ok (i, i).
Proof. intros H. unfold field_ok. cbn. lia. Qed.
Lemma valid_bit_range k : 0 <= valid_bit k <= 63.
Proof. destruct k; cbn; lia. Qed.

(** One-bit fields. *)
Lemma is_field_bit i r n : is_field (i, i) r n -> (n = 1 <-> Z.testbit r i = true) /\ (n = 0 \/ n = 1).
Proof.
  intros ((H1 & H2) & H). unfold field_width in H2. cbn [fst snd] in *.
  replace (i - i + 1) with 1 in H2 by lia. change (2 ^ 1) with 2 in H2.
  assert (E : n = 0 \/ n = 1) by lia. split; [|exact E].
  rewrite (H i) by (unfold in_field; cbn; lia). replace (i - i) with 0 by lia.
  destruct E as [-> | ->]; cbn; intuition discriminate.
Qed.
Lemma is_set_bit i n old new : 0 <= i -> is_set (i, i) n old new -> n = 1 -> Z.testbit new i = true.
Proof.
  intros Hi H ->. destruct (H i Hi) as (H1 & _). cbn [snd] in H1.
  rewrite H1 by (unfold in_field; cbn; lia). replace (i - i) with 0 by lia. reflexivity.
Qed.
Lemma is_set_bit_other i n old new j : is_set (i, i) n old new -> 0 <= j -> j <> i -> Z.testbit new j = Z.testbit old j.
Proof. intros H Hj Hn. destruct (H j Hj) as (_ & H2). apply H2. unfold in_field. cbn. lia. Qed.

(** ** Features of the registers *)
Section Post.
  Variable env : menv.
  Notation dom := (me_dom env).
  Notation ci := (me_ci env).
  Notation online := (ci_online (me_ci env)).
  Variable rep : Z -> Z -> Z.
  Variable sc : Z -> scope.
  Notation Coh := (Coh env rep sc).
  Notation view := (view env).
  Notation keeps := (keeps env rep sc).
  Hypothesis Hwf : wf_ci ci.
  Hypothesis Hsc : forall a, scope_right env a (sc a).
  Hypothesis Hfaith : faithful env.
  Variable x : hwp.
  Hypothesis Hx : hwp_ok env sc x.

  (** The states that occur. *)
  Definition Inv (s : mstate) : Prop :=
    Coh s /\ (ms_intr s = true -> forall c, In c online -> rep REQ (dom REQ c) = c).

  Lemma own_register c c' : In c online -> In c' online -> dom REQ c = dom REQ c' -> c = c'.
  Proof.
    intros Hc Hc' E. destruct (Hsc REQ) as (_ & _ & H). rewrite (ho_sc _ _ _ Hx) in H.
    destruct (proj2 (H c Hc c')) as (t & u & _ & _ & _ & _ & <- & <- & E'); [auto|].
    cbn in E'. congruence.
  Qed.

  Lemma Inv_keeps s s' : Inv s -> keeps s s' -> Inv s'.
  Proof. intros (_ & H) K. split; [apply K|]. rewrite (k_intr _ _ _ _ _ K). exact H. Qed.
  Lemma Inv_cache s s' : Inv s -> cache_only s s' -> Coh s' -> Inv s'.
  Proof. intros (_ & H) K C. split; [exact C|]. rewrite (co_intr _ _ K). exact H. Qed.

  (** A quiet step: nothing changed that the caller can see. *)
  Definition same_view (s s' : mstate) : Prop := (forall a d, view s' a d = view s a d) /\ keeps s s'.

  Lemma cache_same s s' : cache_only s s' -> Coh s' -> same_view s s'.
  Proof.
    intros C H. split; [intros; apply (cache_only_view env _ _ _ _ C)|]. now apply (cache_only_keeps env rep sc).
  Qed.

  Lemma normalize_one c l : normalize_cpus ci (Some [c]) false = Ok l -> l = [c] /\ In c online.
  Proof.
    intros E. pose proof (normalized_online env _ _ E) as Ho. unfold normalize_cpus in E.
    destruct (normalize_in_ok _ _ _ E) as (-> & Hav). split; [reflexivity|]. apply Ho. now left.
  Qed.

  (** The check of a feature. *)
  Lemma validate_ok fr n cpus : validate_feature_supported env fr n cpus = Ok tt ->
    forall c, In c (targets env cpus) -> In c online /\ has fr n c = true.
  Proof.
    unfold validate_feature_supported. destruct (get_feature fr n) as [fe|e]; cbn [rbind]; [|discriminate].
    destruct (normalize_cpus ci cpus false) as [l|e] eqn:El; cbn [rbind]; [|discriminate].
    pose proof (normalized_online env _ _ El) as Ho. pose proof (normalized_targets env _ _ El) as Ht.
    destruct (rmap l _) as [fl|e] eqn:Em; cbn [rbind]; [|discriminate].
    destruct (forallb (fun b => b) fl) eqn:Ea; [|discriminate]. intros _ c Hc. apply Ht in Hc. split; [auto|].
    apply rmap_forall2 in Em. clear Ho Ht El. induction Em as [|a b l fl Hab Em IH]; [destruct Hc|].
    cbn [forallb] in Ea. apply andb_true_iff in Ea as (-> & Ea).
    destruct Hc as [->|Hc]; [|auto]. unfold has. destruct (dget str_eqb (fr_supp fr) n) as [d|]; [|discriminate].
    destruct (dget Z.eqb d c) as [b0|]; congruence.
  Qed.

  Lemma validate_ns fr n cpus : validate_feature_supported env fr n cpus = Exn ENotSupported ->
    exists c, In c (targets env cpus) /\ In c online /\ has fr n c = false.
  Proof.
    unfold validate_feature_supported.
    destruct (get_feature fr n) as [fe|e] eqn:Eg; cbn [rbind]; [|intros [= ->]; now apply get_feature_quiet in Eg].
    destruct (normalize_cpus ci cpus false) as [l|e] eqn:El; cbn [rbind]; [|intros [= ->]; now apply normalize_cpus_quiet in El].
    pose proof (normalized_online env _ _ El) as Ho. pose proof (normalized_targets env _ _ El) as Ht.
    destruct (rmap l _) as [fl|e] eqn:Em; cbn [rbind].
    2:{ intros [= ->]. exfalso. revert Em. apply rquiet_map. intros a. quiet. }
    destruct (forallb (fun b => b) fl) eqn:Ea; [discriminate|]. intros _.
    apply rmap_forall2 in Em.
    assert (X : exists c, In c l /\ has fr n c = false).
    { clear Ho Ht El. induction Em as [|a b l fl Hab Em IH]; [discriminate|]. cbn [forallb] in Ea. destruct b.
      - destruct (IH Ea) as (c & Hc & E). exists c. split; [now right|exact E].
      - exists a. split; [now left|]. unfold has. destruct (dget str_eqb (fr_supp fr) n) as [d|]; [|reflexivity].
        destruct (dget Z.eqb d a) as [b0|]; congruence. }
    destruct X as (c & Hc & E). exists c. split; [now apply Ht|auto].
  Qed.

  (** Reading a number. *)
  Lemma read_num_post fr n fe c s : get_feature fr n = Ok fe -> feature_ok fe -> fe_ios fe = Some (sc (fr_addr fr)) ->
    Inv s ->
    post (read_num env fr n c) s
      (fun v s' => same_view s s' /\ Inv s' /\ In c online /\ has fr n c = true /\
         exists code, is_field (fe_bits fe) (view s (fr_addr fr) (dom (fr_addr fr) c)) code /\ named_as fe code (VInt v))
      (fun _ s' => same_view s s' /\ Inv s').
  Proof.
    intros Hg Hok Hios HI. unfold read_num. apply post_bind.
    pose proof (read_feature_post env rep sc Hwf Hsc fr n fe Hg Hok Hios (Some [c]) s (proj1 HI)) as P.
    unfold post in P |- *. destruct (read_feature env fr n (Some [c]) s) as [[r|e] s1] eqn:E.
    - destruct P as (C & H1 & l & El & F). pose proof (cache_same s s1 C H1) as SV. pose proof (Inv_cache s s1 HI C H1) as I1.
      destruct (normalize_one c l El) as (-> & Hc).
      assert (Hh : has fr n c = true).
      { apply (validate_ok fr n (Some [c])); [|now left]. unfold read_feature in E. unfold mbind at 1 in E. unfold lift at 1 in E.
        destruct (validate_feature_supported env fr n (Some [c])) as [[]|e]; [reflexivity|discriminate]. }
      inversion F as [|? [c' v] ? r' (Hf & Hn) F']; subst. inversion F'; subst. cbn [fst snd] in *. subst.
      destruct v; unfold throw, ret; auto.
      split; [exact SV|]. split; [exact I1|]. split; [exact Hc|]. split; [exact Hh|].
      eexists. split; [apply field_val_spec, fo_field, Hok|exact Hn].
    - destruct P as (C & H1). split; [now apply cache_same|eauto using Inv_cache].
  Qed.

  Variable fr : freg.
  Hypothesis Hfr : hw_req x = Ok fr.

  Lemma fr_addr_eq : fr_addr fr = REQ.
  Proof. apply (ho_req _ _ _ Hx fr Hfr). Qed.
  Lemma fr_get n fe : dget str_eqb hwp_request_feats n = Some fe -> get_feature fr n = Ok fe.
  Proof. unfold get_feature. destruct (ho_req _ _ _ Hx fr Hfr) as (_ & -> & _). now intros ->. Qed.
  Lemma scpu fe : fe_ios fe = Some SCPU -> fe_ios fe = Some (sc (fr_addr fr)).
  Proof. now rewrite fr_addr_eq, (ho_sc _ _ _ Hx). Qed.

  Definition bit_feature (n : str) (i : Z) : Prop :=
    dget str_eqb hwp_request_feats n = Some (fbool i 1 (Some SCPU) true) /\ 0 <= i <= 63.
  Lemma valid_is_bit k : bit_feature (hvalid k) (valid_bit k).
  Proof. split; [apply hvalid_get|apply valid_bit_range]. Qed.
  Lemma pkgctl_is_bit : bit_feature (s2l "pkg_control"%string) pkg_bit.
  Proof. split; [apply pkgctl_get|unfold pkg_bit; lia]. Qed.
  Lemma bit_feature_ok i : 0 <= i <= 63 -> feature_ok (fbool i 1 (Some SCPU) true).
  Proof.
    intros H. apply feature_okb_sound. unfold feature_okb. cbn [fbool fe_bits fe_vals fe_type fe_aliases vals_of aliases_of].
    assert (field_okb (i, i) = true) as -> by (unfold field_okb; cbn; lia).
    assert (W : forall n, fitsb (i, i) n = (0 <=? n) && (n <? 2)).
    { intros n. unfold fitsb, field_width. cbn [fst snd]. replace (i - i + 1) with 1 by lia. reflexivity. }
    cbn [forallb map snd fst]. rewrite !W. vm_compute. reflexivity.
  Qed.

  (** The name of a bit. *)
  Lemma named_bit i r v : named_as (fbool i 1 (Some SCPU) true) (field_val (i, i) r) v -> 0 <= i <= 63 ->
    (fval_eqb v (VStr (s2l "on"%string)) || fval_eqb v (VStr (s2l "enabled"%string)))%bool = Z.testbit r i.
  Proof.
    intros H Hi. destruct (field_val_spec (i, i) r (bit_ok i Hi)) as (_ & Hf).
    destruct (is_field_bit i r _ Hf) as (H1 & H2). cbn [named_as fbool fe_vals In] in H.
    destruct H as [E|[E|[]]]; injection E as <- E.
    - rewrite <- E in H1. rewrite (proj1 H1 eq_refl). reflexivity.
    - rewrite <- E in H1. cbn. destruct (Z.testbit r i); [|reflexivity]. pose proof (proj2 H1 eq_refl). discriminate.
  Qed.

  (** Reading bits. *)
  Lemma enabled_post n i cpus s : bit_feature n i -> Inv s ->
    post (is_feature_enabled env fr n cpus) s
      (fun r s' => same_view s s' /\ Inv s' /\
         (forall c, In c (targets env cpus) -> In c online /\ has fr n c = true) /\
         (forall c b, In (c, b) r <-> In c (targets env cpus) /\ b = Z.testbit (view s REQ (dom REQ c)) i))
      (fun e s' => same_view s s' /\ Inv s' /\ (e = ENotSupported -> exists c, In c (targets env cpus) /\ In c online /\ has fr n c = false)).
  Proof.
    intros (Hg & Hi) HI. unfold post. destruct (is_feature_enabled env fr n cpus s) as [r s1] eqn:E.
    assert (NS : r = Exn ENotSupported -> exists c, In c (targets env cpus) /\ In c online /\ has fr n c = false).
    { intros ->. apply enabled_ns in E. now apply validate_ns in E. }
    assert (R : same_view s s) by (apply cache_same; [apply cache_only_refl|apply HI]).
    unfold is_feature_enabled in E. unfold mbind at 1 in E. unfold lift at 1 in E.
    destruct (validate_feature_supported env fr n cpus) as [[]|e] eqn:Ev.
    2:{ apply pair_equal_spec in E as (<- & <-). split; [exact R|]. split; [exact HI|]. intros ->. auto. }
    rewrite (fr_get n _ Hg) in E. unfold mbind at 1 in E. unfold lift at 1 in E.
    cbn [fbool fe_type ftype_eqb negb] in E. unfold mbind in E.
    pose proof (read_feature_post env rep sc Hwf Hsc fr n _ (fr_get n _ Hg) (bit_feature_ok i Hi) (scpu (fbool i 1 (Some SCPU) true) eq_refl) cpus s (proj1 HI)) as P.
    unfold post in P. destruct (read_feature env fr n cpus s) as [[l|e] s2].
    - destruct P as (C & H1 & l0 & El & F). unfold ret in E. apply pair_equal_spec in E as (<- & <-).
      split; [now apply cache_same|]. split; [eauto using Inv_cache|]. split; [now apply validate_ok|].
      intros c b. rewrite <- (normalized_targets env _ _ El c). rewrite fr_addr_eq in F. rewrite in_map_iff. split.
      + intros ([c' v] & Ec & Hin). cbn [fst snd] in Ec. apply pair_equal_spec in Ec as (<- & <-).
        destruct (Forall2_In_r _ _ _ _ F Hin) as (c0 & Hc0 & Hf & Hn). cbn [fst snd] in *. subst. split; [exact Hc0|].
        now apply named_bit.
      + intros (Hc & ->). destruct (Forall2_In_l _ _ _ _ F Hc) as ([c' v] & Hin & Hf & Hn). cbn [fst snd] in *. subst.
        exists (c, v). split; [|exact Hin]. cbn [fst snd]. f_equal. now apply named_bit.
    - destruct P as (C & H1). apply pair_equal_spec in E as (<- & <-). split; [now apply cache_same|]. split; [eauto using Inv_cache|].
      intros ->. auto.
  Qed.

  Lemma cpu_enabled_post n i c s : bit_feature n i -> Inv s ->
    post (is_cpu_enabled env fr n c) s
      (fun b s' => same_view s s' /\ Inv s' /\ In c online /\ has fr n c = true /\ b = Z.testbit (view s REQ (dom REQ c)) i)
      (fun e s' => same_view s s' /\ Inv s' /\ (e = ENotSupported -> In c online /\ has fr n c = false)).
  Proof.
    intros Hb HI. unfold is_cpu_enabled. apply post_bind.
    eapply post_conseq; [apply (enabled_post n i (Some [c]) s Hb HI)| |].
    - intros r s' (SV & I' & Ht & Hr). cbn [targets In] in Ht, Hr.
      destruct (Ht c) as (Hc & Hh); [auto|].
      destruct r as [|[c' b] t]; [apply post_throw; split; [exact SV|]; split; [exact I'|discriminate]|].
      apply post_ret. destruct (proj1 (Hr c' b)) as ([->|[]] & ->); [now left|]. auto.
    - intros e s' (SV & I' & H). split; [exact SV|]. split; [exact I'|]. intros E. destruct (H E) as (c' & [->|[]] & ? & ?). auto.
  Qed.
End Post.
