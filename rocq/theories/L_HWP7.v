(** When I/O works, settings in the HWP request registers can be read and made. *)
From Coq Require Import Ascii String ZifyBool.
From Verif Require Import Base L_Base L_Monad M_CPUInfo S_CPUInfo L_CPUInfo L_CPUInfo2
  M_Text M_MSR S_MSR L_Bits L_MSR L_MSR2 L_MSR3 L_MSR4 L_MSR5 M_FMSR S_FMSR L_Text L_FMSR L_FMSR2 L_FMSR3 L_FMSR4 X_FMSR
  M_HWP S_HWP L_Quiet L_OpTarget L_HWP L_HWP2 L_HWP3 L_HWP4 L_HWP5 L_HWP6 L_FMSR5 M_FRead S_FRead L_FRead S_HWP2.

Lemma is_set_range b n r r' : field_ok b -> fits b n -> is_set b n r r' -> 0 <= r < 2 ^ 64 -> 0 <= r' < 2 ^ 64.
Proof.
  intros Hf Hfit Hs Hr. destruct (set_bits_ex r b n Hf Hfit) as (q & Eq).
  destruct (set_bits_is_set_some _ _ _ _ Hf (proj1 Hfit) Eq) as (_ & S).
  rewrite (is_set_functional b n _ _ _ Hs S). exact (set_bits_range _ _ (Some n) _ Hf (proj1 Hfit) Hr Eq).
Qed.

Section Live.
  Variable env : menv.
  Notation dom := (me_dom env).
  Notation ci := (me_ci env).
  Notation online := (ci_online (me_ci env)).
  Variable rep : Z -> Z -> Z.
  Variable sc : Z -> scope.
  Notation Coh := (Coh env rep sc).
  Notation view := (view env).
  Notation keeps := (keeps env rep sc).
  Notation Inv := (Inv env rep sc).
  Notation same_view := (same_view env rep sc).
  Hypothesis Hwf : wf_ci ci.
  Hypothesis Hsc : forall a, scope_right env a (sc a).
  Hypothesis Hfaith : faithful env.
  Variable x : hwp.
  Hypothesis Hx : hwp_ok env sc x.
  Notation ranged s := (registers_64 env s REQ).

  (** The contents of the registers matter for writing only. *)
  Variable Wr : Prop.
  Definition good (s : mstate) : Prop := Inv s /\ io_works s /\ (Wr -> ranged s).

  Lemma good_same s s' : good s -> same_view s s' -> Inv s' -> io_works s' -> good s'.
  Proof. intros (_ & _ & R) SV HI W. split; [exact HI|]. split; [exact W|]. intros w d. rewrite (proj1 SV). now apply R. Qed.

  Lemma validate_told fr n fe cpus : get_feature fr n = Ok fe -> told env fr n ->
    (forall c, In c (targets env cpus) -> In c online) ->
    validate_feature_supported env fr n cpus = Ok tt \/ validate_feature_supported env fr n cpus = Exn ENotSupported.
  Proof.
    intros Hg Ht Hc. unfold validate_feature_supported. rewrite Hg. cbn [rbind].
    destruct (proj2 (normalize_ok_iff env cpus) Hc) as (l & El). rewrite El. cbn [rbind].
    pose proof (normalized_online env _ _ El) as Ho.
    rewrite (rmap_all l _ (fun c => has fr n c)).
    - cbn [rbind]. destruct (forallb _ _); auto.
    - intros c Hin. destruct (Ht c (Ho c Hin)) as (d & b & E1 & E2). unfold has. rewrite E1, E2. reflexivity.
  Qed.

  Section WithReq.
  Variable fr : freg.
  Hypothesis Hfr : hw_req x = Ok fr.
  Notation fr_addr_eq := (fr_addr_eq env sc x Hx fr Hfr).

  Lemma bit_fe n i : bit_feature n i -> get_feature fr n = Ok (fbool i 1 (Some SCPU) true) /\ feature_ok (fbool i 1 (Some SCPU) true) /\
    fe_ios (fbool i 1 (Some SCPU) true) = Some (sc (fr_addr fr)).
  Proof.
    intros (Hg & Hi). split; [exact (fr_get env sc x Hx fr Hfr _ _ Hg)|]. split; [now apply bit_feature_ok|].
    exact (scpu env sc x Hx fr Hfr (fbool i 1 (Some SCPU) true) eq_refl).
  Qed.

  Lemma bit_named i r : 0 <= i <= 63 -> exists code w, is_field (i, i) r code /\ named_as (fbool i 1 (Some SCPU) true) code w.
  Proof.
    intros Hi. destruct (field_val_spec (i, i) r (bit_ok i Hi)) as (Hr & Hf). exists (field_val (i, i) r).
    destruct (is_field_bit i r _ Hf) as (H1 & H2). cbn [named_as fbool fe_vals In].
    destruct (Z.testbit r i) eqn:E.
    - exists (VStr (s2l "on"%string)). split; [exact Hf|]. left. f_equal. symmetry. now apply H1.
    - exists (VStr (s2l "off"%string)). split; [exact Hf|]. right. left. f_equal. destruct H2 as [-> | H2]; [reflexivity|]. apply H1 in H2. discriminate.
  Qed.

  Lemma bits_enabled n i cpus s : bit_feature n i -> good s -> (forall c, In c (targets env cpus) -> In c online /\ has fr n c = true) ->
    live (is_feature_enabled env fr n cpus) s.
  Proof.
    intros Hb (HI & W & _) Ht. destruct (bit_fe n i Hb) as (G & K & S).
    apply (enabled_live env rep sc Hwf Hsc fr n _ G K S cpus s (proj1 HI) W eq_refl Ht).
    intros c _. apply bit_named, Hb.
  Qed.

  Lemma cpu_enabled_live n i c s : bit_feature n i -> good s -> In c online -> has fr n c = true ->
    post (is_cpu_enabled env fr n c) s (fun b s' => same_view s s' /\ good s' /\ b = Z.testbit (view s REQ (dom REQ c)) i) (fun _ _ => False).
  Proof.
    intros Hb Hgd Hc Hh. pose proof (cpu_enabled_post env rep sc Hwf Hsc x Hx fr Hfr n i c s Hb (proj1 Hgd)) as P.
    assert (L : live (is_feature_enabled env fr n (Some [c])) s).
    { apply (bits_enabled n i); auto. intros c' [<-|[]]. auto. }
    pose proof (enabled_post env rep sc Hwf Hsc x Hx fr Hfr n i (Some [c]) s Hb (proj1 Hgd)) as Q.
    unfold live, post, is_cpu_enabled, mbind in *. destruct (is_feature_enabled env fr n (Some [c]) s) as [[l|e] s1]; [|destruct L].
    destruct Q as (_ & _ & _ & Hl). destruct l as [|[c' b] t].
    - exfalso. destruct (proj2 (Hl c (Z.testbit (view s REQ (dom REQ c)) i))); cbn; auto.
    - unfold ret in *. destruct P as (SV & I1 & _ & _ & Hv). split; [exact SV|]. split; [|exact Hv].
      eapply good_same; eauto.
  Qed.

  Lemma controlled_live k c s : good s -> told env fr (s2l "pkg_control"%string) -> In c online -> has fr (hvalid k) c = true ->
    post (is_pkg_controlled env fr k c) s (fun b s' => same_view s s' /\ good s' /\ b = pkg_decides env x (view s) k c) (fun _ _ => False).
  Proof.
    intros Hgd Ht Hc Hv. pose proof (controlled_post env rep sc Hwf Hsc x Hx fr Hfr k c s (proj1 Hgd)) as P.
    destruct (has fr (s2l "pkg_control"%string) c) eqn:Hh.
    - pose proof (cpu_enabled_live _ _ c s pkgctl_is_bit Hgd Hc Hh) as L. unfold post, is_pkg_controlled in *.
      destruct (is_cpu_enabled env fr (s2l "pkg_control"%string) c s) as [[b|e] s1]; [|destruct L].
      destruct L as (S1 & G1 & _). destruct b.
      + pose proof (cpu_enabled_live _ _ c s1 (valid_is_bit k) G1 Hc Hv) as L2. unfold post, mbind in *.
        destruct (is_cpu_enabled env fr (hvalid k) c s1) as [[b|e] s2]; [|destruct L2]. unfold ret in *.
        destruct P as (SV & _ & _ & E). destruct L2 as (_ & G2 & _). auto.
      + destruct P as (SV & _ & _ & E). auto.
    - destruct (bit_fe _ _ pkgctl_is_bit) as (G & _).
      assert (Ho : forall c', In c' (targets env (Some [c])) -> In c' online) by (intros c' [<-|[]]; exact Hc).
      assert (E : validate_feature_supported env fr (s2l "pkg_control"%string) (Some [c]) = Exn ENotSupported).
      { destruct (validate_told fr _ _ (Some [c]) G Ht Ho) as [E|E]; [|exact E].
        pose proof (validate_ok env fr _ _ E c (or_introl eq_refl)) as (_ & E'). congruence. }
      assert (Es : is_cpu_enabled env fr (s2l "pkg_control"%string) c s = (Exn ENotSupported, s)).
      { unfold is_cpu_enabled, is_feature_enabled, mbind, lift. now rewrite E. }
      unfold post, is_pkg_controlled in *. rewrite Es in *. destruct P as (SV & _ & _ & Ed). auto.
  Qed.

  Lemma perf_live k c s : good s -> In c online -> has fr (hname k) c = true ->
    post (read_num env fr (hname k) c) s (fun _ s' => same_view s s' /\ good s') (fun _ _ => False).
  Proof.
    intros Hgd Hc Hh. pose proof (perf_post env rep sc Hwf Hsc x Hx fr Hfr k c s (proj1 Hgd)) as P.
    assert (L : live (read_num env fr (hname k) c) s).
    { apply (read_num_live env rep sc Hwf Hsc fr (hname k) (hbits_feature k) (fr_get env sc x Hx fr Hfr _ _ (hname_get k)) (hbits_feature_ok k));
        [apply (scpu env sc x Hx fr Hfr); destruct k; reflexivity|apply Hgd|apply Hgd|exact Hc|exact Hh|].
      rewrite fr_addr_eq. exists (field_val (hbits k) (view s REQ (dom REQ c))), (field_val (hbits k) (view s REQ (dom REQ c))).
      rewrite hbits_of. split; [apply field_val_spec, hbits_ok|]. unfold named_as. destruct k; reflexivity. }
    unfold live, post in *. destruct (read_num env fr (hname k) c s) as [[v|e] s1]; [|destruct L].
    destruct P as (S1 & I1 & _). split; [exact S1|]. eapply good_same; eauto.
  Qed.

  Lemma bclk_live c s : good s -> In c online -> clock_known env x (view s) c ->
    post (get_bclk env x c) s (fun b s' => same_view s s' /\ good s' /\ bus_clock env x (view s) c b) (fun _ _ => False).
  Proof.
    intros Hgd Hc Hk. pose proof (get_bclk_post env rep sc Hwf Hsc x Hx c s (proj1 Hgd)) as P.
    assert (L := get_bclk_live env rep sc Hwf Hsc x Hx c s (proj1 Hgd) (proj1 (proj2 Hgd)) Hc Hk).
    unfold live, post in *. destruct (get_bclk env x c s) as [[v|e] s1]; [|destruct L].
    destruct P as (S1 & I1 & Hb). split; [exact S1|]. split; [|exact Hb]. eapply good_same; eauto.
  Qed.
  Hypothesis Hwr : Wr.
  Lemma write_good n fe cpus v s : dget str_eqb hwp_request_feats n = Some fe -> feature_ok fe -> fe_ios fe = Some SCPU ->
    fe_writable fe = true -> (fe_vals fe = None -> not_negative v) -> (exists code, means fe v code /\ fits (fe_bits fe) code) -> good s ->
    (forall c, In c cpus -> In c online /\ has fr n c = true) ->
    post (write_feature env fr n v (Some cpus)) s (fun _ s' => good s' /\ forall a d, a <> REQ -> view s' a d = view s a d) (fun _ _ => False).
  Proof.
    intros Hg Hok Hios Hw Hnn Hv (HI & W & R0) Ht. pose proof (R0 Hwr) as R.
    pose proof (fr_get env sc x Hx fr Hfr _ _ Hg) as G. pose proof (scpu env sc x Hx fr Hfr fe Hios) as Hs.
    assert (F : ms_intr s = true -> first_is env rep (fr_addr fr) (Some cpus)).
    { rewrite fr_addr_eq. exact (first_own env rep sc Hsc x Hx cpus s HI (fun c Hc => proj1 (Ht c Hc))). }
    assert (L : live (write_feature env fr n v (Some cpus)) s).
    { apply (write_feature_live env rep sc Hwf Hsc Hfaith fr n fe G Hok Hs (Some cpus) v s (proj1 HI) W F Hw Hv); [|exact Ht].
      rewrite fr_addr_eq. exact R. }
    pose proof (write_feature_post env rep sc Hwf Hsc Hfaith fr n fe G Hok Hs (Some cpus) v s (proj1 HI) F Hnn) as P.
    unfold live, post in *. destruct (write_feature env fr n v (Some cpus) s) as [[[]|e] s1]; [|destruct L].
    destruct P as (K & code & Hc & Eff). rewrite fr_addr_eq in Eff. cbn [op_effect value_of] in Eff. split.
    - split; [exact (Inv_keeps env rep sc s s1 HI K)|]. split; [exact L|]. intros _ d.
      destruct (in_dec Z.eq_dec d (map (dom REQ) cpus)) as [Hd|Hd].
      + apply in_map_iff in Hd as (c & <- & Hin). destruct (Hc c Hin) as (_ & Hf).
        eapply is_set_range; [apply fo_field, Hok|exact Hf| |apply (R (dom REQ c))].
        apply (Eff REQ (dom REQ c)). split; [reflexivity|]. exists c. auto.
      + destruct (Eff REQ d) as (_ & E). rewrite E; [apply R|]. intros (_ & c & Hin & <-). apply Hd, in_map, Hin.
    - intros a d Ha. apply (Eff a d). tauto.
  Qed.

  Lemma valid_writable k : fe_writable (hvalid_feature k) = true.
  Proof. reflexivity. Qed.
  Lemma valid_value k : exists code, means (hvalid_feature k) (VStr (s2l "on"%string)) code /\ fits (fe_bits (hvalid_feature k)) code.
  Proof.
    exists 1. split.
    - unfold means, hvalid_feature. cbn [fbool fe_vals]. exists (VStr (s2l "on"%string)). split; [now left|]. left. left. reflexivity.
    - unfold hvalid_feature, fits, field_width. cbn [fbool fe_bits fst snd]. replace (valid_bit k - valid_bit k + 1) with 1 by lia. cbn. lia.
  Qed.

  Lemma disable_all_live k s : k <> HEpp -> good s -> told env fr (s2l "pkg_control"%string) ->
    post (disable_all_pkg_control env fr k) s (fun _ s' => good s' /\ forall a d, a <> REQ -> view s' a d = view s a d) (fun _ _ => False).
  Proof.
    intros Hk Hgd Ht. destruct (bit_fe _ _ pkgctl_is_bit) as (G & _).
    pose proof (validate_told fr _ _ None G Ht (fun c H => H)) as [E|E].
    - pose proof (validate_ok env fr _ _ E) as Hv. pose proof (bits_enabled _ _ None s pkgctl_is_bit Hgd Hv) as L.
      pose proof (enabled_post env rep sc Hwf Hsc x Hx fr Hfr _ pkg_bit None s pkgctl_is_bit (proj1 Hgd)) as P.
      unfold live, post, disable_all_pkg_control, mbind in *.
      destruct (is_feature_enabled env fr (s2l "pkg_control"%string) None s) as [[l|e] s1]; [|destruct L].
      destruct P as (S1 & I1 & _ & Hl). cbn [targets] in Hl, Hv. pose proof (good_same s s1 Hgd S1 I1 L) as G1.
      set (pc := map fst (filter (fun ce => snd ce) l)).
      assert (Hpc : forall c, In c pc -> In c online /\ has fr (hvalid k) c = true).
      { intros c Hc. unfold pc in Hc. apply in_map_iff in Hc as ([c0 b] & <- & Hin). apply filter_In in Hin as (Hin & _).
        apply Hl in Hin. destruct Hin as (Ho & _). cbn [fst]. split; [exact Ho|].
        destruct (ho_req _ _ _ Hx fr Hfr) as (_ & _ & _ & Hr). apply Hr; [exact Hk|]. now apply Hv. }
      pose proof (write_good _ _ pc (VStr (s2l "on"%string)) s1 (hvalid_get k) (hvalid_feature_ok k) eq_refl (valid_writable k)
        (fun _ => I) (valid_value k) G1 Hpc) as P9. unfold post in P9.
      destruct (write_feature env fr (hvalid k) (VStr (s2l "on"%string)) (Some pc) s1) as [[[]|e] s2]; [|destruct P9].
      destruct P9 as (G2 & F2). split; [exact G2|]. intros a d Ha. rewrite F2 by exact Ha. apply S1.
    - unfold post, disable_all_pkg_control, mbind, is_feature_enabled, lift. unfold mbind. rewrite E. split; [exact Hgd|reflexivity].
  Qed.

  Lemma disable_live k c s : good s -> told env fr (s2l "pkg_control"%string) -> In c online -> has fr (hvalid k) c = true ->
    post (disable_pkg_control env fr k c) s (fun _ s' => good s' /\ forall a d, a <> REQ -> view s' a d = view s a d) (fun _ _ => False).
  Proof.
    intros Hgd Ht Hc Hv. destruct (has fr (s2l "pkg_control"%string) c) eqn:Hh.
    - pose proof (cpu_enabled_live _ _ c s pkgctl_is_bit Hgd Hc Hh) as L. unfold post, disable_pkg_control in *.
      destruct (is_cpu_enabled env fr (s2l "pkg_control"%string) c s) as [[b|e] s1]; [|destruct L].
      destruct L as (S1 & G1 & _). destruct b; [|split; [exact G1|intros; apply S1]].
      pose proof (write_good _ _ [c] (VStr (s2l "on"%string)) s1 (hvalid_get k) (hvalid_feature_ok k) eq_refl (valid_writable k)
        (fun _ => I) (valid_value k) G1) as P9.
      assert (Hc1 : forall c0, In c0 [c] -> In c0 online /\ has fr (hvalid k) c0 = true) by (intros c0 [<-|[]]; auto).
      specialize (P9 Hc1). unfold post in P9.
      destruct (write_feature env fr (hvalid k) (VStr (s2l "on"%string)) (Some [c]) s1) as [[[]|e] s2]; [|destruct P9].
      destruct P9 as (G2 & F2). split; [exact G2|]. intros a d Ha. rewrite F2 by exact Ha. apply S1.
    - destruct (bit_fe _ _ pkgctl_is_bit) as (G & _).
      assert (Ho : forall c', In c' (targets env (Some [c])) -> In c' online) by (intros c' [<-|[]]; exact Hc).
      assert (E : validate_feature_supported env fr (s2l "pkg_control"%string) (Some [c]) = Exn ENotSupported).
      { destruct (validate_told fr _ _ (Some [c]) G Ht Ho) as [E|E]; [|exact E].
        pose proof (validate_ok env fr _ _ E c (or_introl eq_refl)) as (_ & E'). congruence. }
      assert (Es : is_cpu_enabled env fr (s2l "pkg_control"%string) c s = (Exn ENotSupported, s)).
      { unfold is_cpu_enabled, is_feature_enabled, mbind, lift. now rewrite E. }
      unfold post, disable_pkg_control. rewrite Es. split; [exact Hgd|reflexivity].
  Qed.

  Lemma write_num_live k p cpus s : good s -> fits (hbits k) p -> (forall c, In c cpus -> In c online /\ has fr (hname k) c = true) ->
    post (write_feature env fr (hname k) (VInt p) (Some cpus)) s (fun _ s' => good s' /\ forall a d, a <> REQ -> view s' a d = view s a d) (fun _ _ => False).
  Proof.
    intros Hgd Hp Hc. apply (write_good _ _ cpus (VInt p) s (hname_get k) (hbits_feature_ok k)); [destruct k; reflexivity..|intros _; apply Hp| |exact Hgd|exact Hc].
    exists p. rewrite hbits_of. split; [|exact Hp]. destruct k; left; reflexivity.
  Qed.

  End WithReq.
End Live.
