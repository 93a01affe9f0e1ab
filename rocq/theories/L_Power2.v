(** Histories of power limit settings (C29). *)
From Coq Require Import Ascii String QArith ZifyBool Sorted.
From Verif Require Import Base L_Base L_Monad M_CPUInfo S_CPUInfo L_CPUInfo M_Text M_MSR S_MSR L_Bits
  L_MSR L_MSR2 L_MSR3 L_MSR4 L_MSR5 M_Osa S_Osa L_Osa M_FMSR S_FMSR L_Text L_FMSR L_FMSR2 L_FMSR3 X_FMSR M_Power S_Power L_Power.

Definition switch_bits (two : bool) (k : switch_name) : bits_t :=
  match two, k with
  | false, Enable => (15, 15) | false, Clamp => (16, 16) | true, Enable => (47, 47) | true, Clamp => (48, 48)
  end.

Lemma field_val_set b v old new b2 : field_ok b -> field_ok b2 -> disjoint b b2 -> is_set b v old new ->
  field_val b2 new = field_val b2 old.
Proof.
  intros Hb Hb2 Hd Hs. apply (is_field_functional b2 new); [exact Hb2|now apply field_val_spec|].
  apply (is_set_other b b2 v old new); auto. now apply field_val_spec.
Qed.

Lemma field_val_new b v old new : field_ok b -> fits b v -> is_set b v old new -> field_val b new = v.
Proof.
  intros Hb Hf Hs. apply (is_field_functional b new); [exact Hb|now apply field_val_spec|]. now apply (is_set_field b v old).
Qed.

Lemma limits_disjoint two : disjoint (limit_field two) (limit_field (negb two)).
Proof. intros i (A & B). destruct two; unfold in_field in *; cbn in *; lia. Qed.
Lemma switch_disjoint two k t : disjoint (switch_bits two k) (limit_field t).
Proof. intros i (A & B). destruct two, k, t; unfold in_field in *; cbn in *; lia. Qed.
Lemma switch_field_ok two k : field_ok (switch_bits two k).
Proof. destruct two, k; cbv; repeat split; discriminate. Qed.

Lemma effect_frame env o L L' a d : op_effect env o L L' -> ~ op_touches env o a d -> L' a d = L a d.
Proof.
  destruct o; cbn [op_effect op_touches]; intros H N; try apply H; exact N.
Qed.

Section Hist.
  Variable env : menv.
  Notation dom := (me_dom env).
  Notation ci := (me_ci env).
  Notation online := (ci_online (me_ci env)).
  Variable rep : Z -> Z -> Z.
  Variable sc : Z -> scope.
  Notation Coh := (Coh env rep sc).
  Notation view := (view env).
  Notation keeps := (keeps env rep sc).
  Hypothesis Hwf : wf_ci ci.
  Hypothesis Hsc : forall a, scope_right env a (sc a).
  Hypothesis Hfaith : faithful env.
  Variables fru frl fri : freg.
  Hypothesis Hregs : power_regs fru frl fri.
  Hypothesis Hscopes : power_scopes sc.
  Notation PI := (PI env rep sc).
  Notation uval := (uval env).
  Notation fv := (fv env).
  Notation accepted := (accepted env).

  Lemma get_switch two k fe : get_feature frl (n_switch two k) = Ok fe ->
    fe_bits fe = switch_bits two k /\ forall v w, normalize_feature_value fe v = Ok w -> w = VInt 0 \/ w = VInt 1.
  Proof.
    unfold get_feature. destruct Hregs as (_ & -> & _). intros E.
    assert (X : fe_bits fe = switch_bits two k /\ fe_vals fe = Some [(VStr (s2l "on"), 1); (VStr (s2l "off"), 0)] /\ feature_ok fe).
    { destruct two, k; injection E as <-; (split; [reflexivity|]); (split; [reflexivity|]);
        apply feature_okb_sound; vm_compute; reflexivity. }
    destruct X as (Eb & Ev & Hok). split; [exact Eb|]. intros v w Hn.
    pose proof (normalize_spec fe Hok v _ Ev) as N. rewrite Hn in N. destruct N as (code & -> & Hm).
    unfold means in Hm. rewrite Ev in Hm. destruct Hm as (n & Hin & _).
    destruct Hin as [[= _ <-]|[[= _ <-]|[]]]; auto.
  Qed.

  (** The enable and clamp switches: the limits are not changed. *)
  Definition limits_kept (s s' : mstate) : Prop :=
    (forall a d, a <> a_limit -> view s' a d = view s a d) /\
    (forall t d, field_val (limit_field t) (view s' a_limit d) = field_val (limit_field t) (view s a_limit d)).

  Lemma limits_kept_same s s' : (forall a d, view s' a d = view s a d) -> limits_kept s s'.
  Proof. intros H. split; intros; now rewrite H. Qed.
  Lemma limits_kept_trans s1 s2 s3 : limits_kept s1 s2 -> limits_kept s2 s3 -> limits_kept s1 s3.
  Proof. intros (A & B) (C & D). split; intros; [rewrite C, A|rewrite D, B]; auto. Qed.

  Lemma set_switch_post two k v cpus p : PI p -> (ms_intr (pw_ms p) = true -> first_is env rep a_limit cpus) ->
    let Q p' := PI p' /\ ms_intr (pw_ms p') = ms_intr (pw_ms p) /\ limits_kept (pw_ms p) (pw_ms p') in
    post (set_switch env frl two k v cpus) p (fun _ p' => Q p') (fun _ p' => Q p').
  Proof.
    intros H Hr Q. unfold set_switch. destruct (Hlim sc fru frl fri Hregs Hscopes) as (Sl & Al).
    assert (R : Q p) by (split; [exact H|split; [reflexivity|now apply limits_kept_same]]).
    apply post_bind, post_lift; [|intros; exact R]. intros _ _.
    apply post_bind, post_lift; [|intros; exact R]. intros fe Ef. apply get_switch in Ef as (Eb & Hn).
    apply post_bind, post_lift; [|intros; exact R]. intros w Ew. specialize (Hn v w Ew).
    destruct (negb (fe_writable fe)); [apply post_throw; exact R|].
    assert (FL : forall q, PI q -> post (on_ms (flush_transaction env)) q
       (fun _ q' => PI q' /\ ms_intr (pw_ms q') = ms_intr (pw_ms q) /\ limits_kept (pw_ms q) (pw_ms q'))
       (fun _ q' => PI q' /\ ms_intr (pw_ms q') = ms_intr (pw_ms q) /\ limits_kept (pw_ms q) (pw_ms q'))).
    { intros q Hq. apply post_on_ms. eapply post_conseq; [apply (flush_post env rep sc Hwf Hsc Hfaith _ (p_coh _ _ _ _ Hq))| |].
      - intros b s' (H' & Ei & V & _). cbn [pw_ms]. split; [|split; [exact Ei|now apply limits_kept_same]].
        apply (PI_ms env rep sc q); auto.
      - intros b s' (H' & Ei & V & _). cbn [pw_ms]. split; [|split; [exact Ei|now apply limits_kept_same]].
        apply (PI_ms env rep sc q); auto. }
    apply post_bind. eapply post_conseq; [apply (FL p H)| |auto].
    intros _ p1 (H1 & I1 & L1). rewrite Al in *. rewrite Eb.
    assert (WB : forall code, 0 <= code -> post (on_ms (write_bits env a_limit (switch_bits two k) (Some code) cpus SPackage true) ;;
        let! _ := on_ms (flush_transaction env) in ret tt) p1 (fun _ p' => Q p') (fun _ p' => Q p')).
    { intros code Hc. apply post_bind, post_on_ms.
      assert (Hr1 : ms_intr (pw_ms p1) = true -> first_is env rep a_limit cpus) by (rewrite I1; exact Hr).
      pose proof (write_bits_post_mix env rep sc Hwf Hsc Hfaith a_limit (switch_bits two k) (Some code) cpus true
        (pw_ms p1) (p_coh _ _ _ _ H1) Hr1 (switch_field_ok two k) Hc) as P. rewrite Sl in P.
      eapply post_conseq; [exact P| |].
      - intros u s' (K & Eff). cbn beta.
        assert (LK : limits_kept (pw_ms p1) s').
        { split.
          - intros a d Hne. apply Eff. tauto.
          - intros t d. destruct (Eff a_limit d) as (E1 & E2).
            destruct (in_dec Z.eq_dec d (map (dom a_limit) (targets env cpus))) as [Hd|Hd].
            + apply in_map_iff in Hd as (c & <- & Hcc).
              apply (field_val_set (switch_bits two k) code _ _ (limit_field t)); [apply switch_field_ok|apply limit_field_ok|apply switch_disjoint|].
              apply E1. split; [reflexivity|]. exists c. auto.
            + rewrite E2; [reflexivity|]. intros (_ & c & Hcc & <-). apply Hd, in_map, Hcc. }
        assert (H2 : PI (PW s' (pw_lim p1) (pw_info p1))).
        { apply (PI_ms env rep sc p1); [exact H1|apply K|]. intros d. apply LK. discriminate. }
        apply post_bind. eapply post_conseq; [apply (FL _ H2)| |].
        + intros _ p3 (H3 & I3 & L3). apply post_ret. cbn [pw_ms] in *. split; [exact H3|]. split.
          * rewrite I3, (k_intr _ _ _ _ _ K). exact I1.
          * eapply limits_kept_trans; [exact L1|]. eapply limits_kept_trans; [exact LK|exact L3].
        + intros e p3 (H3 & I3 & L3). cbn [pw_ms] in *. split; [exact H3|]. split.
          * rewrite I3, (k_intr _ _ _ _ _ K). exact I1.
          * eapply limits_kept_trans; [exact L1|]. eapply limits_kept_trans; [exact LK|exact L3].
      - intros e s' (K & F & X). cbn beta.
        assert (LK : limits_kept (pw_ms p1) s').
        { split.
          - intros a d Hne. apply F. tauto.
          - intros t d. destruct (X d) as [->|En]; [reflexivity|].
            destruct (set_bits_is_set _ _ (Some code) _ (switch_field_ok two k) Hc En) as (_ & S).
            apply (field_val_set (switch_bits two k) code _ _ (limit_field t)); [apply switch_field_ok|apply limit_field_ok|apply switch_disjoint|exact S]. }
        cbn [pw_ms]. split; [|split].
        + apply (PI_ms env rep sc p1); [exact H1|apply K|]. intros d. apply LK. discriminate.
        + cbn [pw_ms]. rewrite (k_intr _ _ _ _ _ K). exact I1.
        + eapply limits_kept_trans; eauto. }
    destruct Hn as [-> | ->]; apply WB; lia.
  Qed.

  (** ** Order of the limits *)

  Definition in_order (s : mstate) (c : Z) : Prop := fv (limit_field false) s a_limit c <= fv (limit_field true) s a_limit c.

  Lemma limits_kept_order s s' c : limits_kept s s' -> in_order s c -> in_order s' c.
  Proof. intros (_ & B). unfold in_order, L_Power.fv. now rewrite !B. Qed.

  Lemma accepted_order s two val c u : uval s u -> accepted s two val c ->
    forall s', fv (limit_field two) s' a_limit c = to_units u val ->
    fv (limit_field (negb two)) s' a_limit c = fv (limit_field (negb two)) s a_limit c -> in_order s' c.
  Proof.
    intros U (u' & U' & Ec) s' E1 E2. assert (u' = u) by (eapply uval_fun; eauto). subst u'.
    pose proof (uval_pos env s u U) as Hu.
    assert (Hn : 0 <= Qnum val).
    { eapply check_nonneg; [exact Hu| |exact Ec]. apply field_val_pos, tdp_field_ok. }
    apply check_spec in Ec as (Ho & _). unfold in_order. destruct two; cbn [negb] in *.
    - rewrite E1, E2. apply to_units_ge; auto.
    - rewrite E1, E2. apply to_units_le; auto.
  Qed.

  Lemma set_ppl_order two val cpus p : PI p -> (ms_intr (pw_ms p) = true -> first_is env rep a_limit cpus) ->
    let p' := snd (set_ppl env fru frl fri two val cpus p) in
    PI p' /\ ms_intr (pw_ms p') = ms_intr (pw_ms p) /\
    forall c, In c online -> in_order (pw_ms p) c -> in_order (pw_ms p') c.
  Proof.
    intros H Hr. pose proof (set_ppl_post env rep sc Hwf Hsc Hfaith fru frl fri Hregs Hscopes two val cpus p H Hr) as P.
    unfold post in P. destruct (set_ppl env fru frl fri two val cpus p) as [[[]|e] p']; cbn [snd].
    - destruct P as (K & H' & l & El & A & St & F). split; [exact H'|]. split; [apply K|]. intros c Hc Ho.
      destruct (in_dec Z.eq_dec (dom a_limit c) (map (dom a_limit) l)) as [Hd|Hd].
      + apply in_map_iff in Hd as (c' & Ed & Hc').
        destruct (A c' Hc') as (u & U & Ec). destruct (St c' u Hc' U) as (Fit & S).
        assert (Acc : accepted (pw_ms p) two val c').
        { exists u. auto. }
        assert (O' : in_order (pw_ms p') c').
        { apply (accepted_order _ two val c' u U Acc).
          - unfold L_Power.fv. eapply field_val_new; [apply limit_field_ok|exact Fit|exact S].
          - unfold L_Power.fv. eapply field_val_set; [| | |exact S]; [apply limit_field_ok|apply limit_field_ok|apply limits_disjoint]. }
        unfold in_order, L_Power.fv in *. now rewrite Ed in O'.
      + unfold in_order, L_Power.fv in *. rewrite F; [exact Ho|]. intros (_ & c' & Hc' & Ed). apply Hd.
        apply in_map_iff. exists c'. split; [exact Ed|]. now apply (normalized_targets env cpus l El).
    - destruct P as (K & H' & F & [C|(u & U & A & (N & _) & X)]).
      + split; [exact H'|]. split; [apply K|]. intros c _ Ho. unfold in_order, L_Power.fv in *.
        now rewrite !(cache_only_view env _ _ _ _ C).
      + split; [exact H'|]. split; [apply K|]. intros c Hc Ho.
        destruct (X (dom a_limit c)) as [E|E].
        * unfold in_order, L_Power.fv in *. now rewrite E.
        * destruct (in_dec Z.eq_dec (dom a_limit c) (map (dom a_limit) (targets env cpus))) as [Hd|Hd].
          -- apply in_map_iff in Hd as (c' & Ed & Hc'). rewrite <- Ed in E.
             destruct (set_bits_is_set_some _ _ _ _ (limit_field_ok two) N E) as (Fit & S).
             assert (O' : in_order (pw_ms p') c').
             { apply (accepted_order _ two val c' u U (A c' Hc')).
               - unfold L_Power.fv. eapply field_val_new; [apply limit_field_ok|exact Fit|exact S].
               - unfold L_Power.fv. eapply field_val_set; [| | |exact S]; [apply limit_field_ok|apply limit_field_ok|apply limits_disjoint]. }
             unfold in_order, L_Power.fv in *. now rewrite Ed in O'.
          -- unfold in_order, L_Power.fv in *. rewrite F; [exact Ho|]. intros (_ & c' & Hc' & Ed). apply Hd.
             apply in_map_iff. exists c'. auto.
  Qed.

  Lemma snd_bind_ret {S A B} (m : M S A) (b : B) s : snd (mbind m (fun _ => ret b) s) = snd (m s).
  Proof. unfold mbind. destruct (m s) as [[a|e] s']; reflexivity. Qed.

  Lemma pstep_inv o p : PI p -> (forall m, o = PMsr m -> foreign_ok env sc m) ->
    (ms_intr (pw_ms p) = true -> pop_rep env rep o) ->
    let p' := snd (pstep env fru frl fri o p) in
    PI p' /\ (o <> PMsr OStart -> ms_intr (pw_ms p) = false -> ms_intr (pw_ms p') = false) /\
    forall c, In c online -> in_order (pw_ms p) c -> in_order (pw_ms p') c.
  Proof.
    intros H Hf Hr. destruct o as [two val cpus|two k v cpus|two cpus|cpus|m]; cbn [pstep pop_rep] in *.
    - rewrite snd_bind_ret. destruct (set_ppl_order two val cpus p H Hr) as (A & B & C).
      split; [exact A|]. split; [intros _ Hi; now rewrite B|exact C].
    - rewrite snd_bind_ret. pose proof (set_switch_post two k v cpus p H Hr) as P. cbn zeta in P. unfold post in P.
      destruct (set_switch env frl two k v cpus p) as [[[]|e] p']; cbn [snd];
        destruct P as (A & B & C); (split; [exact A|]); (split; [intros _ Hi; now rewrite B|]);
        intros c _; now apply limits_kept_order.
    - pose proof (get_watts_post env rep sc Hwf Hsc fru frl fri Hregs Hscopes true two cpus p H) as P. unfold post in P.
      cbn [gname] in P. destruct (get_watts env fru frl fri true (n_ppl two) cpus p) as [[r|e] p']; cbn [snd];
        destruct P as (C & A & _) || destruct P as (C & A); (split; [exact A|]);
        (split; [intros _ Hi; now rewrite (co_intr _ _ C)|]); intros c _ Ho; unfold in_order, L_Power.fv in *;
        now rewrite !(cache_only_view env _ _ _ _ C).
    - pose proof (get_watts_post env rep sc Hwf Hsc fru frl fri Hregs Hscopes false true cpus p H) as P. unfold post in P.
      cbn [gname] in P. destruct (get_watts env fru frl fri false n_tdp cpus p) as [[r|e] p']; cbn [snd];
        destruct P as (C & A & _) || destruct P as (C & A); (split; [exact A|]);
        (split; [intros _ Hi; now rewrite (co_intr _ _ C)|]); intros c _ Ho; unfold in_order, L_Power.fv in *;
        now rewrite !(cache_only_view env _ _ _ _ C).
    - rewrite snd_bind_ret. unfold on_ms. destruct (Hf m eq_refl) as (Hs & Ht).
      pose proof (mstep_post env rep sc Hwf Hsc Hfaith m (pw_ms p) (p_coh _ _ _ _ H) Hs Hr) as P.
      assert (Hc' : Coh (snd (mstep env m (pw_ms p)))).
      { unfold post in P. destruct (mstep env m (pw_ms p)) as [[r|e] s']; apply P. }
      assert (V : forall a d, a = a_limit \/ a = a_unit -> view (snd (mstep env m (pw_ms p))) a d = view (pw_ms p) a d).
      { intros a d Ha. assert (Hu : ~ op_touches env m a d) by (destruct Ha as [-> | ->]; apply Ht).
        unfold post in P. destruct (mstep env m (pw_ms p)) as [[r|e] s']; cbn [snd]; destruct P as (_ & P & _); [|now apply P].
        eapply effect_frame; eauto. }
      pose proof (mstep_intr env rep sc Hwf Hsc Hfaith m (pw_ms p) (p_coh _ _ _ _ H) Hs Hr) as HI.
      destruct (mstep env m (pw_ms p)) as [r s']; cbn [snd pw_ms] in *.
      split; [apply (PI_ms env rep sc p); auto|]. split; [intros Hne; apply HI; congruence|].
      intros c _ Ho. unfold in_order, L_Power.fv in *. rewrite !V; auto.
  Qed.
End Hist.
