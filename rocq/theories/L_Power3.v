(** C29: from the lemmas about single calls to the statements of the theorems. *)
From Coq Require Import Ascii String QArith ZifyBool Sorted.
From Verif Require Import Base L_Base L_Monad M_CPUInfo S_CPUInfo L_CPUInfo M_Text M_MSR S_MSR L_Bits
  L_MSR L_MSR2 L_MSR3 L_MSR4 L_MSR5 M_Osa S_Osa L_Osa M_FMSR S_FMSR L_Text L_FMSR L_FMSR2 L_FMSR3 X_FMSR
  M_Power S_Power L_Power L_Power2.

Section Hist.
  Variable env : menv.
  Notation dom := (me_dom env).
  Notation ci := (me_ci env).
  Notation online := (ci_online (me_ci env)).
  Variable sc : Z -> scope.
  Notation view := (view env).
  Hypothesis Hwf : wf_ci ci.
  Hypothesis Hsc : forall a, scope_right env a (sc a).
  Hypothesis Hfaith : faithful env.
  Variables fru frl fri : freg.
  Hypothesis Hregs : power_regs fru frl fri.
  Hypothesis Hscopes : power_scopes sc.
  Notation uval := (uval env).
  Notation fv := (fv env).
  Notation accepted := (accepted env).
  Notation in_order := (in_order env).
  Notation prun := (prun env fru frl fri).

  (** ** The specification's Watts and the code's *)

  Lemma first_min c t : get_cpus ci = c :: t -> In c online /\ forall x, In x online -> c <= x.
  Proof.
    intros E. split; [now apply (first_online env c t)|]. intros x Hx.
    pose proof (zsort_sorted online) as S. unfold get_cpus in E. rewrite E in S. inversion S as [|? ? _ F]; subst.
    rewrite <- zsort_In, E in Hx. destruct Hx as [<-|Hx]; [lia|]. rewrite Forall_forall in F. auto.
  Qed.

  Lemma uval_unit s u : uval s u -> unit_watts env s (/ inject_Z (2 ^ u))%Q.
  Proof.
    intros (c & t & E & ->). destruct (first_min c t E) as (Hc & Hm). exists c, (field_val (3, 0) (view s a_unit (dom a_unit c))).
    split; [exact Hc|]. split; [exact Hm|]. split; [apply field_val_spec, unit_field_ok|reflexivity].
  Qed.

  Lemma unit_uval s q : unit_watts env s q -> exists u, uval s u /\ (q == / inject_Z (2 ^ u))%Q.
  Proof.
    intros (c & u & Hc & Hm & Hf & Eq). exists u. split; [|exact Eq].
    destruct (get_cpus ci) as [|c' t] eqn:E.
    - rewrite <- zsort_In in Hc. unfold get_cpus in E. rewrite E in Hc. destruct Hc.
    - destruct (first_min c' t E) as (Hc' & Hm'). assert (c = c') by (apply Z.le_antisymm; auto). subst c'.
      exists c, t. split; [exact E|]. eapply is_field_functional; [apply unit_field_ok|exact Hf|apply field_val_spec, unit_field_ok].
  Qed.

  Lemma uval_ex s c : In c online -> exists u, uval s u.
  Proof.
    intros Hc. destruct (get_cpus ci) as [|c' t] eqn:E.
    - rewrite <- zsort_In in Hc. unfold get_cpus in E. rewrite E in Hc. destruct Hc.
    - eexists. exists c', t. split; [exact E|reflexivity].
  Qed.

  Lemma field_watts_iff s a b c u w : field_ok b -> uval s u ->
    field_watts env s a b c w <-> (w == watts u (fv b s a c))%Q.
  Proof.
    intros Hb U. pose proof (uval_pos env s u U) as Hu. rewrite watts_eq by exact Hu. unfold L_Power.fv. split.
    - intros (n & q & Hf & Hq & ->). destruct (unit_uval s q Hq) as (u' & U' & ->).
      assert (u' = u) by (eapply uval_fun; eauto). subst u'.
      assert (n = field_val b (view s a (dom a c))) as ->; [|reflexivity].
      eapply is_field_functional; [exact Hb|exact Hf|now apply field_val_spec].
    - intros E. exists (field_val b (view s a (dom a c))), (/ inject_Z (2 ^ u))%Q.
      split; [now apply field_val_spec|]. split; [now apply uval_unit|exact E].
  Qed.

  Lemma accepted_iff s two val c : In c online -> accepted s two val c <-> acceptable env s two val c.
  Proof.
    intros Hc. split.
    - intros (u & U & E). apply check_spec in E. exists (watts u (fv (limit_field (negb two)) s a_limit c)), (watts u (fv (14, 0) s a_info c)).
      split; [apply (field_watts_iff s a_limit _ c u); [apply limit_field_ok|exact U|reflexivity]|].
      split; [apply (field_watts_iff s a_info _ c u); [apply tdp_field_ok|exact U|reflexivity]|exact E].
    - intros (o & t & Ho & Ht & E). destruct (uval_ex s c Hc) as (u & U). exists u. split; [exact U|].
      apply (field_watts_iff s a_limit _ c u) in Ho; [|apply limit_field_ok|exact U].
      apply (field_watts_iff s a_info _ c u) in Ht; [|apply tdp_field_ok|exact U].
      apply check_spec. rewrite <- Ht. destruct E as (E1 & E2 & E3). split; [|split; assumption].
      destruct two; rewrite <- Ho; exact E1.
  Qed.

  Lemma ordered_iff s : ordered env s <-> forall c, In c online -> in_order s c.
  Proof.
    split.
    - intros H c Hc. destruct (uval_ex s c Hc) as (u & U). pose proof (uval_pos env s u U) as Hu. unfold L_Power2.in_order.
      apply (watts_le u); [exact Hu|]. apply (H c); [exact Hc| |];
        apply (field_watts_iff s a_limit _ c u); try apply limit_field_ok; try exact U; reflexivity.
    - intros H c w1 w2 Hc H1 H2. destruct (uval_ex s c Hc) as (u & U). pose proof (uval_pos env s u U) as Hu.
      apply (field_watts_iff s a_limit _ c u) in H1; [|apply limit_field_ok|exact U].
      apply (field_watts_iff s a_limit _ c u) in H2; [|apply limit_field_ok|exact U].
      rewrite H1, H2. apply watts_le; [exact Hu|]. exact (H c Hc).
  Qed.

  (** ** Histories *)

  Lemma prun_inv rep ops : forall p, PI env rep sc p ->
    (forall o, In (PMsr o) ops -> foreign_ok env sc o) ->
    ((ms_intr (pw_ms p) = false /\ ~ In (PMsr OStart) ops) \/ forall o, In o ops -> pop_rep env rep o) ->
    PI env rep sc (prun ops p) /\
    (ms_intr (pw_ms p) = false -> ~ In (PMsr OStart) ops -> ms_intr (pw_ms (prun ops p)) = false) /\
    ((forall c, In c online -> in_order (pw_ms p) c) -> forall c, In c online -> in_order (pw_ms (prun ops p)) c).
  Proof.
    induction ops as [|o t IH]; intros p H Hf Hd; [auto|]. cbn [prun fold_left].
    change (fold_left _ t ?q) with (prun t q).
    destruct (pstep_inv env rep sc Hwf Hsc Hfaith fru frl fri Hregs Hscopes o p H) as (A & B & C).
    - intros m ->. apply Hf. now left.
    - intros Hi. destruct Hd as [(Hn & _)|Hd]; [congruence|]. apply Hd. now left.
    - destruct (IH (snd (pstep env fru frl fri o p)) A) as (D & E & F).
      + intros m Hm. apply Hf. now right.
      + destruct Hd as [(Hi & Hn)|Hd]; [left|right; intros x Hx; apply Hd; now right].
        split; [apply B; [intros ->; apply Hn; now left|exact Hi]|]. intros Hx. apply Hn. now right.
      + split; [exact D|]. split.
        * intros Hi Hn. apply E; [|intros Hx; apply Hn; now right]. apply B; [intros ->; apply Hn; now left|exact Hi].
        * intros Ho. apply F. intros c Hc. apply C; auto.
  Qed.

  Lemma PI_init rep hw faults : PI env rep sc (power_init hw faults).
  Proof. split; [apply Coh_init| |]; cbn; discriminate. Qed.

  Lemma reachedp ops o hw faults : pdisciplined env sc (ops ++ [o]) ->
    exists rep, PI env rep sc (prun ops (power_init hw faults)) /\
      (ms_intr (pw_ms (prun ops (power_init hw faults))) = true -> pop_rep env rep o).
  Proof.
    intros (Hf & Hd).
    assert (Hf' : forall m, In (PMsr m) ops -> foreign_ok env sc m) by (intros m Hm; apply Hf, in_app_iff; now left).
    destruct Hd as [Hn|(rep & Hr)].
    - assert (Hn' : ~ In (PMsr OStart) ops) by (intros Hx; apply Hn, in_app_iff; now left).
      exists (fun _ _ => 0). destruct (prun_inv (fun _ _ => 0) ops (power_init hw faults)) as (A & B & _); auto.
      + apply PI_init.
      + split; [exact A|]. rewrite B; [discriminate|reflexivity|exact Hn'].
    - exists rep. destruct (prun_inv rep ops (power_init hw faults)) as (A & B & _); auto.
      + apply PI_init.
      + right. intros x Hx. apply Hr, in_app_iff. now left.
      + split; [exact A|]. intros _. apply Hr, in_app_iff. right. now left.
  Qed.

  Lemma C29_ordered_l ops hw faults : pdisciplined env sc ops ->
    ordered env (pw_ms (power_init hw faults)) -> ordered env (pw_ms (prun ops (power_init hw faults))).
  Proof.
    intros (Hf & Hd) H0. rewrite ordered_iff in *.
    destruct Hd as [Hn|(rep & Hr)].
    - destruct (prun_inv (fun _ _ => 0) ops (power_init hw faults)) as (_ & _ & C); auto. apply PI_init.
    - destruct (prun_inv rep ops (power_init hw faults)) as (_ & _ & C); auto. apply PI_init.
  Qed.

  Section Set_.
    Variables (ops : list pop) (hw : Z -> Z -> Z) (faults : list bool) (two : bool) (val : Q) (cpus : nums_t).
    Hypothesis Hd : pdisciplined env sc (ops ++ [PSet two val cpus]).
    Let p := prun ops (power_init hw faults).

    Lemma C29_accepted_l p' : set_ppl env fru frl fri two val cpus p = (Ok tt, p') ->
      (forall c, In c (targets env cpus) -> acceptable env (pw_ms p) two val c /\
         exists w q, ppl env (pw_ms p') two c w /\ unit_watts env (pw_ms p') q /\ (w <= val)%Q /\ (val < w + q)%Q) /\
      (forall d i, targeted env a_limit cpus d -> 0 <= i -> ~ in_field (limit_field two) i ->
         Z.testbit (view (pw_ms p') a_limit d) i = Z.testbit (view (pw_ms p) a_limit d) i) /\
      (forall a d, ~ (a = a_limit /\ targeted env a_limit cpus d) -> view (pw_ms p') a d = view (pw_ms p) a d).
    Proof.
      intros E. destruct (reachedp ops _ hw faults Hd) as (rep & H & Hr). cbn [pop_rep] in Hr. fold p in H, Hr.
      pose proof (set_ppl_post env rep sc Hwf Hsc Hfaith fru frl fri Hregs Hscopes two val cpus p H Hr) as P.
      unfold post in P. rewrite E in P. destruct P as (K & H' & l & El & A & St & F).
      pose proof (normalized_online env cpus l El) as Hl. split; [|split; [|exact F]].
      - intros c Hc. apply (normalized_targets env cpus l El) in Hc. specialize (A c Hc).
        split; [apply accepted_iff; [now apply Hl|exact A]|].
        destruct (uval_ex (pw_ms p) c (Hl c Hc)) as (u & U). destruct (St c u Hc U) as (Fit & S).
        assert (U' : uval (pw_ms p') u).
        { apply (uval_same env (pw_ms p)); [|exact U]. intros d. apply F. intros (X & _). discriminate. }
        pose proof (uval_pos env _ u U) as Hu.
        assert (N : 0 <= Qnum val).
        { destruct A as (u' & V & Ec). assert (u' = u) by (eapply uval_fun; eauto). subst u'.
          eapply check_nonneg; [exact Hu| |exact Ec]. apply field_val_pos, tdp_field_ok. }
        destruct (to_units_spec u val Hu N) as (_ & T1 & T2).
        exists (watts u (to_units u val)), (/ inject_Z (2 ^ u))%Q. split; [|split; [|split]].
        + apply (field_watts_iff (pw_ms p') a_limit _ c u); [apply limit_field_ok|exact U'|].
          unfold L_Power.fv. rewrite (field_val_new _ _ _ _ (limit_field_ok two) Fit S). reflexivity.
        + now apply uval_unit.
        + exact T1.
        + rewrite watts_eq in T2 |- * by exact Hu. rewrite inject_Z_plus in T2.
          assert (X : (inject_Z (to_units u val) * / inject_Z (2 ^ u) + / inject_Z (2 ^ u) ==
                      (inject_Z (to_units u val) + inject_Z 1) * / inject_Z (2 ^ u))%Q).
          { rewrite Qmult_plus_distr_l. rewrite Qmult_1_l. reflexivity. }
          rewrite X. exact T2.
      - intros d i (c & Hc & <-) Hi Hn. apply (normalized_targets env cpus l El) in Hc.
        destruct (uval_ex (pw_ms p) c (Hl c Hc)) as (u & U). destruct (St c u Hc U) as (_ & S). now apply S.
    Qed.

    Lemma write_bits_too_large rep s a b v c t : Coh env rep sc s -> field_ok b -> 2 ^ field_width b <= v ->
      normalize_cpus ci cpus false = Ok (c :: t) ->
      exists e s', write_bits env a b (Some v) cpus (sc a) false s = (Exn e, s') /\ cache_only s s'.
    Proof.
      intros H Hb Hv El. unfold write_bits. rewrite (lbind_ok _ _ s _ El). cbn [group_writes].
      assert (Hc : In c online) by (apply (normalized_online env cpus _ El); now left).
      pose proof (read_one_post env rep sc Hwf Hsc a c s Hc H) as P. unfold post in P.
      unfold mbind at 1 2. destruct (read_one env a (sc a) c s) as [[[c' r]|e] s1].
      - destruct P as (_ & C & _). unfold mbind, lift. rewrite (set_bits_too_large r b v Hb Hv). eauto.
      - destruct P as (C & _). eauto.
    Qed.

    Lemma C29_rejected_l : (exists c, In c (targets env cpus) /\ ~ acceptable env (pw_ms p) two val c) \/
        (targets env cpus <> [] /\ too_large env (pw_ms p) two val) ->
      exists e p', set_ppl env fru frl fri two val cpus p = (Exn e, p') /\
        ms_hw (pw_ms p') = ms_hw (pw_ms p) /\ ms_tbuf (pw_ms p') = ms_tbuf (pw_ms p) /\ ms_log (pw_ms p') = ms_log (pw_ms p).
    Proof.
      intros Hrej. destruct (reachedp ops _ hw faults Hd) as (rep & H & Hr). cbn [pop_rep] in Hr. fold p in H, Hr.
      assert (G : exists e p', set_ppl env fru frl fri two val cpus p = (Exn e, p') /\ cache_only (pw_ms p) (pw_ms p')).
      2:{ destruct G as (e & p' & E & C). exists e, p'. split; [exact E|]. split; [apply C|]. split; apply C. }
      destruct (Hlim sc fru frl fri Hregs Hscopes) as (Sl & Al).
      unfold set_ppl.
      pose proof (validate_ppl_post env rep sc Hwf Hsc fru frl fri Hregs Hscopes two val cpus p H) as P1.
      unfold post in P1. unfold mbind at 1.
      destruct (validate_ppl env fru frl fri two val cpus p) as [[[]|e] p1]; [|destruct P1 as (C & _); eauto].
      destruct P1 as (C1 & H1 & l & El & A).
      destruct Hrej as [(c & Hc & Hna)|(Hne & Hbig)].
      { exfalso. apply Hna. apply (normalized_targets env cpus l El) in Hc. apply accepted_iff; [|auto].
        exact (normalized_online env cpus l El c Hc). }
      unfold mbind at 1, lift at 1.
      destruct (validate_feature_supported env frl (n_ppl two) cpus) as [[]|e]; [|eauto].
      unfold mbind at 1, lift at 1. destruct (get_feature frl (n_ppl two)) as [fe|e] eqn:Ef; [|eauto].
      apply (get_ppl fru frl fri Hregs) in Ef as (Eb & Ew). rewrite Ew, Eb. cbn [negb].
      unfold mbind at 1. pose proof (power_units_post env rep sc Hwf Hsc fru frl fri Hregs Hscopes true p1 H1) as P2. unfold post in P2.
      destruct (power_units env fru true p1) as [[u|e] p2].
      2:{ destruct P2 as (C2 & _). exists e, p2. split; [reflexivity|]. eapply cache_only_trans; eauto. }
      destruct P2 as (C2 & H2 & U). apply (uval_co env _ _ _ C1) in U.
      destruct l as [|c0 lt].
      { exfalso. apply Hne. destruct (targets env cpus) as [|x tl] eqn:Et; [reflexivity|].
        assert (Hx : In x []); [|destruct Hx]. apply (normalized_targets env cpus [] El). rewrite Et. now left. }
      assert (Big : 2 ^ field_width (limit_field two) <= to_units u val).
      { destruct Hbig as (q & Uq & Hq). apply unit_uval in Uq as (u' & U' & Eq). assert (u' = u) by (eapply uval_fun; eauto). subst u'.
        pose proof (uval_pos env _ u U) as Hu. rewrite Eq, <- (watts_eq u) in Hq by exact Hu.
        apply to_units_ge; [exact Hu| |exact Hq].
        assert (X : (0 <= val)%Q); [|unfold Qle in X; cbn in X; lia].
        eapply Qle_trans; [|exact Hq]. unfold watts, Qle. cbn [Qnum Qden]. pose proof (Z.pow_pos_nonneg 2 (field_width (limit_field two)) ltac:(lia)).
        destruct two; cbn; lia. }
      rewrite Al in *. rewrite <- Sl. unfold on_ms.
      destruct (write_bits_too_large rep (pw_ms p2) a_limit (limit_field two) _ c0 lt (p_coh _ _ _ _ H2) (limit_field_ok two) Big El) as (e & s' & -> & C3).
      exists e, (PW s' (pw_lim p2) (pw_info p2)). split; [reflexivity|]. cbn [pw_ms].
      eapply cache_only_trans; [eapply cache_only_trans|]; eauto.
    Qed.

    Lemma C29_failed_l e p' : set_ppl env fru frl fri two val cpus p = (Exn e, p') ->
      (forall a d, ~ (a = a_limit /\ targeted env a_limit cpus d) -> view (pw_ms p') a d = view (pw_ms p) a d) /\
      ((forall d, view (pw_ms p') a_limit d = view (pw_ms p) a_limit d) \/
       ((forall c, In c (targets env cpus) -> acceptable env (pw_ms p) two val c) /\
        forall d, view (pw_ms p') a_limit d = view (pw_ms p) a_limit d \/
          exists n q, unit_watts env (pw_ms p) q /\ (inject_Z n * q <= val)%Q /\ (val < inject_Z (n + 1) * q)%Q /\
            is_set (limit_field two) n (view (pw_ms p) a_limit d) (view (pw_ms p') a_limit d))).
    Proof.
      intros E. destruct (reachedp ops _ hw faults Hd) as (rep & H & Hr). cbn [pop_rep] in Hr. fold p in H, Hr.
      pose proof (set_ppl_post env rep sc Hwf Hsc Hfaith fru frl fri Hregs Hscopes two val cpus p H Hr) as P.
      unfold post in P. rewrite E in P. destruct P as (K & H' & F & X). split; [exact F|].
      destruct X as [C|(u & U & A & (N & Nq & Hon) & X)]; [left; intros d; apply (cache_only_view env _ _ _ _ C)|].
      right. split; [intros c Hc; apply accepted_iff; auto|]. intros d. destruct (X d) as [Y|Y]; [now left|right].
      apply (set_bits_is_set_some _ _ _ _ (limit_field_ok two) N) in Y as (_ & S).
      pose proof (uval_pos env _ u U) as Hu. destruct (to_units_spec u val Hu Nq) as (_ & T1 & T2).
      exists (to_units u val), (/ inject_Z (2 ^ u))%Q. split; [now apply uval_unit|].
      rewrite watts_eq in T1, T2 by exact Hu. auto.
    Qed.

    (** ** What is there can be set *)

    Definition live {A} (m : M pwstate A) (q : pwstate) : Prop := post m q (fun _ q' => io_works (pw_ms q')) (fun _ _ => False).

    Lemma supported_all fr f cs : (exists fe, get_feature fr f = Ok fe) -> supported_online env fr f ->
      (forall c, In c (targets env cs) -> In c online) -> validate_feature_supported env fr f cs = Ok tt.
    Proof.
      intros (fe & Ef) (d & Es & Hs) Hc. unfold validate_feature_supported. rewrite Ef. cbn [rbind].
      destruct (normalize_targets_ex env cs Hc) as (l & El). rewrite El. cbn [rbind].
      pose proof (normalized_online env cs l El) as Hl. rewrite Es. clear El.
      assert (G : rmap l (fun c => match dget Z.eqb d c with Some b => Ok b | None => Exn EKey end) = Ok (map (fun _ => true) l)).
      { induction l as [|c l IH]; [reflexivity|]. cbn [rmap map]. rewrite (Hs c) by (apply Hl; now left). cbn [rbind].
        rewrite IH; [reflexivity|]. intros x Hx. apply Hl. now right. }
      rewrite G. cbn [rbind]. assert (forallb (fun b : bool => b) (map (fun _ : Z => true) l) = true) as ->; [|reflexivity].
      apply forallb_forall. intros b Hb. apply in_map_iff in Hb as (_ & <- & _). reflexivity.
    Qed.

    Hypothesis Hsup : power_supported env fru frl fri.

    Lemma Hsu cs : (forall c, In c (targets env cs) -> In c online) -> validate_feature_supported env fru n_units cs = Ok tt.
    Proof.
      apply supported_all; [|apply Hsup]. unfold get_feature. destruct Hregs as (_ & _ & _ & _ & _ & ios & ->). eexists. reflexivity.
    Qed.
    Lemma Hst cs : (forall c, In c (targets env cs) -> In c online) -> validate_feature_supported env fri n_tdp cs = Ok tt.
    Proof.
      apply supported_all; [|apply Hsup]. unfold get_feature. destruct Hregs as (_ & _ & _ & -> & _). eexists. reflexivity.
    Qed.
    Lemma Hsl t cs : (forall c, In c (targets env cs) -> In c online) -> validate_feature_supported env frl (n_ppl t) cs = Ok tt.
    Proof.
      apply supported_all; [|apply Hsup]. unfold get_feature. destruct Hregs as (_ & -> & _). destruct t; eexists; reflexivity.
    Qed.

    Lemma read_units_live c s : In c online -> io_works s -> post (read_units env fru c) s (fun _ s' => io_works s') (fun _ _ => False).
    Proof.
      intros Hc W. destruct Hregs as (_ & _ & _ & _ & Ha & ios & Hf). unfold read_units.
      assert (Hc1 : forall x, In x (targets env (Some [c])) -> In x online) by (intros x [<-|[]]; exact Hc).
      rewrite (Hsu (Some [c]) Hc1). apply post_bind, post_lift; [|discriminate]. intros _ _.
      unfold get_feature. rewrite Hf. apply post_bind, post_lift; [|cbn; discriminate]. intros fe Ef.
      assert (Eb : fe_bits fe = (3, 0)) by (injection Ef as <-; reflexivity).
      rewrite Eb, Ha. apply post_bind.
      assert (E1 : normalize_cpus ci (Some [c]) false = Ok [c]).
      { unfold normalize_cpus. apply normalize_in_succeeds. exact Hc1. }
      assert (L : post (read env a_unit (Some [c]) (sc a_unit)) s (fun r s' => io_works s' /\ length r = 1%nat) (fun _ _ => False)).
      { unfold read. apply post_bind, post_lift; [|intros e Ee; congruence]. intros l El. rewrite E1 in El. injection El as <-.
        unfold read_cpus, mmap. apply post_bind.
        eapply post_conseq; [apply (read_one_live env sc Hwf Hsc a_unit c s Hc W)| |auto].
        intros y s1 W1. apply post_bind, post_ret, post_ret. auto. }
      destruct Hscopes as (_ & _ & Es). rewrite Es in L. unfold post in *. rewrite (read_bits_eq env a_unit (3, 0) (Some [c]) SCPU s unit_field_ok).
      destruct (read env a_unit (Some [c]) SCPU s) as [[r|e] s1]; [|exact L].
      destruct L as (W1 & Len). destruct r as [|x r]; [discriminate|]. cbn. exact W1.
    Qed.

    Lemma power_units_live lim q c : In c online -> io_works (pw_ms q) -> live (power_units env fru lim) q.
    Proof.
      intros Hc W. unfold live, power_units. apply post_bind, post_gets.
      destruct ((if lim then pw_lim else pw_info) q); [apply post_ret; exact W|].
      destruct (get_cpus (me_ci env)) as [|c' t] eqn:Ec.
      { rewrite <- zsort_In in Hc. unfold get_cpus in Ec. rewrite Ec in Hc. destruct Hc. }
      apply post_bind, post_on_ms. eapply post_conseq; [apply (read_units_live c' _ (first_online env c' t Ec) W)| |auto].
      intros u s' W'. apply post_bind, post_modify, post_ret. destruct lim; exact W'.
    Qed.

    Lemma scaled_one_live lim a b c q : sc a = SPackage -> field_ok b -> In c online -> io_works (pw_ms q) ->
      live (scaled_one env fru lim a b SPackage c) q.
    Proof.
      intros Ea Hb Hc W. unfold live, scaled_one. apply post_bind, post_on_ms.
      pose proof (read_one_live env sc Hwf Hsc a c _ Hc W) as P. rewrite Ea in P.
      eapply post_conseq; [exact P| |auto]. intros [c' r] s1 W1.
      rewrite (proj1 (field_val_spec b _ Hb)). apply post_bind, post_lift; [|discriminate]. intros n [= <-].
      apply post_bind. eapply post_conseq; [apply (power_units_live lim _ c Hc)| |auto]; [exact W1|].
      intros u p' W'. apply post_ret. exact W'.
    Qed.

    Lemma validate_live rep q : PI env rep sc q -> io_works (pw_ms q) ->
      (forall c, In c (targets env cpus) -> In c online) ->
      (forall c, In c (targets env cpus) -> accepted (pw_ms q) two val c) ->
      live (validate_ppl env fru frl fri two val cpus) q.
    Proof.
      intros H W Hon Hac. unfold live, validate_ppl. destruct (normalize_targets_ex env cpus Hon) as (l & El).
      rewrite (Hst cpus Hon). apply post_bind, post_lift; [|discriminate]. intros _ _.
      assert (Gt : exists ft, get_feature fri n_tdp = Ok ft).
      { unfold get_feature. destruct Hregs as (_ & _ & _ & -> & _). eexists. reflexivity. }
      destruct Gt as (ft & Gt). rewrite Gt. apply post_bind, post_lift; [|discriminate]. intros ? [= <-].
      rewrite (Hsl _ cpus Hon). apply post_bind, post_lift; [|discriminate]. intros _ _.
      assert (Go : exists fo, get_feature frl (n_ppl (negb two)) = Ok fo).
      { unfold get_feature. destruct Hregs as (_ & -> & _). destruct two; eexists; reflexivity. }
      destruct Go as (fo & Go). rewrite Go. apply post_bind, post_lift; [|discriminate]. intros ? [= <-].
      apply (get_tdp fru frl fri Hregs) in Gt. apply (get_ppl fru frl fri Hregs) in Go as (Go & _). rewrite Gt, Go.
      rewrite El. apply post_bind, post_lift; [|discriminate]. intros ? [= <-].
      pose proof (normalized_online env cpus l El) as Hl.
      destruct (Hlim sc fru frl fri Hregs Hscopes) as (Sl & Al), (Hinfo sc fru frl fri Hregs Hscopes) as (Si & Ai). rewrite Al, Ai in *.
      eapply post_conseq.
      { apply (post_mfor _ (fun _ p' => cache_only (pw_ms q) (pw_ms p') /\ PI env rep sc p' /\ io_works (pw_ms p')) (fun _ _ => False)).
        - intros pre c r Eq p1 (C1 & H1 & W1).
          assert (Hcl : In c l) by (rewrite Eq; apply in_app_iff; right; now left).
          assert (Hc : In c online) by (apply Hl, Hcl).
          apply post_bind. eapply post_conseq; [apply (post_live _ _ _ _ _
            (scaled_one_post env rep sc Hwf Hsc fru frl fri Hregs Hscopes false a_info (14, 0) c p1 Si tdp_field_ok Hc H1)
            (scaled_one_live false a_info (14, 0) c p1 Si tdp_field_ok Hc W1))| |auto].
          intros y p2 ((C2 & H2 & u & U & ->) & W2). cbn beta iota.
          apply post_bind. eapply post_conseq; [apply (post_live _ _ _ _ _
            (scaled_one_post env rep sc Hwf Hsc fru frl fri Hregs Hscopes true a_limit (limit_field (negb two)) c p2 Sl (limit_field_ok _) Hc H2)
            (scaled_one_live true a_limit (limit_field (negb two)) c p2 Sl (limit_field_ok _) Hc W2))| |auto].
          intros y p3 ((C3 & H3 & u' & U' & ->) & W3). cbn beta iota.
          apply (uval_co env _ _ _ C2) in U'. assert (u' = u) by (eapply uval_fun; eauto). subst u'.
          apply (uval_co env _ _ _ C1) in U.
          destruct (Hac c (proj1 (normalized_targets env cpus l El c) Hcl)) as (u'' & U'' & Ec).
          assert (u'' = u) by (eapply uval_fun; eauto). subst u''.
          rewrite (cache_only_view env _ _ _ _ C2), !(cache_only_view env _ _ _ _ C1). unfold L_Power.fv in Ec. rewrite Ec.
          apply post_lift; [|discriminate]. intros _ _. split; [eapply cache_only_trans; [eapply cache_only_trans|]; eauto|auto].
        - split; [apply cache_only_refl|auto]. }
      - intros [] p' (_ & _ & W'). exact W'.
      - auto.
    Qed.

    Lemma C29_available_l : io_works (pw_ms p) -> (forall d, 0 <= view (pw_ms p) a_limit d < 2 ^ 64) ->
      targets env cpus <> [] ->
      (forall c, In c (targets env cpus) -> In c online /\ acceptable env (pw_ms p) two val c) ->
      ~ too_large env (pw_ms p) two val ->
      exists p', set_ppl env fru frl fri two val cpus p = (Ok tt, p').
    Proof.
      intros W Hreg Hne Hac Hsm. destruct (reachedp ops _ hw faults Hd) as (rep & H & Hr). cbn [pop_rep] in Hr. fold p in H, Hr.
      assert (Hon : forall c, In c (targets env cpus) -> In c online) by (intros c Hc; now apply Hac).
      assert (G : live (set_ppl env fru frl fri two val cpus) p).
      2:{ unfold live, post in G. destruct (set_ppl env fru frl fri two val cpus p) as [[[]|e] p']; [eauto|contradiction]. }
      assert (Hac' : forall c, In c (targets env cpus) -> accepted (pw_ms p) two val c).
      { intros c Hc. apply accepted_iff; [auto|]. now apply Hac. }
      assert (Hx : exists c, In c (targets env cpus)) by (destruct (targets env cpus) as [|x tl]; [contradiction|exists x; now left]).
      destruct Hx as (x & Hx).
      unfold live, set_ppl. apply post_bind.
      eapply post_conseq; [apply (post_live _ _ _ _ _ (validate_ppl_post env rep sc Hwf Hsc fru frl fri Hregs Hscopes two val cpus p H)
        (validate_live rep p H W Hon Hac'))| |auto].
      intros _ p1 ((C1 & H1 & l & El & A) & W1).
      rewrite (Hsl two cpus Hon). apply post_bind, post_lift; [|discriminate]. intros _ _.
      assert (Go : exists fo, get_feature frl (n_ppl two) = Ok fo).
      { unfold get_feature. destruct Hregs as (_ & -> & _). destruct two; eexists; reflexivity. }
      destruct Go as (fo & Go). rewrite Go. apply post_bind, post_lift; [|discriminate]. intros ? [= <-].
      apply (get_ppl fru frl fri Hregs) in Go as (Eb & Ew). rewrite Ew, Eb. cbn [negb].
      apply post_bind.
      eapply post_conseq; [apply (post_live _ _ _ _ _ (power_units_post env rep sc Hwf Hsc fru frl fri Hregs Hscopes true p1 H1)
        (power_units_live true p1 x (Hon x Hx) W1))| |auto].
      intros u p2 ((C2 & H2 & U) & W2). apply (uval_co env _ _ _ C1) in U.
      assert (C02 : cache_only (pw_ms p) (pw_ms p2)) by (eapply cache_only_trans; eauto).
      apply post_on_ms. destruct (Hlim sc fru frl fri Hregs Hscopes) as (Sl & Al). rewrite Al in *. rewrite <- Sl.
      pose proof (uval_pos env _ u U) as Hu.
      assert (Nq : 0 <= Qnum val).
      { destruct (Hac' x Hx) as (u' & U' & Ec). assert (u' = u) by (eapply uval_fun; eauto). subst u'.
        eapply check_nonneg; [exact Hu| |exact Ec]. apply field_val_pos, tdp_field_ok. }
      apply (write_bits_live env rep sc Hwf Hsc Hfaith a_limit (limit_field two) (Some (to_units u val)) cpus false (pw_ms p2) (p_coh _ _ _ _ H2)).
      - rewrite (co_intr _ _ C02). exact Hr.
      - apply limit_field_ok.
      - cbn [value_of]. destruct (to_units_spec u val Hu Nq) as (T0 & T1 & _). split; [exact T0|].
        destruct (Z.lt_ge_cases (to_units u val) (2 ^ field_width (limit_field two))) as [L|L]; [exact L|exfalso].
        apply Hsm. exists (/ inject_Z (2 ^ u))%Q. split; [now apply uval_unit|].
        rewrite <- watts_eq by exact Hu. eapply Qle_trans; [|exact T1]. now apply watts_le.
      - exact W2.
      - intros d. rewrite (cache_only_view env _ _ _ _ C02). apply Hreg.
      - eauto.
    Qed.
  End Set_.

  (** ** Reading *)

  Lemma C29_reported_l ops hw faults (lim : bool) two cpus r p' : pdisciplined env sc (ops ++ [if lim then PGet two cpus else PTdp cpus]) ->
    let p := prun ops (power_init hw faults) in
    get_watts env fru frl fri lim (gname lim two) cpus p = (Ok r, p') ->
    (forall c, In c (map fst r) <-> In c (targets env cpus)) /\
    (forall c w, In (c, w) r -> field_watts env (pw_ms p) (gaddr lim) (gbits lim two) c w) /\
    ms_hw (pw_ms p') = ms_hw (pw_ms p) /\ ms_tbuf (pw_ms p') = ms_tbuf (pw_ms p) /\ ms_log (pw_ms p') = ms_log (pw_ms p).
  Proof.
    intros Hd p E. destruct (reachedp ops _ hw faults Hd) as (rep & H & _). fold p in H.
    pose proof (get_watts_post env rep sc Hwf Hsc fru frl fri Hregs Hscopes lim two cpus p H) as P.
    unfold post in P. rewrite E in P. destruct P as (C & _ & l & El & F).
    split; [|split; [|split; [apply C|split; apply C]]].
    - intros c. rewrite <- (normalized_targets env cpus l El).
      assert (Em : map fst r = l); [|now rewrite Em].
      clear - F. induction F as [|c0 cw l r (u & _ & ->) F IH]; [reflexivity|]. cbn. now rewrite IH.
    - intros c w Hin. clear El E. induction F as [|c0 cw l r (u & U & ->) F IH]; [destruct Hin|].
      destruct Hin as [[= <- <-]|Hin]; [|auto].
      apply (field_watts_iff _ _ _ _ u); [|exact U|reflexivity]. destruct lim; [apply limit_field_ok|apply tdp_field_ok].
  Qed.
End Hist.
