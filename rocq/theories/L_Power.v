(** Lemmas for C29. *)
From Coq Require Import Ascii String QArith ZifyBool.
From Verif Require Import Base L_Base L_Monad M_CPUInfo S_CPUInfo L_CPUInfo M_Text M_MSR S_MSR L_Bits
  L_MSR L_MSR2 L_MSR3 L_MSR4 M_Osa S_Osa L_Osa M_FMSR S_FMSR L_Text L_FMSR L_FMSR2 L_FMSR3 M_Power S_Power.

(** ** Numbers *)

Lemma pow2_pos u : 0 <= u -> exists p, 2 ^ u = Zpos p.
Proof. intros H. pose proof (Z.pow_pos_nonneg 2 u ltac:(lia) H). destruct (2 ^ u); try lia. eauto. Qed.

Lemma watts_eq u n : 0 <= u -> (watts u n == inject_Z n * / inject_Z (2 ^ u))%Q.
Proof.
  intros H. destruct (pow2_pos u H) as (p & E). unfold watts. rewrite E. unfold Qeq, Qmult, Qinv, inject_Z. cbn. lia.
Qed.

Lemma Qgtb_false x y : Qgtb x y = false <-> (x <= y)%Q.
Proof. unfold Qgtb. rewrite negb_false_iff. apply Qle_bool_iff. Qed.
Lemma Qgtb_true x y : Qgtb x y = true <-> (y < x)%Q.
Proof.
  unfold Qgtb. rewrite negb_true_iff. split.
  - intros H. apply Qnot_le_lt. intros C. apply Qle_bool_iff in C. congruence.
  - intros H. destruct (Qle_bool x y) eqn:E; [|reflexivity]. apply Qle_bool_iff in E. apply Qlt_not_le in H. contradiction.
Qed.

Lemma watts_le u n m : 0 <= u -> (watts u n <= watts u m)%Q <-> n <= m.
Proof.
  intros H. destruct (pow2_pos u H) as (p & E). unfold watts. rewrite E. unfold Qle. cbn. nia.
Qed.

Lemma watts_le_val u n v : 0 <= u -> (watts u n <= v)%Q <-> n * Zpos (Qden v) <= Qnum v * 2 ^ u.
Proof.
  intros H. destruct (pow2_pos u H) as (p & E). unfold watts. rewrite E. unfold Qle. cbn. tauto.
Qed.
Lemma val_le_watts u n v : 0 <= u -> (v <= watts u n)%Q <-> Qnum v * 2 ^ u <= n * Zpos (Qden v).
Proof.
  intros H. destruct (pow2_pos u H) as (p & E). unfold watts. rewrite E. unfold Qle. cbn. tauto.
Qed.
Lemma val_lt_watts u n v : 0 <= u -> (v < watts u n)%Q <-> Qnum v * 2 ^ u < n * Zpos (Qden v).
Proof.
  intros H. destruct (pow2_pos u H) as (p & E). unfold watts. rewrite E. unfold Qlt. cbn. tauto.
Qed.

(** The rounding of int(). *)
Lemma to_units_spec u v : 0 <= u -> 0 <= Qnum v ->
  0 <= to_units u v /\ (watts u (to_units u v) <= v)%Q /\ (v < watts u (to_units u v + 1))%Q.
Proof.
  intros Hu Hv. rewrite watts_le_val, val_lt_watts by exact Hu. unfold to_units.
  pose proof (Z.pow_pos_nonneg 2 u ltac:(lia) Hu) as Hp.
  assert (Hn : 0 <= Qnum v * 2 ^ u) by nia.
  rewrite Z.quot_div_nonneg by lia.
  pose proof (Z.div_mod (Qnum v * 2 ^ u) (Zpos (Qden v)) ltac:(lia)).
  pose proof (Z.mod_pos_bound (Qnum v * 2 ^ u) (Zpos (Qden v)) ltac:(lia)).
  pose proof (Z.div_pos (Qnum v * 2 ^ u) (Zpos (Qden v)) Hn ltac:(lia)). nia.
Qed.

Lemma to_units_le u v n : 0 <= u -> 0 <= Qnum v -> (v <= watts u n)%Q -> to_units u v <= n.
Proof.
  intros Hu Hv H. destruct (to_units_spec u v Hu Hv) as (_ & A & _).
  apply (watts_le u); [exact Hu|]. eapply Qle_trans; eauto.
Qed.
Lemma to_units_ge u v n : 0 <= u -> 0 <= Qnum v -> (watts u n <= v)%Q -> n <= to_units u v.
Proof.
  intros Hu Hv H. destruct (to_units_spec u v Hu Hv) as (_ & _ & A).
  assert (X : (watts u n < watts u (to_units u v + 1))%Q) by (eapply Qle_lt_trans; eauto).
  unfold watts, Qlt in X. cbn in X. nia.
Qed.

Lemma check_spec two val t o : check_ppl two val t o = Ok tt <->
  (if two then o <= val else val <= o)%Q /\ (t * (1 # 8) <= val)%Q /\ (val <= t * (if two then 5 else 2))%Q.
Proof.
  unfold check_ppl.
  assert (E8 : (t / 8 == t * (1 # 8))%Q) by (unfold Qdiv; apply Qmult_comp; reflexivity).
  destruct (if two then Qgtb o val else Qgtb val o) eqn:E1.
  - split; [discriminate|]. intros (A & _). exfalso. destruct two; apply Qgtb_true in E1; apply Qlt_not_le in E1; contradiction.
  - assert (E1' : (if two then o <= val else val <= o)%Q) by (destruct two; now apply Qgtb_false).
    destruct (Qgtb val (t * (if two then 5 else 2)) || Qgtb (t / 8) val) eqn:E2.
    + split; [discriminate|]. intros (_ & B & C). exfalso. apply orb_true_iff in E2 as [E2|E2]; apply Qgtb_true in E2; apply Qlt_not_le in E2.
      * contradiction.
      * apply E2. rewrite E8. exact B.
    + split; [|reflexivity]. intros _. apply orb_false_iff in E2 as (E2 & E3). apply Qgtb_false in E2, E3.
      rewrite E8 in E3. auto.
Qed.

Lemma check_nonneg two val u n o : 0 <= u -> 0 <= n -> check_ppl two val (watts u n) o = Ok tt -> 0 <= Qnum val.
Proof.
  intros Hu Hn H. apply check_spec in H as (_ & H & _).
  assert (X : (0 <= val)%Q).
  { eapply Qle_trans; [|exact H]. unfold watts, Qle, Qmult. cbn. lia. }
  unfold Qle in X. cbn in X. lia.
Qed.

(** ** Running calls on the shared MSR object *)

Lemma post_on_ms {A} (m : M mstate A) p (Q : A -> pwstate -> Prop) (E : exc -> pwstate -> Prop) :
  post m (pw_ms p) (fun a s => Q a (PW s (pw_lim p) (pw_info p))) (fun e s => E e (PW s (pw_lim p) (pw_info p))) ->
  post (on_ms m) p Q E.
Proof. unfold post, on_ms. destruct (m (pw_ms p)) as [[a|e] s]; auto. Qed.

Section Post.
  Variable env : menv.
  Notation dom := (me_dom env).
  Notation ci := (me_ci env).
  Notation online := (ci_online (me_ci env)).
  Variable rep : Z -> Z -> Z.
  Variable sc : Z -> scope.
  Notation Coh := (Coh env rep sc).
  Notation view := (view env).
  Notation keeps := (keeps env rep sc).
  Hypothesis Hwf : wf_ci ci.
  Hypothesis Hsc : forall a, scope_right env a (sc a).
  Hypothesis Hfaith : faithful env.
  Variables fru frl fri : freg.
  Hypothesis Hregs : power_regs fru frl fri.
  Hypothesis Hscopes : power_scopes sc.

  Definition uval (s : mstate) (u : Z) : Prop :=
    exists c t, get_cpus ci = c :: t /\ u = field_val (3, 0) (view s a_unit (dom a_unit c)).

  Record PI (p : pwstate) : Prop := {
    p_coh : Coh (pw_ms p);
    p_lim : forall u, pw_lim p = Some u -> uval (pw_ms p) u;
    p_info : forall u, pw_info p = Some u -> uval (pw_ms p) u }.

  Lemma uval_same s s' u : (forall d, view s' a_unit d = view s a_unit d) -> uval s u <-> uval s' u.
  Proof. intros H. unfold uval. split; intros (c & t & E & ->); exists c, t; (split; [exact E|]); now rewrite H. Qed.

  Lemma uval_co s s' u : cache_only s s' -> uval s u <-> uval s' u.
  Proof. intros C. apply uval_same. intros d. apply (cache_only_view env _ _ _ _ C). Qed.

  Lemma uval_fun s u v : uval s u -> uval s v -> u = v.
  Proof. intros (c & t & E & ->) (c' & t' & E' & ->). congruence. Qed.

  Lemma unit_field_ok : field_ok (3, 0).
  Proof. cbv. repeat split; discriminate. Qed.
  Lemma limit_field_ok two : field_ok (limit_field two).
  Proof. destruct two; cbv; repeat split; discriminate. Qed.
  Lemma tdp_field_ok : field_ok (14, 0).
  Proof. cbv. repeat split; discriminate. Qed.

  Lemma field_val_pos b r : field_ok b -> 0 <= field_val b r.
  Proof. intros H. destruct (field_val_spec b r H) as (_ & (F & _)). unfold fits in F. lia. Qed.

  Lemma uval_pos s u : uval s u -> 0 <= u.
  Proof. intros (c & t & _ & ->). apply field_val_pos, unit_field_ok. Qed.

  Lemma PI_keep p s' l i : PI p -> Coh s' -> (forall d, view s' a_unit d = view (pw_ms p) a_unit d) ->
    (forall u, l = Some u -> uval (pw_ms p) u) -> (forall u, i = Some u -> uval (pw_ms p) u) -> PI (PW s' l i).
  Proof.
    intros H Hc Hv Hl Hi. split; cbn [pw_ms pw_lim pw_info]; [exact Hc| |]; intros u E; apply (uval_same _ _ _ Hv); auto.
  Qed.

  Lemma PI_ms p s' : PI p -> Coh s' -> (forall d, view s' a_unit d = view (pw_ms p) a_unit d) -> PI (PW s' (pw_lim p) (pw_info p)).
  Proof. intros H Hc Hv. apply (PI_keep p); auto; apply H. Qed.

  Lemma PI_co p s' : PI p -> Coh s' -> cache_only (pw_ms p) s' -> PI (PW s' (pw_lim p) (pw_info p)).
  Proof. intros H Hc C. apply PI_ms; auto. intros d. apply (cache_only_view env _ _ _ _ C). Qed.

  Lemma first_online c t : get_cpus ci = c :: t -> In c online.
  Proof. intros E. rewrite <- zsort_In. unfold get_cpus in E. rewrite E. now left. Qed.

  Lemma read_units_post c s : In c online -> Coh s ->
    post (read_units env fru c) s
      (fun u s' => cache_only s s' /\ Coh s' /\ u = field_val (3, 0) (view s a_unit (dom a_unit c)))
      (fun _ s' => cache_only s s' /\ Coh s').
  Proof.
    intros Hc H. destruct Hregs as (_ & _ & _ & _ & Ha & ios & Hf). unfold read_units.
    apply post_bind, post_lift; [|intros; split; [apply cache_only_refl|exact H]]. intros _ _.
    apply post_bind, post_lift; [|intros; split; [apply cache_only_refl|exact H]]. intros fe Ef.
    assert (Eb : fe_bits fe = (3, 0)).
    { unfold get_feature in Ef. rewrite Hf in Ef. injection Ef as <-. reflexivity. }
    rewrite Eb, Ha. apply post_bind.
    pose proof (read_post env rep sc Hwf Hsc a_unit (Some [c]) s H) as P. unfold post in *.
    destruct Hscopes as (_ & _ & Es). rewrite Es in P.
    rewrite (read_bits_eq env a_unit (3, 0) (Some [c]) SCPU s unit_field_ok).
    destruct (read env a_unit (Some [c]) SCPU s) as [[r|e] s1]; [|exact P].
    destruct P as ((l & El & ->) & C & H1).
    assert (E1 : normalize_cpus ci (Some [c]) false = Ok [c]).
    { unfold normalize_cpus. apply normalize_in_succeeds. intros x [<-|[]]. exact Hc. }
    rewrite E1 in El. injection El as <-. cbn. auto.
  Qed.

  Lemma power_units_post lim p : PI p ->
    post (power_units env fru lim) p
      (fun u p' => cache_only (pw_ms p) (pw_ms p') /\ PI p' /\ uval (pw_ms p) u)
      (fun _ p' => cache_only (pw_ms p) (pw_ms p') /\ PI p').
  Proof.
    intros H. unfold power_units. apply post_bind, post_gets.
    destruct ((if lim then pw_lim else pw_info) p) as [u|] eqn:Em.
    - apply post_ret. split; [apply cache_only_refl|]. split; [exact H|]. destruct lim; [now apply (p_lim p H)|now apply (p_info p H)].
    - destruct (get_cpus (me_ci env)) as [|c t] eqn:Ec; [apply post_throw; split; [apply cache_only_refl|exact H]|].
      apply post_bind, post_on_ms.
      eapply post_conseq; [apply (read_units_post c _ (first_online c t Ec) (p_coh p H))| |].
      + intros u s' (C & H' & ->). apply post_bind, post_modify, post_ret.
        assert (U : uval (pw_ms p) (field_val (3, 0) (view (pw_ms p) a_unit (dom a_unit c)))) by (exists c, t; auto).
        destruct lim; cbn [pw_ms pw_lim pw_info]; (split; [exact C|]); (split; [|exact U]).
        * apply (PI_keep p); auto; [intros d; apply (cache_only_view env _ _ _ _ C)| |apply H]. intros u [= <-]. exact U.
        * apply (PI_keep p); auto; [intros d; apply (cache_only_view env _ _ _ _ C)|apply H|]. intros u [= <-]. exact U.
      + intros e s' (C & H'). cbn [pw_ms]. split; [exact C|]. now apply PI_co.
  Qed.

  Lemma scaled_one_post lim a b c p : sc a = SPackage -> field_ok b -> In c online -> PI p ->
    post (scaled_one env fru lim a b SPackage c) p
      (fun cw p' => cache_only (pw_ms p) (pw_ms p') /\ PI p' /\
         exists u, uval (pw_ms p) u /\ cw = (c, watts u (field_val b (view (pw_ms p) a (dom a c)))))
      (fun _ p' => cache_only (pw_ms p) (pw_ms p') /\ PI p').
  Proof.
    intros Ea Hb Hc H. unfold scaled_one. apply post_bind, post_on_ms.
    pose proof (read_one_post env rep sc Hwf Hsc a c _ Hc (p_coh p H)) as P. rewrite Ea in P.
    eapply post_conseq; [exact P| |].
    2:{ intros e s' (C & H'). cbn [pw_ms]. split; [exact C|]. now apply PI_co. }
    intros cv s1 (-> & C & H1). pose proof (PI_co p s1 H H1 C) as H2.
    rewrite (proj1 (field_val_spec b _ Hb)). apply post_bind, post_lift; [|discriminate]. intros n [= <-].
    apply post_bind. eapply post_conseq; [apply (power_units_post lim _ H2)| |].
    - intros u p' (C' & H' & U). apply post_ret. cbn [pw_ms] in *. split; [eapply cache_only_trans; eauto|].
      split; [exact H'|]. exists u. split; [now apply (uval_co _ _ _ C)|reflexivity].
    - intros e p' (C' & H'). cbn [pw_ms] in *. split; [eapply cache_only_trans; eauto|exact H'].
  Qed.

  Lemma Hlim : sc (fr_addr frl) = SPackage /\ fr_addr frl = a_limit.
  Proof. destruct Hregs as (E & _). rewrite E. split; [apply Hscopes|reflexivity]. Qed.
  Lemma Hinfo : sc (fr_addr fri) = SPackage /\ fr_addr fri = a_info.
  Proof. destruct Hregs as (_ & _ & E & _). rewrite E. split; [apply Hscopes|reflexivity]. Qed.

  Lemma get_ppl two fe : get_feature frl (n_ppl two) = Ok fe -> fe_bits fe = limit_field two /\ fe_writable fe = true.
  Proof.
    unfold get_feature. destruct Hregs as (_ & -> & _). destruct two; intros [= <-]; auto.
  Qed.
  Lemma get_tdp fe : get_feature fri n_tdp = Ok fe -> fe_bits fe = (14, 0).
  Proof. unfold get_feature. destruct Hregs as (_ & _ & _ & -> & _). intros [= <-]. reflexivity. Qed.

  Definition gname (lim : bool) (two : bool) : str := if lim then n_ppl two else n_tdp.
  Definition gaddr (lim : bool) : Z := if lim then a_limit else a_info.
  Definition gbits (lim : bool) (two : bool) : bits_t := if lim then limit_field two else (14, 0).

  Lemma get_watts_post lim two cpus p : PI p ->
    post (get_watts env fru frl fri lim (gname lim two) cpus) p
      (fun r p' => cache_only (pw_ms p) (pw_ms p') /\ PI p' /\ exists l, normalize_cpus ci cpus false = Ok l /\
         Forall2 (fun c cw => exists u, uval (pw_ms p) u /\
            cw = (c, watts u (field_val (gbits lim two) (view (pw_ms p) (gaddr lim) (dom (gaddr lim) c))))) l r)
      (fun _ p' => cache_only (pw_ms p) (pw_ms p') /\ PI p').
  Proof.
    intros H. unfold get_watts.
    assert (R : cache_only (pw_ms p) (pw_ms p) /\ PI p) by (split; [apply cache_only_refl|exact H]).
    apply post_bind, post_lift; [|intros; exact R]. intros _ _.
    apply post_bind, post_lift; [|intros; exact R]. intros fe Ef.
    apply post_bind, post_lift; [|intros; exact R]. intros l El.
    pose proof (normalized_online env cpus l El) as Hl.
    assert (Eb : fe_bits fe = gbits lim two).
    { destruct lim; cbn [limit_or_info gname gbits] in *; [now apply get_ppl|now apply get_tdp]. }
    assert (Ea : sc (fr_addr (limit_or_info frl fri lim)) = SPackage /\ fr_addr (limit_or_info frl fri lim) = gaddr lim).
    { destruct lim; [exact Hlim|exact Hinfo]. }
    destruct Ea as (Ea & Ead). rewrite Ead in *. rewrite Eb.
    assert (Fb : field_ok (gbits lim two)) by (destruct lim; [apply limit_field_ok|apply tdp_field_ok]).
    eapply post_conseq.
    { apply (post_mmap _ (fun q r p' => cache_only (pw_ms p) (pw_ms p') /\ PI p' /\
        Forall2 (fun c cw => exists u, uval (pw_ms p) u /\
            cw = (c, watts u (field_val (gbits lim two) (view (pw_ms p) (gaddr lim) (dom (gaddr lim) c))))) q r)
        (fun _ p' => cache_only (pw_ms p) (pw_ms p') /\ PI p')).
      - intros q c r Eq ys p1 (C1 & H1 & F).
        assert (Hc : In c online) by (apply Hl; rewrite Eq; apply in_app_iff; right; now left).
        eapply post_conseq; [apply (scaled_one_post lim (gaddr lim) (gbits lim two) c p1 Ea Fb Hc H1)| |].
        + intros y p2 (C2 & H2 & u & U & ->). split; [eapply cache_only_trans; eauto|]. split; [exact H2|].
          apply Forall2_app; [exact F|]. constructor; [|constructor]. exists u. split; [now apply (uval_co _ _ _ C1)|].
          now rewrite (cache_only_view env _ _ _ _ C1).
        + intros e p2 (C2 & H2). split; [eapply cache_only_trans; eauto|exact H2].
      - split; [apply cache_only_refl|]. split; [exact H|constructor]. }
    - intros r p' (C & H' & F). eauto.
    - auto.
  Qed.

  Definition fv (b : bits_t) (s : mstate) (a c : Z) : Z := field_val b (view s a (dom a c)).

  Definition accepted (s : mstate) (two : bool) (val : Q) (c : Z) : Prop :=
    exists u, uval s u /\ check_ppl two val (watts u (fv (14, 0) s a_info c)) (watts u (fv (limit_field (negb two)) s a_limit c)) = Ok tt.

  Lemma validate_ppl_post two val cpus p : PI p ->
    post (validate_ppl env fru frl fri two val cpus) p
      (fun _ p' => cache_only (pw_ms p) (pw_ms p') /\ PI p' /\ exists l, normalize_cpus ci cpus false = Ok l /\
         forall c, In c l -> accepted (pw_ms p) two val c)
      (fun _ p' => cache_only (pw_ms p) (pw_ms p') /\ PI p').
  Proof.
    intros H. unfold validate_ppl.
    assert (R : cache_only (pw_ms p) (pw_ms p) /\ PI p) by (split; [apply cache_only_refl|exact H]).
    apply post_bind, post_lift; [|intros; exact R]. intros _ _.
    apply post_bind, post_lift; [|intros; exact R]. intros ft Eft. apply get_tdp in Eft.
    apply post_bind, post_lift; [|intros; exact R]. intros _ _.
    apply post_bind, post_lift; [|intros; exact R]. intros fo Efo. apply get_ppl in Efo as (Efo & _).
    apply post_bind, post_lift; [|intros; exact R]. intros l El.
    pose proof (normalized_online env cpus l El) as Hl.
    destruct Hlim as (Sl & Al), Hinfo as (Si & Ai). rewrite Al, Ai in *. rewrite Eft, Efo.
    eapply post_conseq.
    { apply (post_mfor _ (fun q p' => cache_only (pw_ms p) (pw_ms p') /\ PI p' /\
        forall c, In c q -> accepted (pw_ms p) two val c)
        (fun _ p' => cache_only (pw_ms p) (pw_ms p') /\ PI p')).
      - intros q c r Eq p1 (C1 & H1 & A1).
        assert (Hc : In c online) by (apply Hl; rewrite Eq; apply in_app_iff; right; now left).
        apply post_bind. eapply post_conseq; [apply (scaled_one_post false a_info (14, 0) c p1 Si tdp_field_ok Hc H1)| |].
        2:{ intros e p2 (C2 & H2). split; [eapply cache_only_trans; eauto|exact H2]. }
        intros y p2 (C2 & H2 & u & U & ->). cbn beta iota.
        apply post_bind. eapply post_conseq; [apply (scaled_one_post true a_limit (limit_field (negb two)) c p2 Sl (limit_field_ok _) Hc H2)| |].
        2:{ intros e p3 (C3 & H3). split; [|exact H3]. eapply cache_only_trans; [eapply cache_only_trans|]; eauto. }
        intros y p3 (C3 & H3 & u' & U' & ->). cbn beta iota.
        assert (C13 : cache_only (pw_ms p) (pw_ms p3)) by (eapply cache_only_trans; [eapply cache_only_trans|]; eauto).
        apply post_lift; [|intros e _; auto].
        intros [] Ec. split; [exact C13|]. split; [exact H3|]. intros x Hx.
        apply in_app_iff in Hx as [Hx|[<-|[]]]; [auto|].
        exists u. apply (uval_co _ _ _ C2) in U'. assert (u' = u) by (eapply uval_fun; eauto). subst u'.
        split; [now apply (uval_co _ _ _ C1)|].
        unfold fv. rewrite (cache_only_view env _ _ _ _ C2) in Ec. rewrite !(cache_only_view env _ _ _ _ C1) in Ec.
        exact Ec.
      - split; [apply cache_only_refl|]. split; [exact H|]. intros c []. }
    - intros [] p' (C & H' & A). eauto.
    - auto.
  Qed.

  Lemma write_bits_none a b val sn vf cpus s : normalize_cpus ci cpus false = Ok [] ->
    write_bits env a b val cpus sn vf s = (Ok tt, s).
  Proof. intros E. unfold write_bits. rewrite (lbind_ok _ _ s _ E). reflexivity. Qed.

  (** Changes of the limit register: nothing, or the limit set to the value asked for on every CPU of the call. *)
  Lemma set_ppl_post two val cpus p : PI p -> (ms_intr (pw_ms p) = true -> first_is env rep a_limit cpus) ->
    post (set_ppl env fru frl fri two val cpus) p
      (fun _ p' => keeps (pw_ms p) (pw_ms p') /\ PI p' /\ exists l, normalize_cpus ci cpus false = Ok l /\
         (forall c, In c l -> accepted (pw_ms p) two val c) /\
         (forall c u, In c l -> uval (pw_ms p) u -> fits (limit_field two) (to_units u val) /\
            is_set (limit_field two) (to_units u val) (view (pw_ms p) a_limit (dom a_limit c)) (view (pw_ms p') a_limit (dom a_limit c))) /\
         (forall a' d, ~ (a' = a_limit /\ targeted env a_limit cpus d) -> view (pw_ms p') a' d = view (pw_ms p) a' d))
      (fun _ p' => keeps (pw_ms p) (pw_ms p') /\ PI p' /\
         (forall a' d, ~ (a' = a_limit /\ targeted env a_limit cpus d) -> view (pw_ms p') a' d = view (pw_ms p) a' d) /\
         (cache_only (pw_ms p) (pw_ms p') \/
          (exists u, uval (pw_ms p) u /\ (forall c, In c (targets env cpus) -> accepted (pw_ms p) two val c) /\
             (0 <= to_units u val /\ 0 <= Qnum val /\ forall c, In c (targets env cpus) -> In c online) /\
             (forall d, view (pw_ms p') a_limit d = view (pw_ms p) a_limit d \/
                set_bits (view (pw_ms p) a_limit d) (limit_field two) (Some (to_units u val)) = Ok (view (pw_ms p') a_limit d))))).
  Proof.
    intros H Hr. unfold set_ppl. destruct Hlim as (Sl & Al).
    assert (RX : forall p', cache_only (pw_ms p) (pw_ms p') -> PI p' -> keeps (pw_ms p) (pw_ms p') /\ PI p' /\
         (forall a' d, ~ (a' = a_limit /\ targeted env a_limit cpus d) -> view (pw_ms p') a' d = view (pw_ms p) a' d) /\
         (cache_only (pw_ms p) (pw_ms p') \/
          (exists u, uval (pw_ms p) u /\ (forall c, In c (targets env cpus) -> accepted (pw_ms p) two val c) /\
             (0 <= to_units u val /\ 0 <= Qnum val /\ forall c, In c (targets env cpus) -> In c online) /\
             (forall d, view (pw_ms p') a_limit d = view (pw_ms p) a_limit d \/
                set_bits (view (pw_ms p) a_limit d) (limit_field two) (Some (to_units u val)) = Ok (view (pw_ms p') a_limit d))))).
    { intros p' C H'. split; [apply (cache_only_keeps env rep sc); [exact C|apply H']|]. split; [exact H'|].
      split; [intros a' d _; apply (cache_only_view env _ _ _ _ C)|now left]. }
    apply post_bind. eapply post_conseq; [apply (validate_ppl_post two val cpus p H)| |intros e p' (C & H'); now apply RX].
    intros _ p1 (C1 & H1 & l & El & A).
    apply post_bind, post_lift; [|intros; now apply RX]. intros _ _.
    apply post_bind, post_lift; [|intros; now apply RX]. intros fe Ef. apply get_ppl in Ef as (Eb & Ew).
    rewrite Ew, Eb. cbn [negb]. apply post_bind.
    eapply post_conseq; [apply (power_units_post true p1 H1)| |].
    2:{ intros e p2 (C2 & H2). apply RX; [eapply cache_only_trans; eauto|exact H2]. }
    intros u p2 (C2 & H2 & U). apply (uval_co _ _ _ C1) in U.
    assert (C02 : cache_only (pw_ms p) (pw_ms p2)) by (eapply cache_only_trans; eauto).
    rewrite Al in *. apply post_on_ms.
    destruct l as [|c0 lt].
    { unfold post. rewrite (write_bits_none _ _ _ _ _ cpus _ El). cbn [pw_ms].
      split; [apply (cache_only_keeps env rep sc); [exact C02|apply H2]|]. split; [now destruct p2|].
      exists []. split; [exact El|]. split; [intros ? []|]. split; [intros ? ? []|].
      intros a' d _. apply (cache_only_view env _ _ _ _ C02). }
    assert (Nq : 0 <= Qnum val).
    { destruct (A c0 (or_introl eq_refl)) as (u' & U' & Ec). assert (u' = u) by (eapply uval_fun; eauto). subst u'.
      eapply check_nonneg; [exact (uval_pos _ _ U)| |exact Ec]. apply field_val_pos, tdp_field_ok. }
    assert (N : 0 <= to_units u val) by (apply to_units_spec; [exact (uval_pos _ _ U)|exact Nq]).
    set (l := c0 :: lt) in *.
    assert (Hr2 : ms_intr (pw_ms p2) = true -> first_is env rep a_limit cpus).
    { rewrite (co_intr _ _ C02). exact Hr. }
    pose proof (write_bits_post_mix env rep sc Hwf Hsc Hfaith a_limit (limit_field two) (Some (to_units u val)) cpus false
      (pw_ms p2) (p_coh p2 H2) Hr2 (limit_field_ok two) N) as P. rewrite Sl in P.
    assert (Fit : forall s', write_bits env a_limit (limit_field two) (Some (to_units u val)) cpus SPackage false (pw_ms p2) = (Ok tt, s') ->
       fits (limit_field two) (to_units u val)).
    { intros s' E. eapply write_bits_fits; [apply limit_field_ok|exact N|exact El|exact E]. }
    unfold post in *. destruct (write_bits env a_limit (limit_field two) (Some (to_units u val)) cpus SPackage false (pw_ms p2)) as [[[]|e] s'] eqn:Ewb.
    - destruct P as (K & Eff).
      assert (F : forall a' d, ~ (a' = a_limit /\ targeted env a_limit cpus d) -> view s' a' d = view (pw_ms p) a' d).
      { intros a' d Hn. destruct (Eff a' d) as (_ & E2). rewrite (E2 Hn). apply (cache_only_view env _ _ _ _ C02). }
      cbn [pw_ms]. split; [|split].
      + eapply keeps_trans; [apply (cache_only_keeps env rep sc); [exact C02|apply H2]|exact K].
      + apply (PI_ms p2); [exact H2|apply K|]. intros d. rewrite F; [symmetry; apply (cache_only_view env _ _ _ _ C02)|].
        intros (X & _). discriminate.
      + exists l. split; [exact El|]. split; [exact A|]. split; [|exact F].
        intros c u' Hc U'. assert (u' = u) by (eapply uval_fun; eauto). subst u'. split; [eauto|].
        rewrite <- (cache_only_view env _ _ a_limit (dom a_limit c) C02). apply Eff. split; [reflexivity|].
        exists c. split; [now apply (normalized_targets env cpus l El)|reflexivity].
    - destruct P as (K & F & X). cbn [pw_ms].
      assert (F' : forall a' d, ~ (a' = a_limit /\ targeted env a_limit cpus d) -> view s' a' d = view (pw_ms p) a' d).
      { intros a' d Hn. rewrite F by exact Hn. apply (cache_only_view env _ _ _ _ C02). }
      split; [eapply keeps_trans; [apply (cache_only_keeps env rep sc); [exact C02|apply H2]|exact K]|]. split; [|split; [exact F'|]].
      + apply (PI_ms p2); [exact H2|apply K|]. intros d. rewrite F; [reflexivity|]. intros (Y & _). discriminate.
      + right. exists u. split; [exact U|]. split; [intros c Hc; apply A; now apply (normalized_targets env cpus l El)|].
        split; [split; [exact N|split; [exact Nq|]]; intros c Hc; apply (normalized_online env cpus l El); now apply (normalized_targets env cpus l El)|].
        intros d. rewrite <- (cache_only_view env _ _ a_limit d C02). exact (X d).
  Qed.
End Post.
