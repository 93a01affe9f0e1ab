(** Lemmas for C30. *)
From Coq Require Import Ascii String ZifyBool.
From Verif Require Import Base L_Base L_Monad M_CPUInfo S_CPUInfo L_CPUInfo M_Text M_MSR S_MSR L_Bits
  L_MSR L_MSR2 L_MSR3 L_MSR4 M_Osa S_Osa L_Osa M_FMSR S_FMSR L_Text L_FMSR L_FMSR2 L_FMSR3 M_PCState S_PCState.

(** ** The name reported *)

Lemma rvals_spec fe vals code n : feature_ok fe -> fe_vals fe = Some vals ->
  dget Z.eqb (rvals vals) code = Some n <-> In (n, code) vals.
Proof.
  intros Hok Hv. pose proof (decode_spec fe Hok code n) as D. unfold decode, named_as in D. rewrite Hv in D.
  rewrite <- D. destruct (dget Z.eqb (rvals vals) code); split; congruence.
Qed.

Lemma find_app {A} (f : A -> bool) l m : find f (l ++ m) = match find f l with Some x => Some x | None => find f m end.
Proof. induction l as [|x l IH]; [reflexivity|]. cbn. now destruct (f x). Qed.

Lemma find_sorted (f : Z -> bool) l x : find f (rev (zsort l)) = Some x ->
  In x l /\ f x = true /\ forall y, In y l -> x < y -> f y = false.
Proof.
  intros H. pose proof (zsort_sorted l) as S.
  assert (G : forall m, StronglySorted Z.le m -> find f (rev m) = Some x ->
     In x m /\ f x = true /\ forall y, In y m -> x < y -> f y = false).
  { clear H S. induction m as [|z m IH]; intros S H; [discriminate|]. inversion S as [|? ? S' F]; subst.
    cbn [rev] in H. rewrite find_app in H. destruct (find f (rev m)) as [w|] eqn:Ef.
    - injection H as ->. destruct (IH S' eq_refl) as (I1 & I2 & I3). split; [now right|]. split; [exact I2|].
      intros y [<-|Hy] Hlt; [|auto]. rewrite Forall_forall in F. specialize (F x I1). lia.
    - cbn [find] in H. destruct (f z) eqn:Ez; [|discriminate]. injection H as ->.
      split; [now left|]. split; [exact Ez|]. intros y [<-|Hy] Hlt; [lia|].
      apply (find_none _ _ Ef). now apply -> in_rev. }
  destruct (G _ S H) as (G1 & G2 & G3). split; [now rewrite zsort_In in G1|]. split; [exact G2|].
  intros y Hy. apply G3. now rewrite zsort_In.
Qed.

Lemma limit_name_spec fe vals code : feature_ok fe -> fe_vals fe = Some vals ->
  reported vals code (limit_name vals code).
Proof.
  intros Hok Hv. pose proof (fun c n => rvals_spec fe vals c n Hok Hv) as R. unfold limit_name.
  assert (Hnone : forall c, dget Z.eqb (rvals vals) c = None -> forall m, ~ In (m, c) vals).
  { intros c E m Hm. apply R in Hm. congruence. }
  assert (Hkey : forall m x, In (m, x) vals -> In x (map fst (rvals vals))).
  { intros m x Hm. apply R in Hm. apply (dget_In Z.eqb Zeqb_spec) in Hm.
    apply in_map_iff. exists (x, m). auto. }
  destruct (dget Z.eqb (rvals vals) code) as [n|] eqn:E; [now apply rep_exact, R|].
  destruct (find _ _) as [low|] eqn:Ef.
  - destruct (find_sorted _ _ _ Ef) as (Hin & Hf & Hlow). cbn beta in *. apply andb_prop in Hf as [Hle Hun].
    destruct (dget Z.eqb (rvals vals) low) as [n|] eqn:El; [|discriminate].
    apply (rep_lower vals code n low).
    + now apply Hnone.
    + now apply R.
    + assert (low <> code) by congruence. lia.
    + intros ->. rewrite (proj2 (fval_eqb_spec _ _)) in Hun by reflexivity. discriminate.
    + intros m x Hm Hx. specialize (Hlow x (Hkey _ _ Hm)). rewrite (proj2 (R x m) Hm) in Hlow.
      assert (Hlt : low < x) by lia. specialize (Hlow Hlt). apply andb_false_iff in Hlow as [Hl|Hl]; [lia|].
      apply negb_false_iff in Hl. now apply fval_eqb_spec in Hl.
  - apply rep_none. intros m x Hm Hx. assert (x <> code) by (intros ->; exact (Hnone _ E _ Hm)).
    split; [assumption|].
    pose proof (find_none _ _ Ef x) as F. cbn beta in F. rewrite (proj2 (R x m) Hm) in F.
    assert (Hi : In x (rev (zsort (map fst (rvals vals))))).
    { apply -> in_rev. rewrite zsort_In. eauto. }
    specialize (F Hi). apply andb_false_iff in F as [Hl|Hl]; [lia|].
    apply negb_false_iff in Hl. now apply fval_eqb_spec in Hl.
Qed.

(** A number with a name is reported by that name only. *)
Lemma reported_exact vals code n x :
  (forall v w, In (v, code) vals -> In (w, code) vals -> v = w) ->
  In (n, code) vals -> reported vals code x -> x = n.
Proof.
  intros Hu Hn H. destruct H as [m Hm|m low Hno _ _ _ _|Hno]; [eauto|now contradiction (Hno n)|].
  destruct (Hno n code Hn) as (Hx & _); [lia|congruence].
Qed.

(** ** Locking *)

Lemma lock_bit b r x : 0 <= b <= 63 -> get_bits r (b, b) = Ok x -> (x = 0 <-> Z.testbit r b = false).
Proof.
  intros Hb E. assert (Hf : field_ok (b, b)) by (unfold field_ok; cbn; lia).
  apply (get_bits_is_field _ _ _ Hf) in E. destruct E as (Hfit & Hi).
  specialize (Hi b). rewrite Hi by (unfold in_field; cbn; lia). cbn [snd]. replace (b - b) with 0 by lia.
  unfold fits, field_width in Hfit. cbn [fst snd] in Hfit. replace (b - b + 1) with 1 in Hfit by lia.
  change (2 ^ 1) with 2 in Hfit. assert (x = 0 \/ x = 1) as [-> | ->] by lia; cbn; split; congruence || lia.
Qed.

Section Post.
  Variable env : menv.
  Notation dom := (me_dom env).
  Notation ci := (me_ci env).
  Variable rep : Z -> Z -> Z.
  Variable sc : Z -> scope.
  Notation Coh := (Coh env rep sc).
  Notation view := (view env).
  Notation keeps := (keeps env rep sc).
  Hypothesis Hwf : wf_ci ci.
  Hypothesis Hsc : forall a, scope_right env a (sc a).
  Hypothesis Hfaith : faithful env.

  Lemma group_locked_post a k b code : 0 <= k <= 63 -> forall l acc s,
    (forall c, In c l -> In c (ci_online ci)) -> Coh s ->
    post (group_locked env a (k, k) b code (sc a) l acc) s
      (fun g s' => cache_only s s' /\ Coh s' /\
         group_writes env a b (Some code) (sc a) l acc s = (Ok g, s') /\
         forall c, In c l -> ~ is_locked env s a k c)
      (fun _ s' => cache_only s s' /\ Coh s').
  Proof.
    intros Hk. induction l as [|c l IH]; intros acc s Hl H.
    - apply post_ret. split; [apply cache_only_refl|]. split; [exact H|]. split; [reflexivity|intros c []].
    - cbn [group_locked group_writes]. apply post_bind.
      pose proof (read_one_post env rep sc Hwf Hsc a c s (Hl c (or_introl eq_refl)) H) as P.
      unfold mbind at 3. unfold post in P |- *.
      destruct (read_one env a (sc a) c s) as [[[c' old]|e] s1] eqn:Er; [|exact P].
      destruct P as ([= -> ->] & C1 & H1). cbv beta iota.
      fold (post (let! locked := lift (get_bits (view s a (dom a c)) (k, k)) in
        if negb (locked =? 0) then throw EError
        else let! new := lift (set_bits (view s a (dom a c)) b (Some code)) in
          if view s a (dom a c) =? new then group_locked env a (k, k) b code (sc a) l acc
          else group_locked env a (k, k) b code (sc a) l
            (dset Z.eqb acc new (match dget Z.eqb acc new with Some l => l | None => [] end ++ [c]))) s1
        (fun g s' => cache_only s s' /\ Coh s' /\
         (let! new := lift (set_bits (view s a (dom a c)) b (Some code)) in
          if view s a (dom a c) =? new then group_writes env a b (Some code) (sc a) l acc
          else group_writes env a b (Some code) (sc a) l
            (dset Z.eqb acc new (match dget Z.eqb acc new with Some l => l | None => [] end ++ [c]))) s1 = (Ok g, s') /\
         forall c0, In c0 (c :: l) -> ~ is_locked env s a k c0)
        (fun _ s' => cache_only s s' /\ Coh s')).
      apply post_bind, post_lift; [|intros; split; [exact C1|exact H1]].
      intros x Ex. destruct (Z.eqb_spec x 0) as [Hx|Hx]; cbn [negb]; [|apply post_throw; split; [exact C1|exact H1]].
      apply (lock_bit _ _ _ Hk Ex) in Hx.
      apply post_bind, post_lift; [|intros; split; [exact C1|exact H1]].
      intros new En.
      assert (Hcase : forall acc', post (group_locked env a (k, k) b code (sc a) l acc') s1
        (fun g s' => cache_only s s' /\ Coh s' /\ group_writes env a b (Some code) (sc a) l acc' s1 = (Ok g, s') /\
           forall c0, In c0 (c :: l) -> ~ is_locked env s a k c0)
        (fun _ s' => cache_only s s' /\ Coh s')).
      { intros acc'. eapply post_conseq; [apply (IH acc' s1); [intros; apply Hl; now right|exact H1]| |].
        - intros g s' (C & H' & G & U). split; [eapply cache_only_trans; eauto|]. split; [exact H'|].
          split; [exact G|]. intros c0 [<-|Hc].
          + unfold is_locked. congruence.
          + specialize (U c0 Hc). unfold is_locked in *. now rewrite <- (cache_only_view env _ _ a (dom a c0) C1).
        - intros e s' (C & H'). split; [eapply cache_only_trans; eauto|exact H']. }
      pose proof (Hcase acc) as Hc1.
      pose proof (Hcase (dset Z.eqb acc new (match dget Z.eqb acc new with Some l => l | None => [] end ++ [c]))) as Hc2.
      unfold mbind, lift. rewrite En. destruct (view s a (dom a c) =? new); assumption.
  Qed.

  Section Reg.
  Variables (fr : freg) (fe : feature) (k : Z).
  Notation a := (fr_addr fr).
  Hypothesis Hreg : limit_reg fr fe k.
  Hypothesis Hios : fe_ios fe = Some (sc a).

  (** Reading *)
  Lemma read_limit_post cpus s : Coh s ->
    post (read_limit env fr cpus) s
      (fun r s' => cache_only s s' /\ Coh s' /\ exists l vals, fe_vals fe = Some vals /\
         normalize_cpus ci cpus false = Ok l /\
         Forall2 (fun c cx => fst cx = c /\ li_limits (snd cx) = map fst vals /\ li_aliases (snd cx) = aliases_of fe /\
            reported vals (field_val (fe_bits fe) (view s a (dom a c))) (li_limit (snd cx))) l r)
      (fun _ s' => cache_only s s' /\ Coh s').
  Proof.
    intros H. destruct Hreg as (Hget & Hok & Hvals & _). destruct (fe_vals fe) as [vals|] eqn:Ev; [|congruence].
    unfold read_limit. apply post_bind, post_lift; [|intros; split; [apply cache_only_refl|exact H]].
    intros _ _. apply post_bind, post_lift; [|intros; split; [apply cache_only_refl|exact H]].
    intros f Ef. unfold get_feature, n_limit in Ef. rewrite Hget in Ef. injection Ef as <-.
    unfold get_limit. rewrite Hios, Ev. cbn [read_bits_ios].
    apply post_bind. pose proof (read_post env rep sc Hwf Hsc a cpus s H) as P. unfold post in *.
    rewrite (read_bits_eq env a (fe_bits fe) cpus (sc a) s (fo_field fe Hok)).
    destruct (read env a cpus (sc a) s) as [[r|e] s1]; [|exact P].
    destruct P as ((l & El & ->) & C & H1). unfold ret.
    split; [exact C|]. split; [exact H1|]. exists l, vals. split; [reflexivity|]. split; [exact El|].
    rewrite !map_map. cbn [fst snd]. clear El. induction l as [|c t IH]; constructor; [|exact IH].
    cbn [fst snd li_limits li_aliases li_limit]. split; [reflexivity|]. split; [reflexivity|].
    split; [reflexivity|]. exact (limit_name_spec fe vals _ Hok Ev).
  Qed.

  (** Writing: the registers are checked before the first write. *)
  Lemma write_limit_post v cpus s : Coh s -> (ms_intr s = true -> first_is env rep a cpus) ->
    post (write_limit env fr v cpus) s
      (fun _ s' => keeps s s' /\ (forall c, In c (targets env cpus) -> ~ is_locked env s a k c) /\
         exists code, means fe v code /\ fits (fe_bits fe) code /\
         op_effect env (OWriteBits a (fe_bits fe) (Some code) cpus (sc a) false) (view s) (view s'))
      (fun _ s' => keeps s s' /\
         (forall a' d, ~ (a' = a /\ targeted env a cpus d) -> view s' a' d = view s a' d) /\
         ((exists c, In c (targets env cpus) /\ is_locked env s a k c) -> cache_only s s')).
  Proof.
    intros H Hfi. destruct Hreg as (Hget & Hok & Hvals & lock & Hlock & Hlb & Hk).
    assert (R : forall s', cache_only s s' -> Coh s' -> keeps s s' /\
         (forall a' d, ~ (a' = a /\ targeted env a cpus d) -> view s' a' d = view s a' d) /\
         ((exists c, In c (targets env cpus) /\ is_locked env s a k c) -> cache_only s s')).
    { intros s' C H'. split; [now apply (cache_only_keeps env rep sc)|]. split; [|auto].
      intros a' d _. apply (cache_only_view env _ _ _ _ C). }
    pose proof (R s (cache_only_refl s) H) as R0.
    unfold write_limit. apply post_bind, post_lift; [|intros; exact R0].
    intros _ _. apply post_bind, post_lift; [|intros; exact R0].
    intros f Ef. unfold get_feature, n_limit in Ef. rewrite Hget in Ef. injection Ef as <-.
    apply post_bind, post_lift; [|intros; exact R0]. intros w Ew.
    destruct (negb (fe_writable fe)); [apply post_throw; exact R0|].
    apply post_bind, post_lift; [|intros; exact R0].
    intros lk Elk. unfold n_lock in Elk. rewrite Hlock in Elk. injection Elk as <-.
    destruct (fe_vals fe) as [vals|] eqn:Ev; [|congruence].
    pose proof (normalize_spec fe Hok v vals Ev) as N. rewrite Ew in N. destruct N as (code & -> & Hm).
    assert (Hfit : fits (fe_bits fe) code) by (eapply means_fits; eauto; congruence).
    unfold set_limit. rewrite Hios, Hlb.
    pose proof (write_bits_post env rep sc Hwf Hsc Hfaith a (fe_bits fe) (Some code) cpus false s H Hfi
                  (fo_field fe Hok) ltac:(unfold fits in Hfit; lia)) as WP.
    unfold write_bits in WP. unfold post in WP |- *.
    destruct (normalize_cpus ci cpus false) as [l|e] eqn:El; [|rewrite (lbind_exn _ _ s e eq_refl); exact R0].
    rewrite (lbind_ok _ _ s l eq_refl). rewrite (lbind_ok _ _ s l eq_refl) in WP.
    pose proof (group_locked_post a k (fe_bits fe) code Hk l [] s (normalized_online env cpus l El) H) as GP.
    unfold post in GP. unfold mbind in WP |- *.
    destruct (group_locked env a (k, k) (fe_bits fe) code (sc a) l [] s) as [[g|e] s1].
    - destruct GP as (C1 & H1 & G & U). rewrite G in WP.
      assert (U' : forall c, In c (targets env cpus) -> ~ is_locked env s a k c).
      { intros c Hc. apply U. now apply (normalized_targets env cpus l El). }
      destruct (mfor g _ s1) as [[[]|e] s2].
      + destruct WP as (K & Eff). split; [exact K|]. split; [exact U'|]. exists code. auto.
      + destruct WP as (K & Eff). split; [exact K|]. split; [exact Eff|].
        intros (c & Hc & L). destruct (U' c Hc L).
    - destruct GP as (C1 & H1). now apply R.
  Qed.
  End Reg.
End Post.

Section Final.
  Variable env : menv.
  Variable sc : Z -> scope.
  Hypothesis Hwf : wf_ci (me_ci env).
  Hypothesis Hsc : forall a, scope_right env a (sc a).
  Hypothesis Hfaith : faithful env.
  Variables (fr : freg) (fe : feature) (k : Z).
  Notation a := (fr_addr fr).
  Hypothesis Hreg : limit_reg fr fe k.
  Hypothesis Hios : fe_ios fe = Some (sc a).

  Lemma locked_l ops hw faults v cpus c r s' :
    disciplined_for env sc ops a cpus ->
    let s := mrun env ops (msr_init hw faults) in
    In c (targets env cpus) -> is_locked env s a k c ->
    write_limit env fr v cpus s = (r, s') ->
    (exists e, r = Exn e) /\ ms_hw s' = ms_hw s /\ ms_log s' = ms_log s /\ ms_tbuf s' = ms_tbuf s /\
    (forall a' d, view env s' a' d = view env s a' d).
  Proof.
    intros Hd s Hc Hl E. destruct (reached_for env sc Hwf Hsc Hfaith ops hw faults a cpus Hd) as (rep & H & Hr). fold s in H, Hr.
    pose proof (write_limit_post env rep sc Hwf Hsc Hfaith fr fe k Hreg Hios v cpus s H Hr) as P.
    unfold post in P. rewrite E in P. destruct r as [[]|e].
    - destruct P as (_ & U & _). destruct (U c Hc Hl).
    - destruct P as (_ & _ & C). specialize (C (ex_intro _ c (conj Hc Hl))).
      split; [eauto|]. split; [apply C|]. split; [apply C|]. split; [apply C|].
      intros a' d. apply (cache_only_view env _ _ _ _ C).
  Qed.

  Lemma limit_write_l ops hw faults v cpus s' :
    disciplined_for env sc ops a cpus ->
    let s := mrun env ops (msr_init hw faults) in
    write_limit env fr v cpus s = (Ok tt, s') ->
    (forall c, In c (targets env cpus) -> ~ is_locked env s a k c /\ exists code, means fe v code /\
       is_set (fe_bits fe) code (view env s a (me_dom env a c)) (view env s' a (me_dom env a c))) /\
    (forall a' d, ~ (a' = a /\ targeted env a cpus d) -> view env s' a' d = view env s a' d) /\
    (ms_intr s = false -> forall a d, view env s' a d = ms_hw s' a d) /\
    (ms_intr s = true -> ms_hw s' = ms_hw s /\ ms_log s' = ms_log s).
  Proof.
    intros Hd s E. destruct (reached_for env sc Hwf Hsc Hfaith ops hw faults a cpus Hd) as (rep & H & Hr). fold s in H, Hr.
    pose proof (write_limit_post env rep sc Hwf Hsc Hfaith fr fe k Hreg Hios v cpus s H Hr) as P.
    unfold post in P. rewrite E in P. destruct P as (K & U & code & Hm & Hf & Eff). split; [|split; [|split]].
    - intros c Hc. split; [auto|]. exists code. split; [exact Hm|].
      apply (Eff a (me_dom env a c)). split; [reflexivity|]. exists c. auto.
    - intros a' d Hx. now apply Eff.
    - intros Hi a' d. apply view_nobuf. apply (b_tr _ _ _ _ (c_buf _ _ _ _ _ (k_coh _ _ _ _ _ K))).
      rewrite (k_intr _ _ _ _ _ K). exact Hi.
    - apply K.
  Qed.

  Lemma limit_write_failed_l ops hw faults v cpus e s' :
    disciplined_for env sc ops a cpus ->
    let s := mrun env ops (msr_init hw faults) in
    write_limit env fr v cpus s = (Exn e, s') ->
    forall a' d, ~ (a' = a /\ targeted env a cpus d) -> view env s' a' d = view env s a' d.
  Proof.
    intros Hd s E. destruct (reached_for env sc Hwf Hsc Hfaith ops hw faults a cpus Hd) as (rep & H & Hr). fold s in H, Hr.
    pose proof (write_limit_post env rep sc Hwf Hsc Hfaith fr fe k Hreg Hios v cpus s H Hr) as P.
    unfold post in P. rewrite E in P. apply P.
  Qed.

  Lemma limit_read_l ops hw faults cpus r s' :
    disciplined env sc ops ->
    let s := mrun env ops (msr_init hw faults) in
    read_limit env fr cpus s = (Ok r, s') ->
    (forall c, In c (targets env cpus) <-> exists x, In (c, x) r) /\
    (forall c x, In (c, x) r ->
       li_limits x = map fst (vals_of fe) /\ li_aliases x = aliases_of fe /\
       exists code, is_field (fe_bits fe) (view env s a (me_dom env a c)) code /\ reported (vals_of fe) code (li_limit x)) /\
    ms_hw s' = ms_hw s /\ ms_log s' = ms_log s.
  Proof.
    intros Hd s E. destruct (reached env sc Hwf Hsc ops hw faults Hfaith Hd) as (rep & H & _). fold s in H.
    pose proof (read_limit_post env rep sc Hwf Hsc fr fe k Hreg Hios cpus s H) as P.
    unfold post in P. rewrite E in P. destruct P as (C & H1 & l & vals & Ev & El & F). split; [|split].
    - intros c. rewrite <- (normalized_targets env cpus l El). split.
      + intros Hc. destruct (Forall2_in_l _ _ _ F c Hc) as ([c' x] & Hin & Hx & _). cbn in Hx. subst c'. eauto.
      + intros (x & Hin). destruct (Forall2_in_r _ _ _ F _ Hin) as (c' & Hc & Hx & _). cbn in Hx. now subst.
    - intros c x Hin. destruct (Forall2_in_r _ _ _ F _ Hin) as (c' & Hc & Hx & H2 & H3 & Hn). cbn [fst snd] in *. subst c'.
      unfold vals_of. rewrite Ev. split; [exact H2|]. split; [exact H3|].
      eexists. split; [apply field_val_spec; apply Hreg|exact Hn].
    - split; apply C.
  Qed.

  (** Any unrelated calls in between. *)
  Lemma limit_write_then_read_l ops ops2 hw faults cpus v s' cpus2 r s'' c x :
    disciplined_for env sc (ops ++ ops2) a cpus ->
    write_limit env fr v cpus (mrun env ops (msr_init hw faults)) = (Ok tt, s') ->
    read_limit env fr cpus2 (mrun env ops2 s') = (Ok r, s'') ->
    In (c, x) r -> In c (targets env cpus) ->
    (forall o, In o ops2 -> ~ op_touches env o a (me_dom env a c)) ->
    exists code, means fe v code /\ In (li_limit x, code) (vals_of fe).
  Proof.
    intros (Hs & Hd) E E2 Hin Hc Ht. set (s := mrun env ops (msr_init hw faults)) in *.
    assert (X : exists rep, Coh env rep sc s /\ (ms_intr s = true -> first_is env rep a cpus) /\
              ((ms_intr s = false /\ ~ In OStart ops2) \/ forall o, In o ops2 -> op_rep env rep o)).
    { destruct Hd as [Hd|(rep & Hr & Hfi)].
      - exists (fun _ _ => 0).
        destruct (mrun_Coh env (fun _ _ => 0) sc Hwf Hsc Hfaith ops (msr_init hw faults)) as (A & B).
        + apply Coh_init.
        + intros o Ho. apply Hs, in_app_iff. now left.
        + left. split; [reflexivity|]. intros Ho. apply Hd, in_app_iff. now left.
        + assert (Hi : ms_intr s = false). { apply B. split; [reflexivity|]. intros Ho. apply Hd, in_app_iff. now left. }
          split; [exact A|]. split; [congruence|]. left. split; [exact Hi|]. intros Ho. apply Hd, in_app_iff. now right.
      - exists rep.
        destruct (mrun_Coh env rep sc Hwf Hsc Hfaith ops (msr_init hw faults)) as (A & B).
        + apply Coh_init.
        + intros o Ho. apply Hs, in_app_iff. now left.
        + right. intros o Ho. apply Hr, in_app_iff. now left.
        + split; [exact A|]. split; [auto|]. right. intros o Ho. apply Hr, in_app_iff. now right. }
    destruct X as (rep & H & Hr & Hr2).
    pose proof (write_limit_post env rep sc Hwf Hsc Hfaith fr fe k Hreg Hios v cpus s H Hr) as P.
    unfold post in P. rewrite E in P. destruct P as (K & _ & code & Hm & Hf & Eff). exists code. split; [exact Hm|].
    destruct Hreg as (_ & Hok & Hvals & _).
    destruct (Eff a (me_dom env a c)) as (E1 & _).
    assert (T : is_field (fe_bits fe) (view env s' a (me_dom env a c)) code).
    { eapply is_set_field; [apply Hok|exact Hf|]. apply E1. split; [reflexivity|]. exists c. auto. }
    assert (Hs2 : forall o, In o ops2 -> op_scoped sc o) by (intros o Ho; apply Hs, in_app_iff; now right).
    assert (Hr3 : (ms_intr s' = false /\ ~ In OStart ops2) \/ forall o, In o ops2 -> op_rep env rep o).
    { destruct Hr2 as [(Hi & Hx)|Hr2]; [left|now right]. split; [|exact Hx]. now rewrite (k_intr _ _ _ _ _ K). }
    pose proof (mrun_view env rep sc Hwf Hsc Hfaith ops2 a (me_dom env a c) s' (k_coh _ _ _ _ _ K) Hs2 Hr3 Ht) as V.
    destruct (mrun_Coh env rep sc Hwf Hsc Hfaith ops2 s' (k_coh _ _ _ _ _ K) Hs2 Hr3) as (H2 & _).
    pose proof (read_limit_post env rep sc Hwf Hsc fr fe k Hreg Hios cpus2 _ H2) as P.
    unfold post in P. rewrite E2 in P. destruct P as (_ & _ & l & vals & Ev & El & F).
    destruct (Forall2_in_r _ _ _ F _ Hin) as (c' & Hc' & Hx & _ & _ & Hna). cbn [fst snd] in *. subst c'.
    rewrite V in Hna. assert (Eq : field_val (fe_bits fe) (view env s' a (me_dom env a c)) = code).
    { eapply is_field_functional; [apply Hok| |exact T]. apply field_val_spec, Hok. }
    rewrite Eq in Hna. assert (Hm2 := Hm). unfold means in Hm2. rewrite Ev in Hm2. destruct Hm2 as (n & Hn & _).
    assert (Hc2 : forall v0 w, In (v0, code) vals -> In (w, code) vals -> v0 = w).
    { intros v0 w. pose proof (fo_codes fe Hok v0 w code) as X. unfold vals_of in X. rewrite Ev in X. exact X. }
    rewrite (reported_exact vals code n (li_limit x) Hc2 Hn Hna). unfold vals_of. now rewrite Ev.
  Qed.
End Final.

(** ** Setting the limit acts on the MSR object like at most one MSR call *)

Lemma group_locked_any env a lockb b code sn : forall l acc s r s',
  group_locked env a lockb b code sn l acc s = (r, s') ->
  (exists g, r = Ok g /\ group_writes env a b (Some code) sn l acc s = (Ok g, s')) \/
  (exists e p q, r = Exn e /\ l = p ++ q /\ snd (read_cpus env a p sn s) = s').
Proof.
  induction l as [|c l IH]; intros acc s r s' H; cbn [group_locked group_writes] in *.
  - apply pair_equal_spec in H as [<- <-]. left. exists acc. split; reflexivity.
  - unfold mbind at 1 in H. unfold mbind at 1.
    destruct (read_one env a sn c s) as [[[c' old]|e] s1] eqn:Er.
    + assert (Hstep : forall p, snd (read_cpus env a (c :: p) sn s) = snd (read_cpus env a p sn s1)).
      { intros p. unfold read_cpus. cbn [mmap]. unfold mbind at 1. rewrite Er. unfold mbind.
        destruct (mmap p (read_one env a sn) s1) as [[ys|e] s2]; reflexivity. }
      assert (Hone : forall e, (Exn e, s1) = (r, s') ->
        exists e0 p q, r = Exn e0 /\ c :: l = p ++ q /\ snd (read_cpus env a p sn s) = s').
      { intros e E. apply pair_equal_spec in E as [<- <-]. exists e, [c], l. split; [reflexivity|].
        split; [reflexivity|]. rewrite Hstep. reflexivity. }
      unfold mbind at 1, lift at 1 in H. destruct (get_bits old lockb) as [lk|e]; [|right; eapply Hone; exact H].
      destruct (negb (lk =? 0)); [right; eapply Hone; exact H|].
      unfold mbind at 1, lift at 1 in H. unfold mbind at 1, lift at 1.
      destruct (set_bits old b (Some code)) as [new|e]; [|right; eapply Hone; exact H].
      assert (Hrec : forall acc', group_locked env a lockb b code sn l acc' s1 = (r, s') ->
        (exists g, r = Ok g /\ group_writes env a b (Some code) sn l acc' s1 = (Ok g, s')) \/
        (exists e p q, r = Exn e /\ c :: l = p ++ q /\ snd (read_cpus env a p sn s) = s')).
      { intros acc' E. destruct (IH _ _ _ _ E) as [G|(e & p & q & -> & -> & <-)]; [now left|right].
        exists e, (c :: p), q. split; [reflexivity|]. split; [reflexivity|]. apply Hstep. }
      destruct (old =? new); now apply Hrec.
    + right. apply pair_equal_spec in H as [<- <-]. exists e, [c], l. split; [reflexivity|]. split; [reflexivity|].
      unfold read_cpus. cbn [mmap]. unfold mbind. now rewrite Er.
Qed.

Lemma limit_is_msr_call env sc fr fe k v cpus s : limit_reg fr fe k -> fe_ios fe = Some (sc (fr_addr fr)) ->
  wf_ci (me_ci env) ->
  exists ops,
    (ops = [] \/ (exists p, incl p (targets env cpus) /\ ops = [ORead (fr_addr fr) (Some p) (sc (fr_addr fr))]) \/
     exists code, means fe v code /\ ops = [OWriteBits (fr_addr fr) (fe_bits fe) (Some code) cpus (sc (fr_addr fr)) false]) /\
    snd (write_limit env fr v cpus s) = mrun env ops s.
Proof.
  intros (Hget & Hok & Hvals & lock & Hlock & Hlb & Hk) Hios Hwf. unfold write_limit.
  destruct (validate_feature_supported env fr n_limit cpus) as [[]|e]; [|exists []; split; [now left|reflexivity]].
  rewrite (lbind_ok _ _ s tt eq_refl). unfold get_feature, n_limit, n_lock. rewrite Hget, (lbind_ok _ _ s fe eq_refl).
  destruct (normalize_feature_value fe v) as [w|e] eqn:Ew; [|exists []; split; [now left|reflexivity]].
  rewrite (lbind_ok _ _ s w eq_refl). destruct (negb (fe_writable fe)); [exists []; split; [now left|reflexivity]|].
  rewrite Hlock, (lbind_ok _ _ s lock eq_refl).
  destruct (fe_vals fe) as [vals|] eqn:Ev; [|congruence].
  pose proof (normalize_spec fe Hok v vals Ev) as N. rewrite Ew in N. destruct N as (code & -> & Hm).
  unfold set_limit. rewrite Hios.
  destruct (normalize_cpus (me_ci env) cpus false) as [l|e] eqn:El; [|exists []; split; [now left|reflexivity]].
  rewrite (lbind_ok _ _ s l eq_refl). unfold mbind.
  destruct (group_locked env (fr_addr fr) (fe_bits lock) (fe_bits fe) code (sc (fr_addr fr)) l [] s) as [r s1] eqn:Eg.
  destruct (group_locked_any _ _ _ _ _ _ _ _ _ _ _ Eg) as [(g & -> & G)|(e & p & q & -> & -> & <-)].
  - exists [OWriteBits (fr_addr fr) (fe_bits fe) (Some code) cpus (sc (fr_addr fr)) false]. split; [right; right; eauto|].
    cbn [mrun fold_left mstep]. unfold write_bits. unfold mbind at 1. rewrite (lbind_ok _ _ s l El). unfold mbind. rewrite G.
    destruct (mfor g _ s1) as [[[]|e] s2]; reflexivity.
  - exists [ORead (fr_addr fr) (Some p) (sc (fr_addr fr))]. split.
    + right. left. exists p. split; [|reflexivity]. intros c Hc. apply (normalized_targets env cpus _ El).
      apply in_app_iff. now left.
    + cbn [snd mrun fold_left mstep]. unfold read.
      assert (Ep : normalize_cpus (me_ci env) (Some p) false = Ok p).
      { assert (Hon : forall x, In x p -> In x (ci_online (me_ci env))).
        { intros x Hx. apply (normalized_online env cpus _ El). apply in_app_iff. now left. }
        assert (Hnd : NoDup (p ++ q)).
        { destruct cpus as [l0|]; [|injection El as El; rewrite <- El].
          - destruct (normalize_cpus_ok_l _ _ _ _ El) as (_ & _ & Ho). now apply in_order_NoDup in Ho.
          - eapply Permutation_NoDup; [apply Permutation_sym, zsort_perm|apply (wf_online_nodup _ Hwf)]. }
        unfold normalize_cpus. rewrite normalize_in_succeeds by exact Hon. f_equal. apply dedup_id.
        now apply NoDup_app_l in Hnd. }
      rewrite (lbind_ok _ _ s _ Ep). reflexivity.
Qed.
