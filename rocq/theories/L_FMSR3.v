(** What reading and writing MSR features does, after any history of MSR calls. *)
From Coq Require Import Ascii String ZifyBool.
From Verif Require Import Base L_Base L_Monad M_CPUInfo S_CPUInfo L_CPUInfo M_Text M_MSR S_MSR L_Bits
  L_MSR L_MSR2 L_MSR3 L_MSR4 M_Osa S_Osa L_Osa M_FMSR S_FMSR L_Text L_FMSR L_FMSR2.

Lemma write_bits_fits env a b n cpus sn vf s s' c t : field_ok b -> 0 <= n ->
  normalize_cpus (me_ci env) cpus false = Ok (c :: t) ->
  write_bits env a b (Some n) cpus sn vf s = (Ok tt, s') -> fits b n.
Proof.
  intros Hb Hn El. unfold write_bits. rewrite (lbind_ok _ _ s _ El). cbn [group_writes]. unfold mbind at 1 2.
  destruct (read_one env a sn c s) as [[[c' old]|e] s1]; [|discriminate].
  unfold mbind, lift at 1. destruct (set_bits old b (Some n)) as [new|e] eqn:E; [|discriminate].
  intros _. exact (proj1 (set_bits_is_set_some old b n new Hb Hn E)).
Qed.

Lemma is_set_field b v old new : field_ok b -> fits b v -> is_set b v old new -> is_field b new v.
Proof. intros Hb Hf H. split; [exact Hf|]. intros i Hi. destruct (H i) as (H1 & _); [unfold in_field, field_ok in *; lia|auto]. Qed.

Lemma is_set_other b1 b2 v old new w : field_ok b2 -> disjoint b1 b2 -> is_set b1 v old new ->
  is_field b2 old w -> is_field b2 new w.
Proof.
  intros Hb Hd H (Hf & Hw). split; [exact Hf|]. intros i Hi.
  destruct (H i) as (_ & H2); [unfold in_field, field_ok in *; lia|]. rewrite H2; [auto|].
  intros H1. exact (Hd i (conj H1 Hi)).
Qed.

Lemma is_field_functional b r v w : field_ok b -> is_field b r v -> is_field b r w -> v = w.
Proof. intros Hb H1 H2. apply (get_bits_is_field _ _ _ Hb) in H1. apply (get_bits_is_field _ _ _ Hb) in H2. congruence. Qed.

Section Post.
  Variable env : menv.
  Notation dom := (me_dom env).
  Notation ci := (me_ci env).
  Notation online := (ci_online (me_ci env)).
  Variable rep : Z -> Z -> Z.
  Variable sc : Z -> scope.
  Notation Coh := (Coh env rep sc).
  Notation view := (view env).
  Notation keeps := (keeps env rep sc).
  Hypothesis Hwf : wf_ci ci.
  Hypothesis Hsc : forall a, scope_right env a (sc a).
  Hypothesis Hfaith : faithful env.
  Variables (fr : freg) (fname : str) (fe : feature).
  Hypothesis Hget : get_feature fr fname = Ok fe.
  Hypothesis Hok : feature_ok fe.
  Hypothesis Hios : fe_ios fe = Some (sc (fr_addr fr)).
  Notation a := (fr_addr fr).

  Lemma read_feature_post cpus s : Coh s ->
    post (read_feature env fr fname cpus) s
      (fun r s' => cache_only s s' /\ Coh s' /\ exists l, normalize_cpus ci cpus false = Ok l /\
         Forall2 (fun c cx => fst cx = c /\ named_as fe (field_val (fe_bits fe) (view s a (dom a c))) (snd cx)) l r)
      (fun _ s' => cache_only s s' /\ Coh s').
  Proof.
    intros H. unfold read_feature. apply post_bind, post_lift; [|intros; split; [apply cache_only_refl|exact H]].
    intros _ _. apply post_bind, post_lift; [|intros; split; [apply cache_only_refl|exact H]].
    intros f Ef. rewrite Hget in Ef. injection Ef as <-. rewrite Hios. cbn [read_bits_ios].
    apply post_bind. pose proof (read_post env rep sc Hwf Hsc a cpus s H) as P. unfold post in *.
    rewrite (read_bits_eq env a (fe_bits fe) cpus (sc a) s (fo_field fe Hok)).
    destruct (read env a cpus (sc a) s) as [[r|e] s1]; [|exact P].
    destruct P as ((l & El & ->) & C & H1). unfold lift.
    destruct (rmap _ _) as [ys|e] eqn:Er; [|split; [exact C|exact H1]].
    split; [exact C|]. split; [exact H1|]. exists l. split; [exact El|].
    apply rmap_forall2 in Er. rewrite map_map in Er. clear El.
    assert (G : forall ys, Forall2 (fun (x : Z * Z) y => (let? v := decode fe (snd x) in Ok (fst x, v)) = Ok y)
       (map (fun x => (x, field_val (fe_bits fe) (view s a (dom a x)))) l) ys ->
       Forall2 (fun c cx => fst cx = c /\ named_as fe (field_val (fe_bits fe) (view s a (dom a c))) (snd cx)) l ys).
    { clear Er ys. induction l as [|c t IH]; intros ys F; inversion F as [|x y xs ys' Hxy F']; subst; constructor; auto.
      cbn [fst snd] in Hxy. destruct (decode fe _) as [v|] eqn:Ed; [|discriminate]. cbn [rbind] in Hxy. injection Hxy as <-.
      split; [reflexivity|]. now apply decode_spec. }
    exact (G ys Er).
  Qed.

  Lemma write_bits_ios_post cpus v w s : Coh s -> (ms_intr s = true -> first_is env rep a cpus) ->
    (forall code, w = VInt code -> 0 <= code) ->
    (forall code, w = VInt code \/ (exists b, w = VBool b /\ code = Z.b2z b) -> means fe v code) ->
    post (write_bits_ios env a (fe_bits fe) w cpus (fe_ios fe) false) s
      (fun _ s' => keeps s s' /\ exists code,
         (forall c, In c (targets env cpus) -> means fe v code /\ fits (fe_bits fe) code) /\
         op_effect env (OWriteBits a (fe_bits fe) (Some code) cpus (sc a) false) (view s) (view s'))
      (fun _ s' => keeps s s' /\
         forall a' d, ~ (a' = a /\ targeted env a cpus d) -> view s' a' d = view s a' d).
  Proof.
    intros H Hr Hnn Hm. rewrite Hios.
    assert (W : forall n, 0 <= n -> (means fe v n) ->
      post (write_bits env a (fe_bits fe) (Some n) cpus (sc a) false) s
      (fun _ s' => keeps s s' /\ exists code,
         (forall c, In c (targets env cpus) -> means fe v code /\ fits (fe_bits fe) code) /\
         op_effect env (OWriteBits a (fe_bits fe) (Some code) cpus (sc a) false) (view s) (view s'))
      (fun _ s' => keeps s s' /\
         forall a' d, ~ (a' = a /\ targeted env a cpus d) -> view s' a' d = view s a' d)).
    { intros n Hn Hmn. pose proof (write_bits_post env rep sc Hwf Hsc Hfaith a (fe_bits fe) (Some n) cpus false s H Hr (fo_field fe Hok) Hn) as P.
      unfold post in *. destruct (write_bits env a (fe_bits fe) (Some n) cpus (sc a) false s) as [[[]|e] s'] eqn:E; [|exact P].
      destruct P as (K & Eff). split; [exact K|]. exists n. split; [|exact Eff].
      intros c Hc. split; [exact Hmn|].
      destruct (normalize_cpus ci cpus false) as [[|c0 t]|e] eqn:El.
      - apply (normalized_targets env cpus [] El) in Hc. destruct Hc.
      - exact (write_bits_fits env a _ n cpus _ false s s' c0 t (fo_field fe Hok) Hn El E).
      - unfold write_bits in E. rewrite (lbind_exn _ _ s e El) in E. discriminate. }
    destruct w as [t|b|n]; cbn [write_bits_ios].
    - apply post_bind, post_lift.
      2:{ intros e _. split; [|reflexivity]. apply (cache_only_keeps env rep sc); [apply cache_only_refl|exact H]. }
      intros l El. destruct l as [|c l].
      + apply post_ret. split; [apply (cache_only_keeps env rep sc); [apply cache_only_refl|exact H]|].
        exists 0. split; [intros c Hc; apply (normalized_targets env cpus [] El) in Hc; destruct Hc|].
        intros a' d. split; [|reflexivity]. intros (_ & c & Hc & _). apply (normalized_targets env cpus [] El) in Hc. destruct Hc.
      + apply post_bind. eapply post_conseq; [apply (read_one_post env rep sc Hwf Hsc a c s)| |].
        * apply (normalized_online env cpus _ El). now left.
        * exact H.
        * intros cv s1 (_ & C & H1). apply post_throw.
          split; [apply (cache_only_keeps env rep sc); auto|]. intros a' d _. apply (cache_only_view env _ _ _ _ C).
        * intros e s1 (C & H1).
          split; [apply (cache_only_keeps env rep sc); auto|]. intros a' d _. apply (cache_only_view env _ _ _ _ C).
    - apply W; [destruct b; cbn; lia|]. apply Hm. right. eauto.
    - apply W; [now apply Hnn|]. apply Hm. now left.
  Qed.

  Lemma write_feature_post cpus v s : Coh s -> (ms_intr s = true -> first_is env rep a cpus) ->
    (fe_vals fe = None -> not_negative v) ->
    post (write_feature env fr fname v cpus) s
      (fun _ s' => keeps s s' /\ exists code,
         (forall c, In c (targets env cpus) -> means fe v code /\ fits (fe_bits fe) code) /\
         op_effect env (OWriteBits a (fe_bits fe) (Some code) cpus (sc a) false) (view s) (view s'))
      (fun _ s' => keeps s s' /\
         forall a' d, ~ (a' = a /\ targeted env a cpus d) -> view s' a' d = view s a' d).
  Proof.
    intros H Hr Hnn.
    assert (R : keeps s s /\ forall a' d, ~ (a' = a /\ targeted env a cpus d) -> view s a' d = view s a' d).
    { split; [|reflexivity]. apply (cache_only_keeps env rep sc); [apply cache_only_refl|exact H]. }
    unfold write_feature. apply post_bind, post_lift; [|intros; exact R].
    intros _ _. apply post_bind, post_lift; [|intros; exact R].
    intros f Ef. rewrite Hget in Ef. injection Ef as <-.
    apply post_bind, post_lift; [|intros; exact R]. intros w Ew.
    destruct (negb (fe_writable fe)); [apply post_throw; exact R|].
    apply write_bits_ios_post; auto; destruct (fe_vals fe) as [vals|] eqn:Ev.
    - intros code ->. pose proof (normalize_spec fe Hok v vals Ev) as N. rewrite Ew in N.
      destruct N as (c & [= ->] & N). assert (F : fits (fe_bits fe) c) by (eapply means_fits; eauto; congruence).
      unfold fits in F. lia.
    - unfold normalize_feature_value in Ew. rewrite Ev in Ew. injection Ew as <-. intros code ->. exact (Hnn eq_refl).
    - intros code Hc. pose proof (normalize_spec fe Hok v vals Ev) as N. rewrite Ew in N.
      destruct N as (c & -> & N). destruct Hc as [[= ->]|(b & [=] & _)]. exact N.
    - unfold normalize_feature_value in Ew. rewrite Ev in Ew. injection Ew as <-.
      intros code Hc. unfold means. rewrite Ev. exact Hc.
  Qed.

  (** Calls that do not touch a register leave it alone, whether they succeed or not. *)
  Lemma mrun_view ops x d : forall s, Coh s -> (forall o, In o ops -> op_scoped sc o) ->
    ((ms_intr s = false /\ ~ In OStart ops) \/ forall o, In o ops -> op_rep env rep o) ->
    (forall o, In o ops -> ~ op_touches env o x d) -> view (mrun env ops s) x d = view s x d.
  Proof.
    induction ops as [|o t IH]; intros s H Hs Hr Ht; [reflexivity|].
    assert (Hro : ms_intr s = true -> op_rep env rep o).
    { destruct Hr as [(Hi & _)|Hr]; [congruence|]. intros _. apply Hr. now left. }
    pose proof (mstep_post env rep sc Hwf Hsc Hfaith o s H (Hs o (or_introl eq_refl)) Hro) as P.
    pose proof (mstep_intr env rep sc Hwf Hsc Hfaith o s H (Hs o (or_introl eq_refl)) Hro) as Hi'.
    assert (Hto : ~ op_touches env o x d) by (apply Ht; now left).
    cbn [mrun fold_left]. change (fold_left _ t (snd (mstep env o s))) with (mrun env t (snd (mstep env o s))).
    unfold post in P. destruct (mstep env o s) as [[r|e] s1]; cbn [snd] in *.
    - destruct P as (H1 & E & _). rewrite IH; auto.
      + destruct o; cbn [op_effect op_touches] in *; try apply E; exact Hto.
      + intros o' Ho'. apply Hs. now right.
      + destruct Hr as [(Hi & Hn)|Hr]; [left|right].
        * split; [apply Hi'; [intros ->; apply Hn; now left|exact Hi]|]. intros Hin. apply Hn. now right.
        * intros o' Ho'. apply Hr. now right.
      + intros o' Ho'. apply Ht. now right.
    - destruct P as (H1 & E & Ei & _). rewrite IH; auto.
      + intros o' Ho'. apply Hs. now right.
      + destruct Hr as [(Hi & Hn)|Hr]; [left|right].
        * split; [congruence|]. intros Hin. apply Hn. now right.
        * intros o' Ho'. apply Hr. now right.
      + intros o' Ho'. apply Ht. now right.
  Qed.
End Post.

Section Final.
  Variable env : menv.
  Variable sc : Z -> scope.
  Hypothesis Hwf : wf_ci (me_ci env).
  Hypothesis Hsc : forall a, scope_right env a (sc a).
  Hypothesis Hfaith : faithful env.

  Lemma reached_for ops hw faults x cpus : disciplined_for env sc ops x cpus ->
    exists rep, Coh env rep sc (mrun env ops (msr_init hw faults)) /\
      (ms_intr (mrun env ops (msr_init hw faults)) = true -> first_is env rep x cpus).
  Proof.
    intros (Hs & Hd). destruct Hd as [Hn|(rep & Hr & Hfi)].
    - exists (fun _ _ => 0).
      destruct (mrun_Coh env (fun _ _ => 0) sc Hwf Hsc Hfaith ops (msr_init hw faults)) as (A & B); auto.
      + apply Coh_init.
      + split; [exact A|]. rewrite B; [discriminate|]. auto.
    - exists rep.
      destruct (mrun_Coh env rep sc Hwf Hsc Hfaith ops (msr_init hw faults)) as (A & B); auto.
      apply Coh_init.
  Qed.

  Section Reg.
  Variables (fr : freg) (fname : str) (fe : feature).
  Hypothesis Hget : dget str_eqb (fr_feats fr) fname = Some fe.
  Hypothesis Hok : feature_ok fe.
  Hypothesis Hios : fe_ios fe = Some (sc (fr_addr fr)).
  Notation a := (fr_addr fr).

  Lemma Hget' : get_feature fr fname = Ok fe.
  Proof. unfold get_feature. now rewrite Hget. Qed.

  Lemma read_l ops hw faults cpus r s' :
    disciplined env sc ops ->
    let s := mrun env ops (msr_init hw faults) in
    read_feature env fr fname cpus s = (Ok r, s') ->
    (forall c, In c (targets env cpus) <-> exists x, In (c, x) r) /\
    (forall c x, In (c, x) r -> exists code,
       is_field (fe_bits fe) (view env s a (me_dom env a c)) code /\ named_as fe code x) /\
    ms_hw s' = ms_hw s /\ ms_log s' = ms_log s.
  Proof.
    intros Hd s E. destruct (reached env sc Hwf Hsc ops hw faults Hfaith Hd) as (rep & H & _). fold s in H.
    pose proof (read_feature_post env rep sc Hwf Hsc fr fname fe Hget' Hok Hios cpus s H) as P.
    unfold post in P. rewrite E in P. destruct P as (C & H1 & l & El & F). split; [|split].
    - intros c. rewrite <- (normalized_targets env cpus l El). split.
      + intros Hc. destruct (Forall2_in_l _ _ _ F c Hc) as ([c' x] & Hin & Hx & _). cbn in Hx. subst c'. eauto.
      + intros (x & Hin). destruct (Forall2_in_r _ _ _ F _ Hin) as (c' & Hc & Hx & _). cbn in Hx. now subst.
    - intros c x Hin. destruct (Forall2_in_r _ _ _ F _ Hin) as (c' & Hc & Hx & Hn). cbn [fst snd] in *. subst c'.
      eexists. split; [apply field_val_spec, (fo_field fe Hok)|exact Hn].
    - split; apply C.
  Qed.

  Lemma write_l ops hw faults cpus v s' :
    disciplined_for env sc ops a cpus -> (fe_vals fe = None -> not_negative v) ->
    let s := mrun env ops (msr_init hw faults) in
    write_feature env fr fname v cpus s = (Ok tt, s') ->
    (forall c, In c (targets env cpus) -> exists code, means fe v code /\
       is_set (fe_bits fe) code (view env s a (me_dom env a c)) (view env s' a (me_dom env a c)) /\
       is_field (fe_bits fe) (view env s' a (me_dom env a c)) code) /\
    (forall a' d, ~ (a' = a /\ targeted env a cpus d) -> view env s' a' d = view env s a' d) /\
    (ms_intr s = false -> forall a d, view env s' a d = ms_hw s' a d) /\
    (ms_intr s = true -> ms_hw s' = ms_hw s /\ ms_log s' = ms_log s).
  Proof.
    intros Hd Hn s E. destruct (reached_for ops hw faults a cpus Hd) as (rep & H & Hr). fold s in H, Hr.
    pose proof (write_feature_post env rep sc Hwf Hsc Hfaith fr fname fe Hget' Hok Hios cpus v s H Hr Hn) as P.
    unfold post in P. rewrite E in P. destruct P as (K & code & Hc & Eff). split; [|split; [|split]].
    - intros c Hin. destruct (Hc c Hin) as (Hm & Hf). exists code. split; [exact Hm|].
      destruct (Eff a (me_dom env a c)) as (E1 & _).
      assert (T : is_set (fe_bits fe) code (view env s a (me_dom env a c)) (view env s' a (me_dom env a c))).
      { apply E1. split; [reflexivity|]. exists c. auto. }
      split; [exact T|]. eapply is_set_field; eauto. apply Hok.
    - intros a' d Hx. now apply Eff.
    - intros Hi a' d. apply view_nobuf. apply (b_tr _ _ _ _ (c_buf _ _ _ _ _ (k_coh _ _ _ _ _ K))).
      rewrite (k_intr _ _ _ _ _ K). exact Hi.
    - apply K.
  Qed.

  Lemma write_failed_l ops hw faults cpus v e s' :
    disciplined_for env sc ops a cpus -> (fe_vals fe = None -> not_negative v) ->
    let s := mrun env ops (msr_init hw faults) in
    write_feature env fr fname v cpus s = (Exn e, s') ->
    forall a' d, ~ (a' = a /\ targeted env a cpus d) -> view env s' a' d = view env s a' d.
  Proof.
    intros Hd Hn s E. destruct (reached_for ops hw faults a cpus Hd) as (rep & H & Hr). fold s in H, Hr.
    pose proof (write_feature_post env rep sc Hwf Hsc Hfaith fr fname fe Hget' Hok Hios cpus v s H Hr Hn) as P.
    unfold post in P. rewrite E in P. apply P.
  Qed.

  (** Another feature of the same register keeps its value. *)
  Lemma write_other_l ops hw faults cpus v s' fe2 c code :
    disciplined_for env sc ops a cpus -> (fe_vals fe = None -> not_negative v) ->
    field_ok (fe_bits fe2) -> disjoint (fe_bits fe) (fe_bits fe2) -> In c (ci_online (me_ci env)) ->
    let s := mrun env ops (msr_init hw faults) in
    write_feature env fr fname v cpus s = (Ok tt, s') ->
    is_field (fe_bits fe2) (view env s a (me_dom env a c)) code ->
    is_field (fe_bits fe2) (view env s' a (me_dom env a c)) code.
  Proof.
    intros Hd Hn Hf2 Hdj Hc s E Hcode. destruct (reached_for ops hw faults a cpus Hd) as (rep & H & Hr). fold s in H, Hr.
    pose proof (write_feature_post env rep sc Hwf Hsc Hfaith fr fname fe Hget' Hok Hios cpus v s H Hr Hn) as P.
    unfold post in P. rewrite E in P. destruct P as (K & cd & _ & Eff).
    destruct (Eff a (me_dom env a c)) as (E1 & E2).
    assert (D : (exists x, In x (targets env cpus) /\ me_dom env a x = me_dom env a c) \/
                ~ (exists x, In x (targets env cpus) /\ me_dom env a x = me_dom env a c)).
    { destruct (existsb (fun x => me_dom env a x =? me_dom env a c) (targets env cpus)) eqn:Ex.
      - left. apply existsb_exists in Ex. destruct Ex as (x & Hx & Ex). exists x. split; [exact Hx|lia].
      - right. intros (x & Hx & Ed). assert (X : existsb (fun x => me_dom env a x =? me_dom env a c) (targets env cpus) = true).
        { apply existsb_exists. exists x. split; [exact Hx|lia]. } congruence. }
    destruct D as [D|D].
    - eapply is_set_other; eauto.
    - rewrite E2; [exact Hcode|]. intros (_ & X). exact (D X).
  Qed.

  Lemma write_then_read_l ops ops2 hw faults cpus v s' cpus2 r s'' c x :
    disciplined_for env sc (ops ++ ops2) a cpus -> (fe_vals fe = None -> not_negative v) ->
    write_feature env fr fname v cpus (mrun env ops (msr_init hw faults)) = (Ok tt, s') ->
    read_feature env fr fname cpus2 (mrun env ops2 s') = (Ok r, s'') ->
    In (c, x) r -> In c (targets env cpus) ->
    (forall o, In o ops2 -> ~ op_touches env o a (me_dom env a c)) ->
    exists code, means fe v code /\ named_as fe code x.
  Proof.
    intros (Hs & Hd) Hn E E2 Hin Hc Ht. set (s := mrun env ops (msr_init hw faults)) in *.
    assert (X : exists rep, Coh env rep sc s /\ (ms_intr s = true -> first_is env rep a cpus) /\
              ((ms_intr s = false /\ ~ In OStart ops2) \/ forall o, In o ops2 -> op_rep env rep o)).
    { destruct Hd as [Hd|(rep & Hr & Hfi)].
      - exists (fun _ _ => 0).
        destruct (mrun_Coh env (fun _ _ => 0) sc Hwf Hsc Hfaith ops (msr_init hw faults)) as (A & B).
        + apply Coh_init.
        + intros o Ho. apply Hs, in_app_iff. now left.
        + left. split; [reflexivity|]. intros Ho. apply Hd, in_app_iff. now left.
        + assert (Hi : ms_intr s = false). { apply B. split; [reflexivity|]. intros Ho. apply Hd, in_app_iff. now left. }
          split; [exact A|]. split; [congruence|]. left. split; [exact Hi|]. intros Ho. apply Hd, in_app_iff. now right.
      - exists rep.
        destruct (mrun_Coh env rep sc Hwf Hsc Hfaith ops (msr_init hw faults)) as (A & B).
        + apply Coh_init.
        + intros o Ho. apply Hs, in_app_iff. now left.
        + right. intros o Ho. apply Hr, in_app_iff. now left.
        + split; [exact A|]. split; [auto|]. right. intros o Ho. apply Hr, in_app_iff. now right. }
    destruct X as (rep & H & Hr & Hr2).
    pose proof (write_feature_post env rep sc Hwf Hsc Hfaith fr fname fe Hget' Hok Hios cpus v s H Hr Hn) as P.
    unfold post in P. rewrite E in P. destruct P as (K & code & Hcd & Eff).
    destruct (Hcd c Hc) as (Hm & Hf). exists code. split; [exact Hm|].
    destruct (Eff a (me_dom env a c)) as (E1 & _).
    assert (T : is_field (fe_bits fe) (view env s' a (me_dom env a c)) code).
    { eapply is_set_field; [apply Hok|exact Hf|]. apply E1. split; [reflexivity|]. exists c. auto. }
    assert (Hs2 : forall o, In o ops2 -> op_scoped sc o) by (intros o Ho; apply Hs, in_app_iff; now right).
    assert (Hr3 : (ms_intr s' = false /\ ~ In OStart ops2) \/ forall o, In o ops2 -> op_rep env rep o).
    { destruct Hr2 as [(Hi & Hx)|Hr2]; [left|now right]. split; [|exact Hx]. now rewrite (k_intr _ _ _ _ _ K). }
    pose proof (mrun_view env rep sc Hwf Hsc Hfaith ops2 a (me_dom env a c) s' (k_coh _ _ _ _ _ K) Hs2 Hr3 Ht) as V.
    destruct (mrun_Coh env rep sc Hwf Hsc Hfaith ops2 s' (k_coh _ _ _ _ _ K) Hs2 Hr3) as (H2 & _).
    pose proof (read_feature_post env rep sc Hwf Hsc fr fname fe Hget' Hok Hios cpus2 _ H2) as P.
    unfold post in P. rewrite E2 in P. destruct P as (_ & _ & l & El & F).
    destruct (Forall2_in_r _ _ _ F _ Hin) as (c' & Hc' & Hx & Hna). cbn [fst snd] in *. subst c'.
    rewrite V in Hna. assert (Eq : field_val (fe_bits fe) (view env s' a (me_dom env a c)) = code).
    { eapply is_field_functional; [apply Hok| |exact T]. apply field_val_spec, Hok. }
    now rewrite Eq in Hna.
  Qed.

  Lemma enabled_l ops hw faults cpus r s' :
    disciplined env sc ops ->
    fe_vals fe = Some [(VStr (s2l "on"), 1); (VStr (s2l "off"), 0)] \/
    fe_vals fe = Some [(VStr (s2l "on"), 0); (VStr (s2l "off"), 1)] ->
    let s := mrun env ops (msr_init hw faults) in
    is_feature_enabled env fr fname cpus s = (Ok r, s') ->
    forall c b, In (c, b) r -> exists code,
      is_field (fe_bits fe) (view env s a (me_dom env a c)) code /\
      (b = true <-> means fe (VStr (s2l "on")) code).
  Proof.
    intros Hd Hv s. unfold is_feature_enabled. intros E.
    apply lbind in E as [([] & Ev & E)|(e & _ & [=] & _)].
    apply lbind in E as [(f & Ef & E)|(e & _ & [=] & _)]. rewrite Hget' in Ef. injection Ef as <-.
    destruct (negb (ftype_eqb (fe_type fe) FBool)); [discriminate|]. unfold mbind in E.
    destruct (read_feature env fr fname cpus s) as [[q|e] s1] eqn:Er; [|discriminate].
    unfold ret in E. apply pair_equal_spec in E as [E _]. injection E as <-.
    destruct (read_l ops hw faults cpus q s1 Hd Er) as (_ & Hq & _).
    intros c b Hin. apply in_map_iff in Hin. destruct Hin as ([c' x] & [= <- <-] & Hin). cbn [fst snd].
    destruct (Hq c' x Hin) as (code & Hcode & Hn). exists code. split; [exact Hcode|].
    assert (U : forall cd, means fe (VStr (s2l "on")) cd <-> In (VStr (s2l "on"), cd) (vals_of fe)).
    { intros cd. split.
      - intros Hm. assert (Hx : exists c0, In (VStr (s2l "on"), c0) (vals_of fe)).
        { unfold vals_of. destruct Hv as [-> | ->]; eexists; left; reflexivity. }
        destruct Hx as (c0 & Hx). assert (cd = c0); [|congruence]. eapply (means_unique fe Hok); [exact Hm|].
        unfold means. unfold vals_of in Hx. destruct (fe_vals fe); [|destruct Hx].
        exists (VStr (s2l "on")). split; [exact Hx|]. left. left. reflexivity.
      - unfold vals_of, means. destruct (fe_vals fe); [|intros []]. intros Hx.
        exists (VStr (s2l "on")). split; [exact Hx|]. left. left. reflexivity. }
    rewrite U. unfold named_as, vals_of in *. destruct Hv as [Ev' | Ev']; rewrite Ev' in *;
      destruct Hn as [[= <- <-]|[[= <- <-]|[]]]; vm_compute; split; try tauto; try discriminate;
      intros [[=]|[[=]|[]]].
  Qed.

  (** A code without a name makes reading fail. *)
  Lemma read_unnamed_l ops hw faults cpus c code :
    disciplined env sc ops -> In c (targets env cpus) ->
    let s := mrun env ops (msr_init hw faults) in
    is_field (fe_bits fe) (view env s a (me_dom env a c)) code -> (forall x, ~ named_as fe code x) ->
    exists e s', read_feature env fr fname cpus s = (Exn e, s').
  Proof.
    intros Hd Hc s Hf Hn. destruct (read_feature env fr fname cpus s) as [[r|e] s'] eqn:E; [|eauto].
    exfalso. destruct (read_l ops hw faults cpus r s' Hd E) as (H1 & H2 & _).
    destruct (proj1 (H1 c) Hc) as (x & Hx). destruct (H2 c x Hx) as (code' & Hf' & Hnm).
    fold s in Hf'. rewrite (is_field_functional _ _ _ _ (fo_field fe Hok) Hf' Hf) in Hnm. exact (Hn x Hnm).
  Qed.
  End Reg.

  (** Every feature call acts on the MSR object like at most one MSR call. *)
  Lemma read_is_msr_call fr fname cpus s :
    (forall fe, dget str_eqb (fr_feats fr) fname = Some fe -> field_ok (fe_bits fe) /\ fe_ios fe = Some (sc (fr_addr fr))) ->
    exists ops, (ops = [] \/ ops = [ORead (fr_addr fr) cpus (sc (fr_addr fr))]) /\
      snd (read_feature env fr fname cpus s) = mrun env ops s.
  Proof.
    intros Hf. unfold read_feature.
    destruct (validate_feature_supported env fr fname cpus) as [[]|e]; [|exists []; split; [now left|reflexivity]].
    rewrite (lbind_ok _ _ s tt eq_refl). unfold get_feature in *.
    destruct (dget str_eqb (fr_feats fr) fname) as [fe|]; [|exists []; split; [now left|reflexivity]].
    destruct (Hf fe eq_refl) as (Hb & Hios). rewrite (lbind_ok _ _ s fe eq_refl), Hios. cbn [read_bits_ios].
    exists [ORead (fr_addr fr) cpus (sc (fr_addr fr))]. split; [now right|]. cbn [mrun fold_left mstep].
    unfold mbind. rewrite (read_bits_eq env _ _ cpus _ s Hb).
    destruct (read env (fr_addr fr) cpus (sc (fr_addr fr)) s) as [[l|e] s1]; [|reflexivity].
    unfold lift. destruct (rmap _ _); reflexivity.
  Qed.

  Lemma write_is_msr_call fr fname fe v cpus s :
    dget str_eqb (fr_feats fr) fname = Some fe -> feature_ok fe -> fe_ios fe = Some (sc (fr_addr fr)) ->
    exists ops,
      (ops = [] \/ (exists c, In c (targets env cpus) /\ ops = [ORead (fr_addr fr) (Some [c]) (sc (fr_addr fr))]) \/
       exists code, means fe v code /\ ops = [OWriteBits (fr_addr fr) (fe_bits fe) (Some code) cpus (sc (fr_addr fr)) false]) /\
      snd (write_feature env fr fname v cpus s) = mrun env ops s.
  Proof.
    intros Hf Hok Hios. unfold write_feature.
    destruct (validate_feature_supported env fr fname cpus) as [[]|e]; [|exists []; split; [now left|reflexivity]].
    rewrite (lbind_ok _ _ s tt eq_refl). unfold get_feature. rewrite Hf, (lbind_ok _ _ s fe eq_refl).
    destruct (normalize_feature_value fe v) as [w|e] eqn:Ew; [|exists []; split; [now left|reflexivity]].
    rewrite (lbind_ok _ _ s w eq_refl). destruct (negb (fe_writable fe)); [exists []; split; [now left|reflexivity]|].
    rewrite Hios.
    assert (W : forall n, means fe v n -> exists ops,
      (ops = [] \/ (exists c, In c (targets env cpus) /\ ops = [ORead (fr_addr fr) (Some [c]) (sc (fr_addr fr))]) \/
       exists code, means fe v code /\ ops = [OWriteBits (fr_addr fr) (fe_bits fe) (Some code) cpus (sc (fr_addr fr)) false]) /\
      snd (write_bits env (fr_addr fr) (fe_bits fe) (Some n) cpus (sc (fr_addr fr)) false s) = mrun env ops s).
    { intros n Hn. exists [OWriteBits (fr_addr fr) (fe_bits fe) (Some n) cpus (sc (fr_addr fr)) false].
      split; [right; right; eauto|]. cbn [mrun fold_left mstep]. unfold mbind.
      destruct (write_bits env _ _ _ _ _ _ s) as [[[]|e] s1]; reflexivity. }
    destruct w as [t|b|n]; cbn [write_bits_ios].
    - destruct (normalize_cpus (me_ci env) cpus false) as [l|e] eqn:El; [|exists []; split; [now left|reflexivity]].
      rewrite (lbind_ok _ _ s l eq_refl). destruct l as [|c l]; [exists []; split; [now left|reflexivity]|].
      exists [ORead (fr_addr fr) (Some [c]) (sc (fr_addr fr))]. split.
      + right. left. exists c. split; [|reflexivity]. apply (normalized_targets env cpus _ El). now left.
      + cbn [mrun fold_left mstep]. unfold read.
        assert (Ec : normalize_cpus (me_ci env) (Some [c]) false = Ok [c]).
        { unfold normalize_cpus. apply normalize_in_succeeds. intros x [<-|[]].
          apply (normalized_online env cpus _ El). now left. }
        rewrite (lbind_ok _ _ s _ Ec). unfold read_cpus. cbn [mmap]. unfold mbind.
        destruct (read_one env (fr_addr fr) (sc (fr_addr fr)) c s) as [[cv|e] s1]; reflexivity.
    - apply W. unfold normalize_feature_value in Ew. unfold means.
      destruct (fe_vals fe) as [vals|] eqn:Ev; [|injection Ew as ->; right; eauto].
      pose proof (normalize_spec fe Hok v vals Ev) as N. unfold normalize_feature_value in N. rewrite Ev, Ew in N.
      destruct N as (c & [=] & _).
    - apply W. destruct (fe_vals fe) as [vals|] eqn:Ev.
      + pose proof (normalize_spec fe Hok v vals Ev) as N. rewrite Ew in N. destruct N as (c & [= ->] & N). exact N.
      + unfold normalize_feature_value in Ew. rewrite Ev in Ew. injection Ew as ->. unfold means. rewrite Ev. now left.
  Qed.
End Final.

(** Reading back a canonical name gives that name. *)
Lemma canonical_l fe v c x : feature_ok fe -> In (v, c) (vals_of fe) ->
  (exists code, means fe v code /\ named_as fe code x) -> x = v.
Proof.
  intros Hok Hin (code & Hm & Hn). assert (Ec : code = c).
  { eapply (means_unique fe Hok); [exact Hm|]. unfold means. unfold vals_of in Hin.
    destruct (fe_vals fe); [|destruct Hin]. exists v. split; [exact Hin|]. left. now left. }
  subst. unfold named_as in Hn. pose proof (fo_codes fe Hok) as Hc. unfold vals_of in *.
  destruct (fe_vals fe); [|destruct Hin]. eapply Hc; eauto.
Qed.

Lemma canonical_int_l fe n x : fe_vals fe = None ->
  (exists code, means fe (VInt n) code /\ named_as fe code x) -> x = VInt n.
Proof.
  intros Ev (code & Hm & Hn). unfold means, named_as in *. rewrite Ev in *. subst.
  destruct Hm as [[= ->]|(b & [=] & _)]. reflexivity.
Qed.

Lemma enable_l env fr fname v cpus s r s' : enable_feature env fr fname v cpus s = (r, s') ->
  ((exists e, r = Exn e) /\ s' = s) \/
  exists b, switch v b /\ write_feature env fr fname (VStr (s2l (if b then "on" else "off")%string)) cpus s = (r, s').
Proof.
  unfold enable_feature. intros E.
  apply lbind in E as [([] & _ & E)|(e & _ & -> & ->)]; [|left; eauto].
  apply lbind in E as [(f & _ & E)|(e & _ & -> & ->)]; [|left; eauto].
  destruct (negb (ftype_eqb (fe_type f) FBool)).
  { apply pair_equal_spec in E as [<- <-]. left. eauto. }
  destruct (existsb (fval_eqb v) [VBool true; VInt 1; VStr (s2l "on"); VStr (s2l "enable")]) eqn:E1.
  - right. exists true. split; [|exact E]. apply existsb_exists in E1. destruct E1 as (x & Hx & Ex).
    apply fval_eqb_spec in Ex. subst x. unfold switch. cbn [Z.b2z].
    destruct Hx as [<-|[<-|[<-|[<-|[]]]]]; auto.
  - destruct (existsb (fval_eqb v) [VBool false; VInt 0; VStr (s2l "off"); VStr (s2l "disable")]) eqn:E2.
    + right. exists false. split; [|exact E]. apply existsb_exists in E2. destruct E2 as (x & Hx & Ex).
      apply fval_eqb_spec in Ex. subst x. unfold switch. cbn [Z.b2z].
      destruct Hx as [<-|[<-|[<-|[<-|[]]]]]; auto.
    + apply pair_equal_spec in E as [<- <-]. left. eauto.
Qed.
