(** Lemmas for C19: the outcome of a valid set request. *)
From Verif Require Import Base L_Base M_CPUInfo S_CPUInfo L_CPUInfo L_CPUInfo2 L_Hotplug M_Props S_Props
  L_Props L_Props2.

Section Outcome.
  Context {St V : Type}.
  Variable cls : pclass St V.
  Hypothesis Hwf : wf_ci (pc_ci cls).

  Lemma set_loop_any pname v cpus fail : forall ms s r s',
    set_loop (do_set cls pname v cpus) fail ms s = (r, s') ->
    exists tried, mech_outcome cls pname v cpus ms fail tried (ps_st s) r (ps_st s') /\
      ps_gets s' = ps_gets s /\ ps_sets s' = ps_sets s ++ map (fun x => (x, v, cpus)) tried.
  Proof.
    induction ms as [|m0 rest IH]; intros s r s' H; cbn [set_loop] in H.
    - apply pair_equal_spec in H as [<- <-]. exists []. cbn. rewrite app_nil_r. split; [|auto].
      right. split; [reflexivity|]. split; [constructor|reflexivity].
    - destruct (do_set cls pname v cpus m0 s) as [r0 s1] eqn:E;
        destruct (do_set_run _ _ _ _ _ _ _ _ E) as (H1 & H2 & H3).
      destruct r0 as [[]|e].
      + apply pair_equal_spec in H as [<- <-]. exists [m0]. split; [|auto].
        left. exists [], m0, rest, (ps_st s). split; [reflexivity|]. split; [reflexivity|]. split; [constructor|]. auto.
      + assert (Hx : (e = ENotSupported \/ e = ETryAnother) /\
                     set_loop (do_set cls pname v cpus) fail rest s1 = (r, s') \/
                     (e <> ENotSupported /\ e <> ETryAnother) /\ (Exn e, s1) = (r, s')).
        { destruct e; first [left; split; [tauto|exact H] | right; split; [split; discriminate|exact H]]. }
        destruct Hx as [[Hx Hl]|[[Hx Hy] Hl]].
        * destruct (IH _ _ _ Hl) as (tried & Ho & Hg & Hlog). exists (m0 :: tried).
          assert (Hr : refuses cls pname v cpus m0 (ps_st s) (ps_st s1)).
          { unfold refuses. destruct Hx as [-> | ->]; auto. }
          split; [|split; [congruence|rewrite Hlog, H3; cbn [app map]; now rewrite <- app_assoc]].
          destruct Ho as [(pre & m & post & st2 & -> & -> & Ha & Hm)|(-> & Ha & ->)].
          { left. exists (m0 :: pre), m, post, st2. split; [reflexivity|]. split; [reflexivity|].
            split; [econstructor; eauto|exact Hm]. }
          { right. split; [reflexivity|]. split; [econstructor; eauto|reflexivity]. }
        * apply pair_equal_spec in Hl as [<- <-]. exists [m0]. split; [|auto].
          left. exists [], m0, rest, (ps_st s). split; [reflexivity|]. split; [reflexivity|]. split; [constructor|].
          right. exists e. auto.
  Qed.

  Lemma good_mnames pname val mnames :
    ~ bad_write_args cls pname val mnames -> exists ms, normalize_mnames cls pname mnames false = Ok ms.
  Proof.
    intros Hb. unfold normalize_mnames.
    destruct (dget Z.eqb (pc_props cls) pname) as [p|] eqn:Ep; [|exfalso; apply Hb; now left].
    destruct mnames as [l|]; [|eauto].
    destruct (rmap l _) as [u|e] eqn:Er; cbn [rbind]; [eauto|]. exfalso.
    destruct (rmap_exn _ _ _ Er) as (m & Hm & E). apply Hb. do 4 right. exists p, l, m.
    split; [exact Ep|]. split; [reflexivity|]. split; [exact Hm|].
    unfold validate_mname in E. destruct (inb m (pd_mnames p)) eqn:Ei; cbn in E.
    - right. intros K. rewrite K in E. discriminate.
    - left. rewrite <- inb_In. congruence.
  Qed.

  Lemma good_inprop pname val mnames :
    ~ bad_write_args cls pname val mnames ->
    exists v0 v, val = Some v0 /\ pc_norm cls pname v0 = Ok v /\ normalize_inprop cls pname val = Ok v.
  Proof.
    intros Hb. unfold normalize_inprop, validate_pname.
    destruct (dget Z.eqb (pc_props cls) pname) as [p|] eqn:Ep; [|exfalso; apply Hb; now left]. cbn [rbind].
    destruct val as [v0|]; [|exfalso; apply Hb; right; right; now left].
    destruct (pd_writable p) eqn:Ew; [|exfalso; apply Hb; right; left; eauto]. cbn [negb].
    destruct (pc_norm cls pname v0) as [v|e] eqn:En; [eauto|].
    exfalso. apply Hb. right. right. right. left. eauto.
  Qed.

  Lemma good_cpus cpus l0 : req_cpus cls cpus l0 -> exists l, normalize_cpus (pc_ci cls) cpus false = Ok l.
  Proof.
    intros (_ & Hon & Hin). destruct (normalize_cpus (pc_ci cls) cpus false) as [l|e] eqn:E; [eauto|].
    exfalso. destruct cpus as [lc|]; [|discriminate].
    destruct (proj1 (normalize_cpus_fails_l (pc_ci cls) lc false) (ex_intro _ e E)) as (c & Hc & Hn).
    apply Hn, Hon, Hin. exact Hc.
  Qed.

  Lemma set_outcome_l pname val cpus mnames s l0 st1 sc r s' :
    ~ bad_write_args cls pname val mnames -> req_cpus cls cpus l0 -> l0 <> [] ->
    scope_known cls pname (ps_st s) st1 -> pc_sname cls st1 pname = Some sc ->
    (sc = SCPU \/ sc = SGlobal \/ sc = SPackage \/ sc = SDie /\ io_dies_exact (pc_ci cls) \/ sc = SCore) ->
    whole_units cls sc l0 ->
    set_prop_cpus cls pname val cpus mnames s = (r, s') ->
    exists v0 v l ms tried, val = Some v0 /\ pc_norm cls pname v0 = Ok v /\ req_cpus cls cpus l /\
      allowed cls pname mnames ms /\
      mech_outcome cls pname v l ms ENotSupported tried st1 r (ps_st s') /\
      ps_gets s' = ps_gets s /\ ps_sets s' = ps_sets s ++ map (fun x => (x, v, l)) tried.
  Proof.
    intros Hb Hreq0 Hne0 Hk Hsn Hsc Hw H. unfold set_prop_cpus in H.
    destruct (good_mnames _ _ _ Hb) as (ms & Ems). destruct (good_inprop _ _ _ Hb) as (v0 & v & Ev0 & En & Ei).
    destruct (good_cpus _ _ Hreq0) as (l & El).
    pose proof (normalize_cpus_req cls _ _ Hwf El) as Hreq.
    apply lift_bind in H as [(a & Ha & H)|(e & He & _)]; [|congruence].
    assert (a = ms) by congruence; subst a.
    apply lift_bind in H as [(a & Ha' & H)|(e & He & _)]; [|congruence].
    assert (a = v) by congruence; subst a.
    apply lift_bind in H as [(a & Ha'' & H)|(e & He & _)]; [|congruence].
    assert (a = l) by congruence; subst a.
    assert (Hsame : forall c, In c l <-> In c l0).
    { intros c. destruct Hreq as (_ & _ & R). destruct Hreq0 as (_ & _ & R0). rewrite R, R0. reflexivity. }
    assert (Hne : l <> []).
    { intros ->. destruct l0 as [|c t]; [congruence|]. apply (Hsame c). now left. }
    assert (Hval : validate_cpus_vs_scope cls (Some sc) l = Ok tt).
    { apply validate_accepts; auto.
      - apply Hreq.
      - intros c x Hc Hs. apply Hsame. apply Hsame in Hc. eauto. }
    assert (H' : (on_st (pc_set_sname cls pname) ;;
      let! sn := gets (fun s => pc_sname cls (ps_st s) pname) in
      lift (validate_cpus_vs_scope cls sn l) ;;
      set_prop_cpus_mnames cls pname v l ms) s = (r, s')) by (destruct l; [congruence|exact H]).
    clear H. unfold mbind at 1 in H'. unfold on_st at 1 in H'. unfold scope_known in Hk. rewrite Hk in H'.
    unfold mbind at 1, gets in H'. cbv beta iota in H'. cbn [ps_st] in H'. rewrite Hsn in H'.
    apply lift_bind in H' as [(? & _ & H')|(e & He & _)]; [|congruence].
    unfold set_prop_cpus_mnames in H'.
    apply lift_bind in H' as [(p & Hp & H')|(e & He & _)].
    2: { exfalso. apply Hb. left. unfold prop_of in He. now destruct (dget _ _ _). }
    assert (Ef : match l with [] => EIndex | _ => ENotSupported end = ENotSupported) by (now destruct l).
    rewrite Ef in H'. destruct (set_loop_any _ _ _ _ _ _ _ _ H') as (tried & Ho & Hg & Hs). cbn [ps_st ps_gets ps_sets] in *.
    exists v0, v, l, (or_default p ms), tried. split; [exact Ev0|]. split; [exact En|]. split; [exact Hreq|].
    split; [|auto]. apply (normalize_mnames_allowed cls _ _ _ _ Ems). unfold prop_of in Hp.
    destruct (dget _ _ _); congruence.
  Qed.
End Outcome.
