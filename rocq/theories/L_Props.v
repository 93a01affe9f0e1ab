(** Lemmas for C18-C21, C47. *)
From Verif Require Import Base L_Base L_Monad M_CPUInfo S_CPUInfo L_CPUInfo L_CPUInfo2 L_Text M_Props S_Props.
From Coq Require Import Sorted ZifyBool.

Lemma last_In_cons {A} (d m : A) t : In (last (m :: t) d) (m :: t).
Proof.
  revert m. induction t as [|y t IH]; intros m; [now left|].
  change (In (last (y :: t) d) (m :: y :: t)). right. apply IH.
Qed.

Section Loops.
  Context {St V : Type}.
  Variable cls : pclass St V.

  Section Gen.
    Context {K : Type}.
    Variable g : Z -> St -> gen (K * option V).

    Lemma pv_loop_spec pname : forall ms s r s',
      pv_loop g pname ms s = (r, s') ->
      ps_st s' = ps_st s /\ ps_sets s' = ps_sets s /\
      match r with
      | Ok (Some out) => exists pre m post vals, ms = pre ++ m :: post /\
          Forall (fun x => g x (ps_st s) = ([], Some ENotSupported)) pre /\
          g m (ps_st s) = (vals, None) /\
          out = map (fun kv => PV pname (fst kv) m (snd kv)) vals /\
          ps_gets s' = ps_gets s ++ pre ++ [m]
      | Ok None => Forall (fun x => g x (ps_st s) = ([], Some ENotSupported)) ms /\
          ps_gets s' = ps_gets s ++ ms
      | Exn e => exists pre m post vals e', ms = pre ++ m :: post /\
          Forall (fun x => g x (ps_st s) = ([], Some ENotSupported)) pre /\
          g m (ps_st s) = (vals, Some e') /\
          ps_gets s' = ps_gets s ++ pre ++ [m] /\
          (e' <> ENotSupported /\ e = e' \/ e' = ENotSupported /\ vals <> [] /\ e = EError)
      end.
    Proof.
      induction ms as [|m rest IH]; intros s r s' H; cbn [pv_loop] in H.
      - apply pair_equal_spec in H as [<- <-]. rewrite app_nil_r. auto.
      - unfold mbind, log_get, modify in H. cbn [ps_st] in H.
        destruct (g m (ps_st s)) as [vals [e|]] eqn:Eg.
        + assert (Hc : e <> ENotSupported \/ e = ENotSupported)
            by (destruct e; (left; discriminate) || (right; reflexivity)).
          destruct Hc as [Hc|Hc].
          { assert (Hx : (Exn e, PS (ps_st s) (ps_gets s ++ [m]) (ps_sets s)) = (r, s'))
              by (destruct e; try (destruct vals; exact H); now destruct Hc).
            apply pair_equal_spec in Hx as [<- <-]. cbn [ps_st ps_sets ps_gets].
            split; [reflexivity|]. split; [reflexivity|].
            exists [], m, rest, vals, e. split; [reflexivity|]. split; [constructor|].
            split; [exact Eg|]. split; [reflexivity|]. left. split; [exact Hc|reflexivity]. }
          subst e.
          destruct vals as [|v0 vt].
          * destruct (IH _ _ _ H) as (H1 & H2 & H3). cbn [ps_st ps_sets ps_gets] in *.
            split; [exact H1|]. split; [exact H2|]. destruct r as [[out|]|e].
            -- destruct H3 as (pre & m' & post & vals & -> & Hp & Hg & -> & Hl).
               exists (m :: pre), m', post, vals. split; [reflexivity|].
               split; [constructor; assumption|]. split; [exact Hg|]. split; [reflexivity|].
               rewrite Hl. now rewrite <- app_assoc.
            -- destruct H3 as (Hp & Hl). split; [constructor; assumption|].
               rewrite Hl. now rewrite <- app_assoc.
            -- destruct H3 as (pre & m' & post & vals & e' & -> & Hp & Hg & Hl & He).
               exists (m :: pre), m', post, vals, e'. split; [reflexivity|].
               split; [constructor; assumption|]. split; [exact Hg|]. split; [|exact He].
               rewrite Hl. now rewrite <- app_assoc.
          * apply pair_equal_spec in H as [<- <-]. cbn [ps_st ps_sets ps_gets].
            split; [reflexivity|]. split; [reflexivity|].
            exists [], m, rest, (v0 :: vt), ENotSupported. split; [reflexivity|]. split; [constructor|].
            split; [exact Eg|]. split; [reflexivity|]. right. repeat split. discriminate.
        + assert (Hx : (Ok (Some (map (fun kv => PV pname (fst kv) m (snd kv)) vals)),
                        PS (ps_st s) (ps_gets s ++ [m]) (ps_sets s)) = (r, s')) by (destruct vals; exact H).
          clear H. apply pair_equal_spec in Hx as [<- <-]. cbn [ps_st ps_sets ps_gets].
          split; [reflexivity|]. split; [reflexivity|].
          exists [], m, rest, vals. split; [reflexivity|]. split; [constructor|]. auto.
    Qed.

    (** The loop, run forward. *)
    Lemma pv_loop_run pname pre m post vals : forall s,
      Forall (fun x => g x (ps_st s) = ([], Some ENotSupported)) pre ->
      g m (ps_st s) = (vals, None) ->
      pv_loop g pname (pre ++ m :: post) s =
        (Ok (Some (map (fun kv => PV pname (fst kv) m (snd kv)) vals)),
         PS (ps_st s) (ps_gets s ++ pre ++ [m]) (ps_sets s)).
    Proof.
      induction pre as [|x pre IH]; intros s Hp Hg; cbn [app pv_loop]; unfold mbind, log_get, modify; cbn [ps_st].
      - rewrite Hg. now destruct vals.
      - inversion Hp as [|? ? Hx Hp']. subst. rewrite Hx.
        rewrite (IH (PS (ps_st s) (ps_gets s ++ [x]) (ps_sets s)) Hp' Hg).
        cbn [ps_gets ps_st ps_sets]. now rewrite <- app_assoc.
    Qed.

    Lemma pv_loop_none pname ms : forall s,
      Forall (fun x => g x (ps_st s) = ([], Some ENotSupported)) ms ->
      pv_loop g pname ms s = (Ok None, PS (ps_st s) (ps_gets s ++ ms) (ps_sets s)).
    Proof.
      induction ms as [|x ms IH]; intros s Hp; cbn [pv_loop].
      - rewrite app_nil_r. now destruct s.
      - inversion Hp as [|? ? Hx Hp']. subst. unfold mbind, log_get, modify. cbn [ps_st]. rewrite Hx.
        rewrite (IH (PS (ps_st s) (ps_gets s ++ [x]) (ps_sets s)) Hp').
        cbn [ps_gets ps_st ps_sets]. now rewrite <- app_assoc.
    Qed.

    Lemma pv_get_spec keys pname ms rns i0 s out s' :
      pv_get cls g keys pname ms rns i0 s = (Ok out, s') ->
      exists p, dget Z.eqb (pc_props cls) pname = Some p /\
      let l := or_default p ms in
      ps_st s' = ps_st s /\ ps_sets s' = ps_sets s /\
      ((exists pre m post vals, l = pre ++ m :: post /\
          Forall (fun x => g x (ps_st s) = ([], Some ENotSupported)) pre /\
          g m (ps_st s) = (vals, None) /\
          out = map (fun kv => PV pname (fst kv) m (snd kv)) vals /\
          ps_gets s' = ps_gets s ++ pre ++ [m]) \/
       (rns = false /\ Forall (fun x => g x (ps_st s) = ([], Some ENotSupported)) l /\
          (exists m, In m l /\ out = map (fun k => PV pname k m None) keys) /\
          ps_gets s' = ps_gets s ++ l)).
    Proof.
      unfold pv_get. unfold mbind at 1, lift at 1.
      destruct (dget Z.eqb (pc_props cls) pname) as [p|]; [|discriminate]. intros H.
      exists p. split; [reflexivity|]. cbv zeta. unfold mbind at 1 in H.
      destruct (pv_loop g pname (or_default p ms) s) as [r s1] eqn:E.
      pose proof (pv_loop_spec _ _ _ _ _ E) as (H1 & H2 & H3). destruct r as [[o|]|e]; [| |discriminate].
      - apply pair_equal_spec in H as [Ho <-]. injection Ho as <-.
        split; [exact H1|]. split; [exact H2|]. left. exact H3.
      - destruct (or_default p ms) as [|m0 mt] eqn:Eo; [discriminate|].
        destruct (i0 && _); [discriminate|]. destruct rns; [discriminate|].
        apply pair_equal_spec in H as [Ho <-]. injection Ho as <-.
        split; [exact H1|]. split; [exact H2|]. right. split; [reflexivity|].
        destruct H3 as (H3 & H4). split; [exact H3|]. split; [|exact H4].
        exists (last (m0 :: mt) m0). split; [|reflexivity].
        apply last_In_cons.
    Qed.
  End Gen.

  Lemma normalize_mnames_allowed pname mnames ro ms :
    normalize_mnames cls pname mnames ro = Ok ms ->
    forall p, dget Z.eqb (pc_props cls) pname = Some p -> allowed cls pname mnames (or_default p ms).
  Proof.
    unfold normalize_mnames. intros H p Hp. rewrite Hp in H. exists p. split; [exact Hp|].
    destruct mnames as [l|].
    - destruct (rmap l _); [|discriminate]. injection H as <-. destruct l as [|x t]; [reflexivity|].
      assert (E : or_default p (dedup (x :: t)) = dedup (x :: t)) by reflexivity.
      rewrite E. split; [intros m; apply dedup_In|apply dedup_in_order].
    - injection H as <-. unfold or_default. now destruct (pd_mnames p) eqn:E.
  Qed.

  Lemma lift_bind {A B S} (r : res A) (f : A -> M S B) (s s' : S) (y : res B) :
    mbind (lift r) f s = (y, s') ->
    (exists a, r = Ok a /\ f a s = (y, s')) \/ (exists e, r = Exn e /\ y = Exn e /\ s' = s).
  Proof.
    unfold mbind, lift. destruct r as [a|e]; intros H; [left; eauto|].
    right. exists e. apply pair_equal_spec in H as [<- <-]. auto.
  Qed.

  Lemma normalize_cpus_req cpus l :
    wf_ci (pc_ci cls) -> normalize_cpus (pc_ci cls) cpus false = Ok l -> req_cpus cls cpus l.
  Proof.
    intros Hwf H. destruct cpus as [l0|].
    - destruct (normalize_cpus_ok_l _ _ _ _ H) as (H1 & H2 & H3). split; [|split].
      + now apply in_order_NoDup in H3.
      + exact H2.
      + exact H1.
    - injection H as <-. split; [|split].
      + eapply Permutation_NoDup; [apply Permutation_sym, zsort_perm|apply (wf_online_nodup _ Hwf)].
      + intros c. now rewrite zsort_In.
      + intros c. now rewrite zsort_In.
  Qed.

  Lemma on_st_run {A} (m : M St A) (s : pst St V) r s' :
    on_st m s = (r, s') ->
    m (ps_st s) = (r, ps_st s') /\ ps_gets s' = ps_gets s /\ ps_sets s' = ps_sets s.
  Proof.
    unfold on_st. destruct (m (ps_st s)) as [r0 st]. intros H. apply pair_equal_spec in H as [<- <-]. auto.
  Qed.

  Lemma try_set_sname_run pname (s : pst St V) r s' :
    try_set_sname cls pname s = (r, s') ->
    ps_gets s' = ps_gets s /\ ps_sets s' = ps_sets s /\
    match r with
    | Ok true => scope_known cls pname (ps_st s) (ps_st s')
    | Ok false => scope_unsupported cls pname (ps_st s) (ps_st s')
    | Exn e => pc_set_sname cls pname (ps_st s) = (Exn e, ps_st s') /\ e <> ENotSupported
    end.
  Proof.
    unfold try_set_sname. destruct (on_st (pc_set_sname cls pname) s) as [r0 s0] eqn:E.
    destruct (on_st_run _ _ _ _ E) as (H1 & H2 & H3). destruct r0 as [[]|e].
    - intros H. apply pair_equal_spec in H as [<- <-]. auto.
    - intros H. assert (Hx : (r = Ok false /\ e = ENotSupported \/ r = Exn e /\ e <> ENotSupported) /\ s0 = s').
      { destruct e; apply pair_equal_spec in H as [<- <-]; split; try reflexivity; first [now left|right; split; [reflexivity|discriminate]]. }
      destruct Hx as [Hx ->]. split; [exact H2|]. split; [exact H3|].
      destruct Hx as [[-> ->]|[-> Hn]]; [exact H1|auto].
  Qed.

  Lemma map_PV {K} pname m (vals : list (K * option V)) :
    map (fun pv => (pv_key pv, pv_val pv)) (map (fun kv => PV pname (fst kv) m (snd kv)) vals) = vals.
  Proof. rewrite map_map. cbn. rewrite <- (map_id vals) at 2. apply map_ext. now intros []. Qed.

  Lemma get_prop_cpus_l pname cpus mnames s out s' :
    wf_ci (pc_ci cls) -> one_value_per_cpu cls ->
    get_prop_cpus cls pname cpus mnames s = (Ok out, s') ->
    exists l, req_cpus cls cpus l /\ map pv_key out = l /\ Forall (fun pv => pv_pname pv = pname) out /\
      ps_sets s' = ps_sets s /\
      (l = [] /\ s' = s \/ exists ms, allowed cls pname mnames ms /\
        ((scope_known cls pname (ps_st s) (ps_st s') /\ exists pre m vals,
            tried_first ms pre m /\ Forall (lacks cls (ps_st s') pname l) pre /\
            gives cls (ps_st s') pname l m vals /\
            map (fun pv => (pv_key pv, pv_val pv)) out = vals /\
            Forall (fun pv => pv_mname pv = m) out /\
            ps_gets s' = ps_gets s ++ pre ++ [m]) \/
         (scope_known cls pname (ps_st s) (ps_st s') /\ Forall (lacks cls (ps_st s') pname l) ms /\
            Forall (fun pv => pv_val pv = None) out /\ ps_gets s' = ps_gets s ++ ms) \/
         (scope_unsupported cls pname (ps_st s) (ps_st s') /\
            Forall (fun pv => pv_val pv = None) out /\ ps_gets s' = ps_gets s))).
  Proof.
    intros Hwf Hone H. unfold get_prop_cpus in H.
    apply lift_bind in H as [(p & Hp & H)|(e & _ & [=] & _)].
    apply lift_bind in H as [(ms & Hms & H)|(e & _ & [=] & _)].
    apply lift_bind in H as [(l & Hl & H)|(e & _ & [=] & _)].
    exists l. pose proof (normalize_cpus_req _ _ Hwf Hl) as Hreq. split; [exact Hreq|].
    assert (Hpd : dget Z.eqb (pc_props cls) pname = Some p).
    { unfold validate_pname in Hp. destruct (dget _ _ _); [now injection Hp as ->|discriminate]. }
    pose proof (normalize_mnames_allowed _ _ _ _ Hms p Hpd) as Hal.
    destruct l as [|c0 lt].
    { apply pair_equal_spec in H as [Ho <-]. injection Ho as <-.
      split; [reflexivity|]. split; [constructor|]. split; [reflexivity|]. left. auto. }
    remember (c0 :: lt) as l eqn:El.
    assert (H' : (let! known := try_set_sname cls pname in
                  if known then get_pvinfo_cpus cls pname l ms false
                  else let! m := lift (last_mname ms) in ret (map (fun c => PV pname c m None) l)) s = (Ok out, s'))
      by (subst l; exact H).
    clear H El c0 lt. unfold mbind at 1 in H'.
    destruct (try_set_sname cls pname s) as [[[]|e] s1] eqn:Es; [| |discriminate].
    - destruct (try_set_sname_run _ _ _ _ Es) as (G1 & G2 & G3).
      unfold get_pvinfo_cpus in H'. apply pv_get_spec in H' as (p' & Hp' & S1 & S2 & Hc).
      rewrite Hpd in Hp'. injection Hp' as <-. rewrite S1 in *. 
      destruct Hc as [(pre & m & post & vals & E & Hpre & Hg & -> & Hlog)|(_ & Hall & (m & Hm & ->) & Hlog)].
      + split. { rewrite map_map. cbn. exact (Hone _ _ _ _ _ Hg). }
        split. { apply Forall_map. cbn. apply Forall_forall. auto. }
        split; [congruence|]. right. exists (or_default p ms). split; [exact Hal|]. left.
        split; [exact G3|]. exists pre, m, vals. split; [now exists post|].
        split; [exact Hpre|]. split; [exact Hg|]. split; [apply map_PV|].
        split; [apply Forall_map; cbn; apply Forall_forall; auto|]. congruence.
      + split. { rewrite map_map. cbn. apply map_id. }
        split. { apply Forall_map. cbn. apply Forall_forall. auto. }
        split; [congruence|]. right. exists (or_default p ms). split; [exact Hal|]. right. left.
        split; [exact G3|]. split; [exact Hall|].
        split; [apply Forall_map; cbn; apply Forall_forall; auto|]. congruence.
    - destruct (try_set_sname_run _ _ _ _ Es) as (G1 & G2 & G3).
      apply lift_bind in H' as [(m & Hm & H')|(e & _ & [=] & _)].
      apply pair_equal_spec in H' as [Ho <-]. injection Ho as <-.
      split. { rewrite map_map. cbn. apply map_id. }
      split. { apply Forall_map. cbn. apply Forall_forall. auto. }
      split; [exact G2|]. right. exists (or_default p ms). split; [exact Hal|]. right. right.
      split; [exact G3|]. split; [apply Forall_map; cbn; apply Forall_forall; auto|exact G1].
  Qed.

  Lemma rmap_exn {A B} (f : A -> res B) l e : rmap l f = Exn e -> exists x, In x l /\ f x = Exn e.
  Proof.
    induction l as [|x t IH]; cbn; [discriminate|].
    destruct (f x) as [y|e'] eqn:E; cbn [rbind].
    - destruct (rmap t f) eqn:Er; cbn [rbind]; [discriminate|]. intros [= ->].
      destruct (IH eq_refl) as (z & Hz & Ez). eauto.
    - intros [= ->]. eauto.
  Qed.

  Lemma get_prop_cpus_fails_l pname cpus mnames s e s' :
    get_prop_cpus cls pname cpus mnames s = (Exn e, s') ->
    ps_sets s' = ps_sets s /\
    (bad_read_args cls pname cpus mnames /\ s' = s \/
     (exists x, pc_set_sname cls pname (ps_st s) = (Exn x, ps_st s') /\ (x = e \/ x = ENotSupported /\ e = EIndex /\
        (mnames = Some [] \/ allowed cls pname mnames []))) \/
     exists l ms, normalize_cpus (pc_ci cls) cpus false = Ok l /\ allowed cls pname mnames ms /\
       scope_known cls pname (ps_st s) (ps_st s') /\
       (ms = [] \/ exists pre m vals e', tried_first ms pre m /\ Forall (lacks cls (ps_st s') pname l) pre /\
          pc_get cls pname l m (ps_st s') = (vals, Some e') /\
          ps_gets s' = ps_gets s ++ pre ++ [m] /\
          (e = e' /\ e' <> ENotSupported \/ e = EError /\ e' = ENotSupported /\ vals <> []))).
  Proof.
    intros H. unfold get_prop_cpus in H.
    apply lift_bind in H as [(p & Hp & H)|(e' & Hp & _ & ->)].
    2: { split; [reflexivity|]. left. split; [|reflexivity]. left. unfold validate_pname in Hp.
         now destruct (dget _ _ _). }
    assert (Hpd : dget Z.eqb (pc_props cls) pname = Some p).
    { unfold validate_pname in Hp. destruct (dget _ _ _); [now injection Hp as ->|discriminate]. }
    apply lift_bind in H as [(ms & Hms & H)|(e' & Hms & _ & ->)].
    2: { split; [reflexivity|]. left. split; [|reflexivity]. right. left. unfold normalize_mnames in Hms.
         rewrite Hpd in Hms. destruct mnames as [l|]; [|discriminate].
         destruct (rmap l _) eqn:Er; [discriminate|]. apply rmap_exn in Er as (m & Hm & Em).
         exists p, l, m. repeat split; auto. intros Hin. unfold validate_mname in Em.
         rewrite (proj2 (inb_In _ _) Hin) in Em. cbn in Em. destruct (dget _ _ m); discriminate. }
    apply lift_bind in H as [(l & Hl & H)|(e' & Hl & _ & ->)].
    2: { split; [reflexivity|]. left. split; [|reflexivity]. right. right. destruct cpus as [l|]; [|discriminate].
         destruct (proj1 (normalize_cpus_fails_l (pc_ci cls) l false) (ex_intro _ _ Hl)) as (c & Hc & Hn).
         exists l, c. auto. }
    pose proof (normalize_mnames_allowed _ _ _ _ Hms p Hpd) as Hal.
    destruct l as [|c0 lt]; [discriminate|].
    remember (c0 :: lt) as l eqn:El.
    assert (H' : (let! known := try_set_sname cls pname in
                  if known then get_pvinfo_cpus cls pname l ms false
                  else let! m := lift (last_mname ms) in ret (map (fun c => PV pname c m None) l)) s = (Exn e, s'))
      by (subst l; exact H).
    clear H. unfold mbind at 1 in H'.
    destruct (try_set_sname cls pname s) as [[[]|e0] s1] eqn:Es.
    - destruct (try_set_sname_run _ _ _ _ Es) as (G1 & G2 & G3).
      unfold get_pvinfo_cpus, pv_get in H'. rewrite Hpd in H'. unfold mbind at 1, lift in H'. cbv beta iota zeta in H'.
      unfold mbind in H'. destruct (pv_loop (pc_get cls pname l) pname (or_default p ms) s1) as [r s2] eqn:Ev.
      destruct (pv_loop_spec _ _ _ _ _ _ Ev) as (V1 & V2 & V3).
      destruct r as [[o|]|e1].
      + discriminate.
      + assert (s2 = s' /\ or_default p ms = []) as [<- Em].
        { subst l. destruct (or_default p ms); [|discriminate]. apply pair_equal_spec in H' as [_ <-]. auto. }
        split; [congruence|]. right. right. exists l, (or_default p ms). split; [exact Hl|].
        split; [exact Hal|]. split; [now rewrite V1|]. now left.
      + apply pair_equal_spec in H' as [He <-]. injection He as <-.
        split; [congruence|]. right. right. exists l, (or_default p ms). split; [exact Hl|].
        split; [exact Hal|]. split; [now rewrite V1|]. right.
        destruct V3 as (pre & m & post & vals & e' & E & Hpre & Hg & Hlog & He).
        rewrite V1. exists pre, m, vals, e'. split; [now exists post|]. split; [exact Hpre|].
        split; [exact Hg|]. split; [congruence|]. intuition congruence.
    - destruct (try_set_sname_run _ _ _ _ Es) as (G1 & G2 & G3).
      apply lift_bind in H' as [(m & Hm & H')|(e' & Hm & He & ->)]; [discriminate|].
      split; [exact G2|]. destruct ms as [|m0 mt]; [|discriminate]. injection Hm as <-. injection He as ->.
      unfold normalize_mnames in Hms. rewrite Hpd in Hms. destruct mnames as [l1|].
      + destruct (rmap l1 _); [|discriminate]. injection Hms as Hd. destruct l1; [|discriminate].
        right. left. exists ENotSupported. split; [exact G3|]. auto.
      + right. left. exists ENotSupported. split; [exact G3|]. right. split; [reflexivity|].
        split; [reflexivity|]. right. unfold or_default in Hal. injection Hms as Hd. now rewrite Hd in Hal.
    - destruct (try_set_sname_run _ _ _ _ Es) as (G1 & G2 & G3 & G4).
      apply pair_equal_spec in H' as [He <-]. injection He as <-.
      split; [exact G2|]. right. left. exists e0. auto.
  Qed.

  (** Raising instead of answering None. *)
  Lemma get_pvinfo_raises_l pname cpus mnames s p :
    dget Z.eqb (pc_props cls) pname = Some p -> cpus <> [] -> mnames <> [] ->
    Forall (lacks cls (ps_st s) pname cpus) mnames ->
    get_pvinfo_cpus cls pname cpus mnames true s =
      (Exn ENotSupported, PS (ps_st s) (ps_gets s ++ mnames) (ps_sets s)).
  Proof.
    intros Hp Hc Hm Hall. unfold get_pvinfo_cpus, pv_get. rewrite Hp.
    unfold mbind at 1, lift. cbv beta iota zeta. unfold mbind.
    assert (E : or_default p mnames = mnames) by (destruct mnames; [congruence|reflexivity]).
    rewrite E, pv_loop_none by exact Hall. destruct mnames; [congruence|]. destruct cpus; [congruence|]. reflexivity.
  Qed.

  (** ** C19 *)
  Lemma do_set_run pname v cpus m s r s' :
    do_set cls pname v cpus m s = (r, s') ->
    pc_set cls pname v cpus m (ps_st s) = (r, ps_st s') /\ ps_gets s' = ps_gets s /\
    ps_sets s' = ps_sets s ++ [(m, v, cpus)].
  Proof.
    unfold do_set, mbind, modify. intros H. destruct (on_st_run _ _ _ _ H) as (H1 & H2 & H3). auto.
  Qed.

  Lemma set_loop_ok pname v cpus fail : forall ms s m s',
    set_loop (do_set cls pname v cpus) fail ms s = (Ok m, s') ->
    exists pre st2, tried_first ms pre m /\ all_refuse cls pname v cpus pre (ps_st s) st2 /\
      pc_set cls pname v cpus m st2 = (Ok tt, ps_st s') /\ ps_gets s' = ps_gets s /\
      ps_sets s' = ps_sets s ++ map (fun x => (x, v, cpus)) (pre ++ [m]).
  Proof.
    induction ms as [|m0 rest IH]; intros s m s' H; cbn [set_loop] in H; [discriminate|].
    destruct (do_set cls pname v cpus m0 s) as [[[]|e] s1] eqn:E;
      destruct (do_set_run _ _ _ _ _ _ _ E) as (H1 & H2 & H3).
    - apply pair_equal_spec in H as [Hm <-]. injection Hm as <-.
      exists [], (ps_st s). split; [now exists rest|]. split; [constructor|]. auto.
    - assert (Hx : (e = ENotSupported \/ e = ETryAnother) /\
                   set_loop (do_set cls pname v cpus) fail rest s1 = (Ok m, s')).
      { destruct e; try discriminate; auto. }
      destruct Hx as [Hx Hl]. destruct (IH _ _ _ Hl) as (pre & st2 & (post & ->) & Hr & Hs & Hg & Hlog).
      exists (m0 :: pre), st2. split; [now exists post|]. split.
      { econstructor; [|exact Hr]. unfold refuses. destruct Hx as [-> | ->]; auto. }
      split; [exact Hs|]. split; [congruence|]. rewrite Hlog, H3. cbn [app map]. now rewrite <- app_assoc.
  Qed.

  Lemma all_refuse_clean pname v cpus pre st st2 :
    refusal_is_clean cls -> all_refuse cls pname v cpus pre st st2 -> st2 = st.
  Proof.
    intros Hc H. induction H as [|m ms st st1 st2 Hr H IH]; [reflexivity|].
    rewrite IH. exact (Hc _ _ _ _ _ _ Hr).
  Qed.

  Lemma normalize_inprop_ok pname val v :
    normalize_inprop cls pname val = Ok v ->
    exists v0 p, val = Some v0 /\ dget Z.eqb (pc_props cls) pname = Some p /\ pd_writable p = true /\
      pc_norm cls pname v0 = Ok v.
  Proof.
    unfold normalize_inprop, validate_pname. destruct (dget _ _ _) as [p|] eqn:E; [|discriminate]. cbn [rbind].
    destruct val as [v0|]; [|discriminate]. destruct (pd_writable p) eqn:Ew; [|discriminate].
    intros H. exists v0, p. auto.
  Qed.

  Lemma set_prop_cpus_l pname val cpus mnames s m s' :
    wf_ci (pc_ci cls) ->
    set_prop_cpus cls pname val cpus mnames s = (Ok m, s') ->
    exists v0 v p l st1 ms pre st2,
      val = Some v0 /\ pc_norm cls pname v0 = Ok v /\
      dget Z.eqb (pc_props cls) pname = Some p /\ pd_writable p = true /\
      req_cpus cls cpus l /\ l <> [] /\ scope_known cls pname (ps_st s) st1 /\
      allowed cls pname mnames ms /\ tried_first ms pre m /\
      all_refuse cls pname v l pre st1 st2 /\
      pc_set cls pname v l m st2 = (Ok tt, ps_st s') /\
      ps_sets s' = ps_sets s ++ map (fun x => (x, v, l)) (pre ++ [m]) /\ ps_gets s' = ps_gets s.
  Proof.
    intros Hwf H. unfold set_prop_cpus in H.
    apply lift_bind in H as [(ms & Hms & H)|(e & _ & [=] & _)].
    apply lift_bind in H as [(v & Hv & H)|(e & _ & [=] & _)].
    apply lift_bind in H as [(l & Hl & H)|(e & _ & [=] & _)].
    destruct (normalize_inprop_ok _ _ _ Hv) as (v0 & p & -> & Hp & Hw & Hn).
    assert (Hne : l <> []) by (destruct l; discriminate).
    assert (H' : (on_st (pc_set_sname cls pname) ;;
      let! sn := gets (fun s => pc_sname cls (ps_st s) pname) in
      lift (validate_cpus_vs_scope cls sn l) ;;
      set_prop_cpus_mnames cls pname v l ms) s = (Ok m, s')) by (destruct l; [congruence|exact H]).
    clear H. unfold mbind at 1 in H'.
    destruct (on_st (pc_set_sname cls pname) s) as [[[]|e] s1] eqn:E1; [|discriminate].
    destruct (on_st_run _ _ _ _ E1) as (K1 & K2 & K3).
    unfold mbind at 1, gets in H'. cbv beta iota in H'.
    apply lift_bind in H' as [(? & Hval & H')|(e & _ & [=] & _)].
    unfold set_prop_cpus_mnames in H'.
    apply lift_bind in H' as [(p' & Hp' & H')|(e & _ & [=] & _)].
    unfold prop_of in Hp'. rewrite Hp in Hp'. injection Hp' as <-.
    destruct (set_loop_ok _ _ _ _ _ _ _ _ H') as (pre & st2 & T & R & S1 & G & L).
    exists v0, v, p, l, (ps_st s1), (or_default p ms), pre, st2.
    split; [reflexivity|]. split; [exact Hn|]. split; [exact Hp|]. split; [exact Hw|].
    split; [now apply normalize_cpus_req|]. split; [exact Hne|]. split; [exact K1|].
    split; [now apply (normalize_mnames_allowed _ _ _ _ Hms)|]. split; [exact T|].
    split; [exact R|]. split; [exact S1|]. split; congruence.
  Qed.

  Lemma bad_write_args_l pname val mnames :
    bad_write_args cls pname val mnames ->
    exists e, normalize_mnames cls pname mnames false = Exn e \/
              (exists ms, normalize_mnames cls pname mnames false = Ok ms) /\ normalize_inprop cls pname val = Exn e.
  Proof.
    intros H. destruct (normalize_mnames cls pname mnames false) as [ms|e] eqn:En; [|exists e; auto].
    assert (HH : exists e, normalize_inprop cls pname val = Exn e); [|destruct HH; eauto].
    unfold normalize_inprop, validate_pname.
    destruct (dget Z.eqb (pc_props cls) pname) as [p|] eqn:Ep; cbn [rbind]; [|eauto].
    destruct H as [H|[(p' & H & Hw)|[->|[(v & e & -> & Hn)|(p' & l & m & H & -> & Hm & Hbad)]]]].
    - congruence.
    - injection (eq_trans (eq_sym Ep) H) as <-. rewrite Hw. destruct val; cbn; eauto.
    - eauto.
    - destruct (pd_writable p); cbn; eauto.
    - injection (eq_trans (eq_sym Ep) H) as <-. exfalso. unfold normalize_mnames in En. rewrite Ep in En.
      destruct (rmap l _) as [us|e] eqn:Er; [|discriminate].
      assert (Hf : exists u, validate_mname cls p false m = Ok u).
      { clear -Er Hm. revert us Er. induction l as [|x t IH]; intros us Er; [destruct Hm|].
        cbn in Er. destruct (validate_mname cls p false x) as [u|] eqn:Ex; [|discriminate]. cbn in Er.
        destruct Hm as [->|Hm]; [eauto|]. destruct (rmap t _) eqn:Et; [|discriminate]. eapply IH; eauto. }
      destruct Hf as (u & Hf). unfold validate_mname in Hf.
      destruct (inb m (pd_mnames p)) eqn:Ei; [|discriminate]. apply inb_In in Ei. cbn in Hf.
      destruct Hbad as [Hb|Hb]; [contradiction|].
      destruct (dget Z.eqb (pc_mechs cls) m) as [[]|]; cbn in Hf; congruence.
  Qed.

  Lemma set_rejects_l pname val mnames s :
    bad_write_args cls pname val mnames ->
    (forall cpus, exists e, set_prop_cpus cls pname val cpus mnames s = (Exn e, s)) /\
    (forall dies, exists e, set_prop_dies cls pname val dies mnames s = (Exn e, s)) /\
    (forall packages, exists e, set_prop_packages cls pname val packages mnames s = (Exn e, s)).
  Proof.
    intros H. destruct (bad_write_args_l _ _ _ H) as (e & He).
    split; [|split]; intros arg; exists e; unfold set_prop_cpus, set_prop_dies, set_prop_packages;
      (destruct He as [He|[(ms & Hms) He]];
       [unfold mbind, lift; now rewrite He
       |unfold mbind at 1, lift at 1; rewrite Hms; unfold mbind at 1, lift at 1; now rewrite He]).
  Qed.

  (** Bad CPU lists, and nothing to write to. *)
  Lemma set_cpus_rejects_l pname val cpus mnames s :
    cpus = [] \/ (exists c, In c cpus /\ ~ In c (ci_online (pc_ci cls))) ->
    exists e, set_prop_cpus cls pname val (Some cpus) mnames s = (Exn e, s).
  Proof.
    intros H. unfold set_prop_cpus, mbind at 1, lift at 1.
    destruct (normalize_mnames _ _ _ _) as [ms|e]; [|eauto].
    unfold mbind at 1, lift at 1. destruct (normalize_inprop _ _ _) as [v|e]; [|eauto].
    unfold mbind at 1, lift at 1. destruct H as [->|(c & Hc & Hn)]; [cbn; unfold throw; eauto|].
    destruct (proj2 (normalize_cpus_fails_l (pc_ci cls) cpus false)) as (e & ->); eauto.
  Qed.
End Loops.
