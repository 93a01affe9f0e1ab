(** Lemmas for C18 and C47 per package and per die, and C20 per die. *)
From Verif Require Import Base L_Base L_Monad M_CPUInfo S_CPUInfo L_CPUInfo L_CPUInfo2 L_Text M_Props S_Props L_Props L_Props2.
From Coq Require Import Sorted ZifyBool.

Lemma nonempty_match {A B} (l : list A) (a b : B) :
  l <> [] -> match l with [] => a | _ :: _ => b end = b.
Proof. now destruct l. Qed.

Section Units.
  Context {St V : Type}.
  Variable cls : pclass St V.
  Let ci := pc_ci cls.
  Let topo := ci_topo ci.
  Hypothesis Hwf : wf_ci ci.
  Hypothesis Hone : one_value_per_cpu cls.

  Lemma gen_map_none {K A} (f : K -> res A) keys vals :
    gen_map f keys = (vals, None) -> map fst vals = keys /\ Forall (fun kv => f (fst kv) = Ok (snd kv)) vals.
  Proof.
    revert vals. induction keys as [|k t IH]; intros vals H; cbn in H.
    - injection H as <-. split; [reflexivity|constructor].
    - destruct (f k) as [v|e] eqn:E; [|discriminate]. destruct (gen_map f t) as [l0 e0].
      injection H as <- ->. destruct (IH l0 eq_refl) as (H1 & H2).
      split; [cbn; now rewrite H1|]. constructor; [exact E|exact H2].
  Qed.

  Lemma gen_map_ns {K A} (f : K -> res A) keys e :
    gen_map f keys = ([], Some e) -> exists k t, keys = k :: t /\ f k = Exn e.
  Proof.
    destruct keys as [|k t]; cbn; [discriminate|]. destruct (f k) as [v|e'] eqn:E.
    - destruct (gen_map f t). discriminate.
    - intros [= ->]. eauto.
  Qed.

  Lemma cpu_prop_1_ok pname cpu m st v :
    cpu_prop_1 cls pname cpu m st = Ok v ->
    (forall vals e, pc_get cls pname [cpu] m st = (vals, e) -> Forall (fun kv => fst kv = cpu) vals) ->
    gives1 cls st pname m cpu v.
  Proof.
    unfold cpu_prop_1. intros H Hk. destruct (pc_get cls pname [cpu] m st) as [[|[c0 v0] rest] e] eqn:E.
    - destruct e; discriminate.
    - injection H as ->. specialize (Hk _ _ eq_refl). inversion Hk as [|? ? Hc _]. cbn in Hc. subst c0.
      exists rest, e. exact E.
  Qed.

  Lemma cpu_prop_1_ns pname cpu m st :
    cpu_prop_1 cls pname cpu m st = Exn ENotSupported -> lacks cls st pname [cpu] m.
  Proof.
    unfold cpu_prop_1, lacks. destruct (pc_get cls pname [cpu] m st) as [[|[c0 v0] rest] [e|]]; try discriminate.
    now intros [= ->].
  Qed.

  (** Reading units: [cpus_of] lists the CPUs of a unit, [P] is the specification of that. *)
  Section Generic.
    Context {K : Type}.
    Variable cpus_of : K -> res (list Z).
    Variable P : K -> Z -> Prop.
    Variable keys : list K.
    Hypothesis Hcpus : forall k r, In k keys -> cpus_of k = Ok r -> StronglySorted Z.lt r /\ forall c, In c r <-> P k c.
    Variable pname : Z.
    Hypothesis Hkeyed : keyed cls.

    Let f (m : Z) (st : St) (k : K) : res (option V) :=
      let? cpus := cpus_of k in let? cpu := first_of cpus in cpu_prop_1 cls pname cpu m st.

    Lemma first_lowest k r cpu : In k keys -> cpus_of k = Ok r -> first_of r = Ok cpu -> lowest (P k) cpu.
    Proof.
      intros Hk Hr Hf. destruct (Hcpus k r Hk Hr) as (S1 & S2). destruct r as [|x t]; [discriminate|].
      injection Hf as ->. eapply first_sorted_lowest; eauto.
    Qed.

    Lemma unit_gives_run m st vals :
      gen_map (f m st) keys = (vals, None) ->
      map fst vals = keys /\ Forall (fun kv => unit_gives cls st pname m (P (fst kv)) (snd kv)) vals.
    Proof.
      intros H. destruct (gen_map_none _ _ _ H) as (H1 & H2). split; [exact H1|].
      rewrite Forall_forall in *. intros kv Hkv. specialize (H2 kv Hkv). unfold f in H2.
      assert (Hk : In (fst kv) keys) by (rewrite <- H1; now apply in_map).
      destruct (cpus_of (fst kv)) as [r|] eqn:Er; [|discriminate]. cbn [rbind] in H2.
      destruct (first_of r) as [cpu|] eqn:Ef; [|discriminate]. cbn [rbind] in H2.
      exists cpu. split; [eapply first_lowest; eauto|]. apply cpu_prop_1_ok; [exact H2|]. apply Hkeyed.
    Qed.

    Lemma unit_lacks_run m st :
      (forall k r, cpus_of k = Exn ENotSupported -> r = k -> ~ In k keys) ->
      gen_map (f m st) keys = ([], Some ENotSupported) ->
      exists k, In k keys /\ unit_lacks cls st pname m (P k).
    Proof.
      intros Hne H. destruct (gen_map_ns _ _ _ H) as (k & t & Ek & Hk).
      assert (Hin : In k keys) by (rewrite Ek; now left). unfold f in Hk.
      destruct (cpus_of k) as [r|e] eqn:Er; cbn [rbind] in Hk.
      2: { injection Hk as ->. exfalso. eapply Hne; eauto. }
      destruct (first_of r) as [cpu|e] eqn:Ef; cbn [rbind] in Hk.
      2: { destruct r; [|discriminate]. injection Ef as <-. discriminate. }
      exists k. split; [exact Hin|]. exists cpu. split; [eapply first_lowest; eauto|].
      now apply cpu_prop_1_ns.
    Qed.
  End Generic.

  (** The agreement check. *)
  Lemma val_eqb_same a b : val_eqb cls a b = true <-> same_value cls a b.
  Proof. destruct a, b; cbn; intuition discriminate. Qed.

  Lemma ioscope_ok pname cpus mnames s s' p :
    veq_equiv cls -> dget Z.eqb (pc_props cls) pname = Some p ->
    validate_prop_vs_ioscope cls pname cpus mnames s = (Ok tt, s') ->
    ps_st s' = ps_st s /\ ps_sets s' = ps_sets s /\
    ((exists pre m vals, tried_first (or_default p mnames) pre m /\ Forall (lacks cls (ps_st s) pname cpus) pre /\
          gives cls (ps_st s) pname cpus m vals /\
          forall a b, In a vals -> In b vals -> same_value cls (snd a) (snd b)) \/
     Forall (lacks cls (ps_st s) pname cpus) (or_default p mnames)).
  Proof.
    intros (Rf & Sy & Tr) Hp H. unfold validate_prop_vs_ioscope, mbind in H.
    destruct (get_pvinfo_cpus cls pname cpus mnames false s) as [[out|e] s1] eqn:E; [|discriminate].
    apply pv_get_spec in E as (p' & Hp' & S1 & S2 & Hc). rewrite Hp in Hp'. injection Hp' as <-.
    assert (s1 = s').
    { destruct out as [|x rest]; [injection H as <-; reflexivity|].
      destruct (forallb _ rest); [injection H as <-; reflexivity|discriminate]. }
    subst s1. split; [exact S1|]. split; [exact S2|].
    destruct Hc as [(pre & m & post & vals & E & Hpre & Hg & -> & _)|(_ & Hall & _)]; [left|now right].
    exists pre, m, vals. split; [now exists post|]. split; [exact Hpre|]. split; [exact Hg|].
    assert (Hx : forall x, In x vals -> forall y t, vals = y :: t -> same_value cls (snd x) (snd y)).
    { intros x Hx y t ->. cbn [map] in H.
      destruct (forallb _ _) eqn:Ef in H; [|discriminate]. rewrite forallb_forall in Ef.
      destruct Hx as [<-|Hx].
      - destruct (snd y); cbn; auto.
      - apply val_eqb_same. apply (Ef (PV pname (fst x) m (snd x))).
        apply (in_map (fun kv => PV pname (fst kv) m (snd kv))) in Hx. exact Hx. }
    intros a b Ha Hb. destruct vals as [|y t]; [destruct Ha|].
    pose proof (Hx a Ha y t eq_refl) as H1. pose proof (Hx b Hb y t eq_refl) as H2.
    destruct (snd a), (snd b), (snd y); cbn in *; try tauto. eapply Tr; [exact H1|]. now apply Sy.
  Qed.

  (** The loop of agreement checks over the units. *)
  Lemma check_loop {K} (keys : list K) (cpus_of : K -> res (list Z)) (sn : option scope) pname ms p s s' :
    veq_equiv cls -> dget Z.eqb (pc_props cls) pname = Some p ->
    mfor keys (fun k =>
          let! io := gets (fun s => pc_iosname cls (ps_st s) pname) in
          if scope_opt_eqb sn io then ret tt
          else let! cpus := lift (cpus_of k) in
               validate_prop_vs_ioscope cls pname cpus ms) s = (Ok tt, s') ->
    ps_st s' = ps_st s /\ ps_sets s' = ps_sets s /\
    (if scope_opt_eqb sn (pc_iosname cls (ps_st s) pname) then ps_gets s' = ps_gets s
     else forall k, In k keys -> exists cpus, cpus_of k = Ok cpus /\
      ((exists pre m vals, tried_first (or_default p ms) pre m /\ Forall (lacks cls (ps_st s) pname cpus) pre /\
          gives cls (ps_st s) pname cpus m vals /\
          forall a b, In a vals -> In b vals -> same_value cls (snd a) (snd b)) \/
       Forall (lacks cls (ps_st s) pname cpus) (or_default p ms))).
  Proof.
    intros Hv Hp. revert s. induction keys as [|k t IH]; intros s H.
    - cbn in H. injection H as <-. split; [reflexivity|]. split; [reflexivity|].
      destruct (scope_opt_eqb _ _); [reflexivity|]. intros k [].
    - cbn [mfor] in H. unfold mbind at 1 in H.
      match type of H with context [match ?e with _ => _ end] => destruct e as [[[]|e0] s1] eqn:E end; [|discriminate].
      unfold mbind at 1, gets in E. cbv beta iota in E.
      destruct (scope_opt_eqb sn (pc_iosname cls (ps_st s) pname)) eqn:Es.
      + injection E as <-. destruct (IH _ H) as (H1 & H2 & H3). rewrite Es in H3. auto.
      + apply lift_bind in E as [(cpus & Hc & E)|(e & _ & [=] & _)].
        destruct (ioscope_ok _ _ _ _ _ _ Hv Hp E) as (I1 & I2 & I3).
        destruct (IH _ H) as (H1 & H2 & H3). rewrite I1, Es in H3.
        split; [congruence|]. split; [congruence|]. intros k' [<-|Hk]; [eauto|auto].
  Qed.

  (** ** Packages *)
  Lemma package_to_cpus_any p r : package_to_cpus ci p = Ok r ->
    StronglySorted Z.lt r /\ forall c, In c r <-> cpu_in_pkg topo p c.
  Proof.
    intros H. change (packages_to_cpus ci (Some [p]) = Ok r) in H.
    destruct (packages_to_cpus_l _ _ _ Hwf H) as (S1 & S2). split; [exact S1|]. intros c. rewrite S2. cbn. split.
    - intros (q & [<-|[]] & Hc). exact Hc.
    - intros Hc. exists p. auto.
  Qed.

  Lemma dies_to_cpus_any pd r : dies_to_cpus ci (Some [snd pd]) (Some [fst pd]) = Ok r ->
    StronglySorted Z.lt r /\ forall c, In c r <-> cpu_in_die topo pd c.
  Proof.
    intros H. destruct (dies_to_cpus_l _ _ _ _ Hwf H) as (S1 & S2). split; [exact S1|].
    intros c. rewrite S2. cbn. destruct pd as [p d]. split.
    - intros (q & e & [<-|[]] & [<-|[]] & Hc). exact Hc.
    - intros Hc. exists p, d. auto.
  Qed.

  Lemma get_prop_packages_l pname packages mnames s out s' :
    keyed cls -> veq_equiv cls ->
    get_prop_packages cls pname packages mnames s = (Ok out, s') ->
    exists l, NoDup l /\ (forall p, In p l <-> is_pkg topo p /\ nums_has packages p) /\
      map pv_key out = l /\ Forall (fun pv => pv_pname pv = pname) out /\ ps_sets s' = ps_sets s /\
      (l = [] /\ s' = s \/ exists ms, allowed cls pname mnames ms /\
        ((scope_unsupported cls pname (ps_st s) (ps_st s') /\
            Forall (fun pv => pv_val pv = None) out /\ ps_gets s' = ps_gets s) \/
         (scope_known cls pname (ps_st s) (ps_st s') /\
          (pc_sname cls (ps_st s') pname = Some SPackage \/ pc_sname cls (ps_st s') pname = Some SGlobal) /\
          (pc_sname cls (ps_st s') pname <> pc_iosname cls (ps_st s') pname ->
             forall p, In p l -> agree cls (ps_st s') pname ms (cpu_in_pkg topo p)) /\
          ((exists pre m, tried_first ms pre m /\
              (forall x, In x pre -> exists p, In p l /\ unit_lacks cls (ps_st s') pname x (cpu_in_pkg topo p)) /\
              Forall (fun pv => pv_mname pv = m /\
                        unit_gives cls (ps_st s') pname m (cpu_in_pkg topo (pv_key pv)) (pv_val pv)) out /\
              (pc_sname cls (ps_st s') pname = pc_iosname cls (ps_st s') pname ->
                 ps_gets s' = ps_gets s ++ pre ++ [m])) \/
           ((forall x, In x ms -> exists p, In p l /\ unit_lacks cls (ps_st s') pname x (cpu_in_pkg topo p)) /\
              Forall (fun pv => pv_val pv = None) out))))).
  Proof.
    intros Hkey Hveq H. unfold get_prop_packages in H.
    apply lift_bind in H as [(p & Hp & H)|(e & _ & [=] & _)].
    apply lift_bind in H as [(ms & Hms & H)|(e & _ & [=] & _)].
    apply lift_bind in H as [(l & Hl & H)|(e & _ & [=] & _)].
    destruct (normalize_packages_req cls Hwf _ _ Hl) as (N1 & N2 & N3).
    assert (Hpd : dget Z.eqb (pc_props cls) pname = Some p).
    { unfold validate_pname in Hp. destruct (dget _ _ _); [now injection Hp as ->|discriminate]. }
    pose proof (normalize_mnames_allowed _ _ _ _ _ Hms p Hpd) as Hal.
    exists l. split; [exact N1|]. split; [exact N3|].
    destruct l as [|c0 lt].
    { apply pair_equal_spec in H as [Ho <-]. injection Ho as <-.
      split; [reflexivity|]. split; [constructor|]. split; [reflexivity|]. left. auto. }
    rename H into H'. set (l := c0 :: lt) in *. clearbody l.
    clear c0 lt. unfold mbind at 1 in H'.
    destruct (try_set_sname cls pname s) as [[[]|e] s1] eqn:Es; [| |discriminate]; cbn [negb] in H';
      destruct (try_set_sname_run _ _ _ _ _ Es) as (G1 & G2 & G3).
    - unfold mbind at 1, gets at 1 in H'. cbv beta iota in H'.
      apply lift_bind in H' as [([] & Hval & H')|(e & _ & [=] & _)].
      unfold mbind at 1 in H'.
      match type of H' with context [match ?e with _ => _ end] => destruct e as [[[]|e0] s2] eqn:Ec end; [|discriminate].
      destruct (check_loop _ _ _ _ _ _ _ _ Hveq Hpd Ec) as (C1 & C2 & C3). clear Ec.
      apply pv_get_spec in H' as (p' & Hp' & S1 & S2 & Hc).
      rewrite Hpd in Hp'. injection Hp' as <-. rewrite S1, C1 in *.
      assert (Hsn : pc_sname cls (ps_st s1) pname = Some SPackage \/ pc_sname cls (ps_st s1) pname = Some SGlobal).
      { unfold validate_prop_vs_scope in Hval. destruct (pc_sname cls (ps_st s1) pname) as [[]|]; try discriminate; auto. }
      assert (Hag : pc_sname cls (ps_st s1) pname <> pc_iosname cls (ps_st s1) pname ->
             forall p0, In p0 l -> agree cls (ps_st s1) pname (or_default p ms) (cpu_in_pkg topo p0)).
      { intros Hne q Hq. destruct (scope_opt_eqb _ _) eqn:Eq in C3.
        - exfalso. apply Hne. destruct (pc_sname cls (ps_st s1) pname) as [[]|], (pc_iosname cls (ps_st s1) pname) as [[]|]; try discriminate; reflexivity.
        - destruct (C3 q Hq) as (cpus & Hcp & Hd). exists cpus. split; [|exact Hd].
          exact (proj2 (package_to_cpus_any _ _ Hcp)). }
      assert (Hgets : pc_sname cls (ps_st s1) pname = pc_iosname cls (ps_st s1) pname -> ps_gets s2 = ps_gets s1).
      { intros Heq. rewrite <- Heq in C3. destruct (scope_opt_eqb _ _) eqn:Eq in C3; [exact C3|].
        exfalso. destruct (pc_sname cls (ps_st s1) pname) as [[]|]; discriminate. }
      assert (Hnx : forall k r : Z, package_to_cpus ci k = Exn ENotSupported -> r = k -> ~ In k l).
      { intros k r Hk _ Hin. destruct (package_to_cpus_l ci k Hwf) as (r0 & Er & _); [now apply N2|]. congruence. }
      assert (Hcp : forall k r, In k l -> package_to_cpus ci k = Ok r ->
                 StronglySorted Z.lt r /\ forall c, In c r <-> cpu_in_pkg topo k c).
      { intros k r _. apply package_to_cpus_any. }
      destruct Hc as [(pre & m & post & vals & E & Hpre & Hg & -> & Hlog)|(_ & Hall & (m & Hm & ->) & Hlog)].
      + destruct (unit_gives_run _ _ l Hcp pname Hkey _ _ _ Hg) as (U1 & U2).
        split. { rewrite map_map. cbn. exact U1. }
        split. { apply Forall_map. cbn. apply Forall_forall. auto. }
        split; [congruence|]. right. exists (or_default p ms). split; [exact Hal|]. right.
        split; [exact G3|]. split; [exact Hsn|]. split; [exact Hag|]. left. exists pre, m.
        split; [now exists post|]. split; [|split].
        * intros x Hx. rewrite Forall_forall in Hpre. exact (unit_lacks_run _ _ l Hcp pname _ _ Hnx (Hpre x Hx)).
        * apply Forall_map. cbn. eapply Forall_impl; [|exact U2]. cbn. auto.
        * intros Heq. rewrite Hlog, Hgets by exact Heq. now rewrite G1.
      + split. { rewrite map_map. cbn. apply map_id. }
        split. { apply Forall_map. cbn. apply Forall_forall. auto. }
        split; [congruence|]. right. exists (or_default p ms). split; [exact Hal|]. right.
        split; [exact G3|]. split; [exact Hsn|]. split; [exact Hag|]. right. split.
        * intros x Hx. rewrite Forall_forall in Hall. exact (unit_lacks_run _ _ l Hcp pname _ _ Hnx (Hall x Hx)).
        * apply Forall_map. cbn. apply Forall_forall. auto.
    - apply lift_bind in H' as [(m & Hm & H')|(e & _ & [=] & _)].
      apply pair_equal_spec in H' as [Ho <-]. injection Ho as <-.
      split. { rewrite map_map. cbn. apply map_id. }
      split. { apply Forall_map. cbn. apply Forall_forall. auto. }
      split; [exact G2|]. right. exists (or_default p ms). split; [exact Hal|]. left.
      split; [exact G3|]. split; [apply Forall_map; cbn; apply Forall_forall; auto|exact G1].
  Qed.

  (** ** Dies *)
  Lemma normalize_dies_arg_l ds nd :
    normalize_dies_arg cls ds = Ok nd ->
    forall pd, In pd nd <-> is_die topo pd /\ die_requested ds pd.
  Proof.
    unfold normalize_dies_arg. fold ci. destruct (normalize_packages ci (Some (map fst ds))) as [pkgs|] eqn:Ep; [|discriminate].
    cbn [rbind]. destruct (normalize_packages_req cls Hwf _ _ Ep) as (N1 & N2 & N3).
    match goal with |- context [rmap pkgs ?f] => destruct (rmap pkgs f) as [ll|] eqn:Er end; [|discriminate].
    cbn [rbind]. intros [= <-] pd. rewrite in_concat.
    assert (Hn : forall p arg l, is_pkg topo p -> normalize_dies ci arg p = Ok l ->
              forall d, In d l <-> is_die topo (p, d) /\ nums_has arg d).
    { intros p arg l Hp H d. unfold normalize_dies in H.
      destruct (package_to_dies_l ci p Hwf Hp) as (av & Ea & _ & Hin). rewrite Ea in H. cbn [rbind] in H.
      destruct arg as [l0|].
      - destruct (normalize_in_ok _ _ _ H) as (-> & Hav). rewrite dedup_In. cbn. split; [|tauto].
        intros Hd. split; [apply Hin; auto|exact Hd].
      - injection H as <-. rewrite Hin. cbn. tauto. }
    split.
    - intros (x & Hx & Hpd). rewrite (rmap_In _ _ _ Er) in Hx. destruct Hx as (p & Hp & Ex).
      destruct (dget Z.eqb ds p) as [arg|] eqn:Ed; [|discriminate].
      destruct (normalize_dies ci arg p) as [l|] eqn:En; [|discriminate]. cbn [rbind] in Ex. injection Ex as <-.
      apply in_map_iff in Hpd as (d & <- & Hd). apply (Hn p arg l (N2 p Hp) En) in Hd as (H1 & H2).
      split; [exact H1|]. exists arg. auto.
    - intros (Hdie & arg & Ed & Hd).
      assert (Hp : In (fst pd) pkgs).
      { apply N3. split; [destruct Hdie as (t & Ht & A & _); now exists t|]. cbn.
        apply (dget_In _ Zeqb_spec) in Ed. now apply (in_map fst) in Ed. }
      destruct (in_split _ _ Hp) as (l1 & l2 & Esp).
      assert (Hex : exists y, (match dget Z.eqb ds (fst pd) with
                 | Some d => let? l := normalize_dies ci d (fst pd) in Ok (map (pair (fst pd)) l)
                 | None => Exn EKey end) = Ok y).
      { clear -Er Esp. subst pkgs. revert ll Er. induction l1 as [|x t IH]; intros ll Er; cbn [app rmap] in Er.
        - match type of Er with rbind ?e _ = _ => destruct e as [y|] eqn:E end; [eauto|discriminate].
        - match type of Er with rbind ?e _ = _ => destruct e as [y|] eqn:E end; [|discriminate]. cbn [rbind] in Er.
          match type of Er with rbind ?e _ = _ => destruct e as [ys|] eqn:E2 end; [|discriminate]. eapply IH; eauto. }
      destruct Hex as (y & Hy). exists y. split. { rewrite (rmap_In _ _ _ Er). exists (fst pd). auto. }
      rewrite Ed in Hy. destruct (normalize_dies ci arg (fst pd)) as [l|] eqn:En; [|discriminate]. cbn [rbind] in Hy.
      injection Hy as <-. destruct pd as [p d]. apply in_map_iff. exists d. split; [reflexivity|].
      apply (Hn p arg l (N2 p Hp) En). auto.
  Qed.

  Lemma get_prop_dies_l pname ds mnames s out s' :
    keyed cls -> veq_equiv cls -> (exists d, In d ds /\ snd d <> Some []) ->
    get_prop_dies cls pname (Some ds) mnames s = (Ok out, s') ->
    (forall pd, In pd (map pv_key out) <-> is_die topo pd /\ die_requested ds pd) /\
    ps_sets s' = ps_sets s /\
    exists ms, allowed cls pname mnames ms /\
        ((scope_unsupported cls pname (ps_st s) (ps_st s') /\
            Forall (fun pv => pv_val pv = None) out /\ ps_gets s' = ps_gets s) \/
         (scope_known cls pname (ps_st s) (ps_st s') /\
          Forall (fun pv => pv_pname pv = pname) out /\
          (exists sc, pc_sname cls (ps_st s') pname = Some sc /\ (sc = SDie \/ sc = SPackage \/ sc = SGlobal)) /\
          (pc_sname cls (ps_st s') pname <> pc_iosname cls (ps_st s') pname ->
             forall pd, In pd (map pv_key out) -> agree cls (ps_st s') pname ms (cpu_in_die topo pd)) /\
          ((exists pre m, tried_first ms pre m /\
              (forall x, In x pre -> exists pd, In pd (map pv_key out) /\ unit_lacks cls (ps_st s') pname x (cpu_in_die topo pd)) /\
              Forall (fun pv => pv_mname pv = m /\
                        unit_gives cls (ps_st s') pname m (cpu_in_die topo (pv_key pv)) (pv_val pv)) out /\
              (pc_sname cls (ps_st s') pname = pc_iosname cls (ps_st s') pname ->
                 ps_gets s' = ps_gets s ++ pre ++ [m])) \/
           ((forall x, In x ms -> exists pd, In pd (map pv_key out) /\ unit_lacks cls (ps_st s') pname x (cpu_in_die topo pd)) /\
              Forall (fun pv => pv_val pv = None) out)))).
  Proof.
    intros Hkey Hveq Hsome H. unfold get_prop_dies in H.
    apply lift_bind in H as [(p & Hp & H)|(e & _ & [=] & _)].
    apply lift_bind in H as [(ms & Hms & H)|(e & _ & [=] & _)].
    apply lift_bind in H as [(nd & Hl & H)|(e & _ & [=] & _)].
    pose proof (normalize_dies_arg_l _ _ Hl) as Hnd.
    assert (Hpd : dget Z.eqb (pc_props cls) pname = Some p).
    { unfold validate_pname in Hp. destruct (dget _ _ _); [now injection Hp as ->|discriminate]. }
    pose proof (normalize_mnames_allowed _ _ _ _ _ Hms p Hpd) as Hal.
    destruct (forallb (fun d => is_empty_dies (snd d)) ds) eqn:Ef.
    { exfalso. destruct Hsome as ([q d] & Hd & Hn). rewrite forallb_forall in Ef. specialize (Ef (q, d) Hd).
      cbn in Ef, Hn. destruct d as [[|x t]|]; [now apply Hn|discriminate Ef|discriminate Ef]. }
    unfold mbind at 1 in H.
    destruct (try_set_sname cls pname s) as [[[]|e] s1] eqn:Es; [| |discriminate]; cbn [negb] in H;
      destruct (try_set_sname_run _ _ _ _ _ Es) as (G1 & G2 & G3).
    - unfold mbind at 1, gets at 1 in H. cbv beta iota in H.
      apply lift_bind in H as [([] & Hval & H)|(e & _ & [=] & _)].
      unfold mbind at 1 in H.
      match type of H with context [match ?e with _ => _ end] => destruct e as [[[]|e0] s2] eqn:Ec end; [|discriminate].
      destruct (check_loop _ (fun pd => dies_to_cpus (pc_ci cls) (Some [snd pd]) (Some [fst pd])) _ _ _ _ _ _ Hveq Hpd Ec) as (C1 & C2 & C3). clear Ec.
      apply pv_get_spec in H as (p' & Hp' & S1 & S2 & Hc).
      rewrite Hpd in Hp'. injection Hp' as <-. rewrite S1, C1 in *.
      assert (Hsn : exists sc, pc_sname cls (ps_st s1) pname = Some sc /\ (sc = SDie \/ sc = SPackage \/ sc = SGlobal)).
      { unfold validate_prop_vs_scope in Hval. destruct (pc_sname cls (ps_st s1) pname) as [[]|]; try discriminate; eauto. }
      assert (Hag : pc_sname cls (ps_st s1) pname <> pc_iosname cls (ps_st s1) pname ->
             forall p0, In p0 nd -> agree cls (ps_st s1) pname (or_default p ms) (cpu_in_die topo p0)).
      { intros Hne q Hq. destruct (scope_opt_eqb _ _) eqn:Eq in C3.
        - exfalso. apply Hne. destruct (pc_sname cls (ps_st s1) pname) as [[]|], (pc_iosname cls (ps_st s1) pname) as [[]|]; try discriminate; reflexivity.
        - destruct (C3 q Hq) as (cpus & Hcp & Hd). exists cpus. split; [|exact Hd].
          exact (proj2 (dies_to_cpus_any _ _ Hcp)). }
      assert (Hgets : pc_sname cls (ps_st s1) pname = pc_iosname cls (ps_st s1) pname -> ps_gets s2 = ps_gets s1).
      { intros Heq. rewrite <- Heq in C3. destruct (scope_opt_eqb _ _) eqn:Eq in C3; [exact C3|].
        exfalso. destruct (pc_sname cls (ps_st s1) pname) as [[]|]; discriminate. }
      assert (Hnx : forall k r : Z * Z, dies_to_cpus ci (Some [snd k]) (Some [fst k]) = Exn ENotSupported -> r = k -> ~ In k nd).
      { intros k r Hk _ Hin. apply Hnd in Hin as (Hin & _).
        destruct (die_cpus_one ci (fst k) (snd k) Hwf) as (r0 & Er & _); [now rewrite <- surjective_pairing|]. congruence. }
      assert (Hcp : forall k r, In k nd -> dies_to_cpus ci (Some [snd k]) (Some [fst k]) = Ok r ->
                 StronglySorted Z.lt r /\ forall c, In c r <-> cpu_in_die topo k c).
      { intros k r _. apply dies_to_cpus_any. }
      destruct Hc as [(pre & m & post & vals & E & Hpre & Hg & -> & Hlog)|(_ & Hall & (m & Hm & ->) & Hlog)].
      + destruct (unit_gives_run (fun k => dies_to_cpus ci (Some [snd k]) (Some [fst k])) _ nd Hcp pname Hkey _ _ _ Hg) as (U1 & U2).
        assert (Hk : map pv_key (map (fun kv => PV pname (fst kv) m (snd kv)) vals) = nd).
        { rewrite map_map. cbn. exact U1. }
        rewrite Hk. split; [exact Hnd|]. split; [congruence|].
        exists (or_default p ms). split; [exact Hal|]. right.
        split; [exact G3|]. split. { apply Forall_map. cbn. apply Forall_forall. auto. }
        split; [exact Hsn|]. split; [exact Hag|]. left. exists pre, m.
        split; [now exists post|]. split; [|split].
        * intros x Hx. rewrite Forall_forall in Hpre. exact (unit_lacks_run _ _ nd Hcp pname _ _ Hnx (Hpre x Hx)).
        * apply Forall_map. cbn. eapply Forall_impl; [|exact U2]. cbn. auto.
        * intros Heq. rewrite Hlog, Hgets by exact Heq. now rewrite G1.
      + assert (Hk : map pv_key (map (fun k => PV (V:=V) pname k m None) nd) = nd).
        { rewrite map_map. cbn. apply map_id. }
        rewrite Hk. split; [exact Hnd|]. split; [congruence|].
        exists (or_default p ms). split; [exact Hal|]. right.
        split; [exact G3|]. split. { apply Forall_map. cbn. apply Forall_forall. auto. }
        split; [exact Hsn|]. split; [exact Hag|]. right. split.
        * intros x Hx. rewrite Forall_forall in Hall. exact (unit_lacks_run _ _ nd Hcp pname _ _ Hnx (Hall x Hx)).
        * apply Forall_map. cbn. apply Forall_forall. auto.
    - apply lift_bind in H as [(m & Hm & H)|(e & _ & [=] & _)].
      apply pair_equal_spec in H as [Ho <-]. injection Ho as <-.
      assert (Hk : map pv_key (map (fun pd => PV (V:=V) (fst pd) pd m None) nd) = nd).
      { rewrite map_map. cbn. apply map_id. }
      rewrite Hk. split; [exact Hnd|]. split; [exact G2|].
      exists (or_default p ms). split; [exact Hal|]. left.
      split; [exact G3|]. split; [apply Forall_map; cbn; apply Forall_forall; auto|exact G1].
  Qed.

  (** ** C20 per die *)
  Lemma C20_dies_l pname val ds mnames s m s' :
    (forall st, pc_iosname cls st pname = Some SModule -> modules_unique topo) ->
    set_prop_dies cls pname val (Some ds) mnames s = (Ok m, s') ->
    let req c := exists pd, die_requested ds pd /\ cpu_in_die topo pd c in
    exists v st2 sets w, ps_sets s' = ps_sets s ++ sets ++ [(m, v, w)] /\
      pc_set cls pname v w m st2 = (Ok tt, ps_st s') /\
      (exists v0, val = Some v0 /\ pc_norm cls pname v0 = Ok v) /\
      (forall x, In x w -> req x) /\
      (forall sc, pc_iosname cls st2 pname = Some sc ->
         forall c, In c w <-> req c /\ lowest (same_unit topo sc c) c) /\
      (pc_iosname cls st2 pname = None -> ~ exists c, req c).
  Proof.
    intros Hmod H req. unfold set_prop_dies in H.
    apply lift_bind in H as [(ms & Hms & H)|(e & _ & [=] & _)].
    apply lift_bind in H as [(v & Hv & H)|(e & _ & [=] & _)].
    apply lift_bind in H as [(nd & Hl & H)|(e & _ & [=] & _)].
    pose proof (normalize_dies_arg_l _ _ Hl) as Hnd.
    destruct (normalize_inprop_ok _ _ _ _ Hv) as (v0 & p & -> & Hp & Hw & Hn).
    destruct (existsb _ ds); [discriminate|].
    assert (H' : (on_st (pc_set_sname cls pname) ;;
      let! sn := gets (fun s => pc_sname cls (ps_st s) pname) in
      lift (validate_prop_vs_scope sn SDie) ;;
      let! p := lift (prop_of cls pname) in
      set_loop (set_units cls pname v (dies_cpus cls nd)) ENotSupported (or_default p ms)) s = (Ok m, s')).
    { destruct ds; [discriminate|exact H]. }
    clear H. unfold mbind at 1 in H'.
    destruct (on_st (pc_set_sname cls pname) s) as [[[]|e] s1] eqn:E1; [|discriminate].
    destruct (on_st_run _ _ _ _ E1) as (K1 & K2 & K3).
    unfold mbind at 1, gets in H'. cbv beta iota in H'.
    apply lift_bind in H' as [([] & Hval & H')|(e & _ & [=] & _)].
    apply lift_bind in H' as [(p' & Hp' & H')|(e & _ & [=] & _)].
    destruct (set_units_loop_ok _ _ _ _ _ _ _ _ _ H') as (pre & st2 & ll & w & calls & T & U1 & U2 & U3 & U4 & U5 & U6).
    assert (Hsel : forall c, In c (concat ll) <-> req c).
    { intros c. rewrite (dies_cpus_l cls Hwf _ _ U1). unfold req. split.
      - intros (q & Hq & Hc). exists q. split; [now apply Hnd|exact Hc].
      - intros (q & Hq & Hc). exists q. split; [|exact Hc]. apply Hnd. split; [|exact Hq].
        destruct Hc as (t & Ht & _ & _ & A & B). now exists t. }
    assert (Hon : forall c, In c (concat ll) -> In c (ci_online ci)).
    { intros c Hc. apply Hsel in Hc as (q & _ & Hc). now apply (in_die_online cls Hwf) in Hc. }
    pose proof (reduce_cpus_l cls Hwf _ _ _ Hon (Hmod st2) U2) as Hred.
    exists v, st2, calls, w. split; [congruence|]. split; [exact U3|]. split; [eauto|]. split; [|split].
    - intros c Hc. apply Hsel. destruct Hred as [(_ & _ & ->)|(sc & _ & Hr)]; [destruct Hc|]. now apply Hr in Hc as (Hc & _).
    - intros sc Hsc c. rewrite <- Hsel. destruct Hred as [(Hno & _)|(sc' & Hsc' & Hr)]; [congruence|].
      rewrite Hsc in Hsc'. injection Hsc' as <-. apply Hr.
    - intros Hno (c & Hc). destruct Hred as [(_ & He & _)|(sc' & Hsc' & _)]; [|congruence].
      apply Hsel in Hc. rewrite He in Hc. contradiction.
  Qed.

  Lemma C20_dies_cover_l pname val ds mnames s m s' :
    (forall st, pc_iosname cls st pname = Some SModule -> modules_unique topo) ->
    (forall st sc c x pd, pc_iosname cls st pname = Some sc -> die_requested ds pd -> cpu_in_die topo pd c ->
       same_unit topo sc c x -> exists pd', die_requested ds pd' /\ cpu_in_die topo pd' x) ->
    set_prop_dies cls pname val (Some ds) mnames s = (Ok m, s') ->
    exists v st2 sets w, ps_sets s' = ps_sets s ++ sets ++ [(m, v, w)] /\
      pc_set cls pname v w m st2 = (Ok tt, ps_st s') /\
      (exists v0, val = Some v0 /\ pc_norm cls pname v0 = Ok v) /\
      (forall pd c, die_requested ds pd -> cpu_in_die topo pd c ->
         exists sc x, pc_iosname cls st2 pname = Some sc /\ In x w /\ same_unit topo sc c x) /\
      (forall x, In x w -> exists pd, die_requested ds pd /\ cpu_in_die topo pd x) /\
      (forall sc x y, pc_iosname cls st2 pname = Some sc -> In x w -> In y w -> same_unit topo sc x y -> x = y).
  Proof.
    intros Hmod Hcl H.
    destruct (C20_dies_l _ _ _ _ _ _ _ Hmod H) as (v & st2 & calls & w & Hlog & Hset & Hv & Hin & Hw & Hno).
    exists v, st2, calls, w. split; [exact Hlog|]. split; [exact Hset|]. split; [exact Hv|]. split; [|split; [exact Hin|]].
    - intros pd c Hp Hc. destruct (pc_iosname cls st2 pname) as [sc|] eqn:Eio.
      2: { exfalso. apply Hno; [reflexivity|]. exists c, pd. auto. }
      assert (Hs : sc_ok cls sc) by (intros ->; exact (Hmod st2 Eio)).
      destruct (lowest_exists cls Hwf sc c Hs (in_die_online cls Hwf _ _ Hc)) as (x & Lx).
      exists sc, x. split; [reflexivity|]. split; [|apply Lx]. apply (Hw sc eq_refl). split.
      + eapply Hcl; eauto. apply Lx.
      + eapply lowest_ext; [|exact Lx]. apply (unit_ext cls Hwf), Lx.
    - intros sc x y Eio Hx Hy Hs. apply (Hw sc Eio) in Hx as (_ & Lx). apply (Hw sc Eio) in Hy as (_ & Ly).
      eapply lowest_unique; [exact Lx|]. eapply lowest_ext; [|exact Ly].
      apply (unit_ext cls Hwf). now apply same_unit_sym.
  Qed.
End Units.

(** C47 *)
Lemma packages_agree_l {St V} (cls : pclass St V) pname packages mnames s out s' st :
  wf_ci (pc_ci cls) -> keyed cls -> veq_equiv cls ->
  get_prop_packages cls pname packages mnames s = (Ok out, s') ->
  scope_known cls pname (ps_st s) st -> pc_sname cls st pname <> pc_iosname cls st pname ->
  forall pv, In pv out -> exists ms, allowed cls pname mnames ms /\
    agree cls st pname ms (cpu_in_pkg (ci_topo (pc_ci cls)) (pv_key pv)).
Proof.
  intros Hwf Hk Hv H Hs Hne pv Hpv.
  destruct (get_prop_packages_l cls Hwf _ _ _ _ _ _ Hk Hv H) as (l & _ & _ & Hl & _ & _ & Hc).
  apply (in_map pv_key) in Hpv. rewrite Hl in Hpv.
  destruct Hc as [(-> & _)|(ms & Ha & [(Hu & _)|(Hkn & _ & Hag & _)])]; [destruct Hpv| |].
  - unfold scope_known, scope_unsupported in *. congruence.
  - assert (ps_st s' = st) by (unfold scope_known in *; congruence). subst st. eauto.
Qed.

Lemma dies_agree_l {St V} (cls : pclass St V) pname ds mnames s out s' st :
  wf_ci (pc_ci cls) -> keyed cls -> veq_equiv cls ->
  get_prop_dies cls pname (Some ds) mnames s = (Ok out, s') ->
  scope_known cls pname (ps_st s) st -> pc_sname cls st pname <> pc_iosname cls st pname ->
  forall pv, In pv out -> exists ms, allowed cls pname mnames ms /\
    agree cls st pname ms (cpu_in_die (ci_topo (pc_ci cls)) (pv_key pv)).
Proof.
  intros Hwf Hk Hv H Hs Hne pv Hpv.
  destruct (forallb (fun d => is_empty_dies (snd d)) ds) eqn:Ef.
  - exfalso. unfold get_prop_dies in H.
    apply lift_bind in H as [(p & Hp & H)|(e & _ & [=] & _)].
    apply lift_bind in H as [(ms & Hms & H)|(e & _ & [=] & _)].
    apply lift_bind in H as [(nd & Hl & H)|(e & _ & [=] & _)]. rewrite Ef in H.
    apply pair_equal_spec in H as [Ho _]. injection Ho as <-. destruct Hpv.
  - assert (Hsome : exists d, In d ds /\ snd d <> Some []).
    { clear -Ef. induction ds as [|[q d] t IH]; cbn in Ef; [discriminate|].
      destruct d as [[|x l]|]; cbn in Ef.
      - destruct IH as (d & Hd & Hn); [exact Ef|]. exists d. split; [now right|exact Hn].
      - exists (q, Some (x :: l)). split; [now left|discriminate].
      - exists (q, None). split; [now left|discriminate]. }
    destruct (get_prop_dies_l cls Hwf _ _ _ _ _ _ Hk Hv Hsome H) as (_ & _ & ms & Ha & Hc).
    apply (in_map pv_key) in Hpv.
    destruct Hc as [(Hu & _)|(Hkn & _ & _ & Hag & _)].
    + unfold scope_known, scope_unsupported in *. congruence.
    + assert (ps_st s' = st) by (unfold scope_known in *; congruence). subst st. eauto.
Qed.
