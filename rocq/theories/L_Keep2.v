(** Lemmas for C72: reading through a class, restoring a file. *)
From Coq Require Import Ascii String ZifyBool.
From Verif Require Import Base L_Base L_Monad M_CPUInfo S_CPUInfo L_CPUInfo L_CPUInfo2 M_Text L_Text M_Props S_Props L_Props L_Props2 L_Props3
  M_OpTarget M_Print S_Print L_Print L_Print2 L_Print3 L_Print4 L_Print5 S_Keep L_Keep.

Section Read.
  Context {St V : Type}.
  Variable cls : pclass St V.
  Let ci := pc_ci cls.
  Let topo := ci_topo ci.
  Hypothesis Hwf : wf_ci ci.
  Variable sees : St -> Z -> Z -> option V.
  Variable shares : Z -> Z -> Z -> Prop.
  Hypothesis MA : machine cls sees shares.

  (** ** Reading changes nothing *)
  Definition keeps {A} (m : M (pst St V) A) : Prop := forall s r s', m s = (r, s') -> same sees (ps_st s) (ps_st s').

  Lemma keeps_ret A (x : A) : keeps (ret x).
  Proof. intros s r s' [= _ <-] q c. reflexivity. Qed.
  Lemma keeps_throw A e : keeps (throw (A := A) e).
  Proof. intros s r s' [= _ <-] q c. reflexivity. Qed.
  Lemma keeps_lift A (x : res A) : keeps (lift x).
  Proof. intros s r s' [= _ <-] q c. reflexivity. Qed.
  Lemma keeps_gets A (f : pst St V -> A) : keeps (gets f).
  Proof. intros s r s' [= _ <-] q c. reflexivity. Qed.
  Lemma keeps_bind A B (m : M _ A) (f : A -> M _ B) : keeps m -> (forall a, keeps (f a)) -> keeps (mbind m f).
  Proof.
    intros Hm Hf s r s' H. unfold mbind in H. destruct (m s) as [[a|e] s1] eqn:E.
    - eapply same_trans; [exact (Hm _ _ _ E)|exact (Hf _ _ _ _ H)].
    - injection H as _ <-. exact (Hm _ _ _ E).
  Qed.
  Lemma keeps_mfor A (l : list A) (f : A -> M _ unit) : (forall a, keeps (f a)) -> keeps (mfor l f).
  Proof. intros Hf. induction l as [|a t IH]; cbn [mfor]; [apply keeps_ret|]. apply keeps_bind; auto. Qed.
  Lemma keeps_try p : keeps (try_set_sname cls p).
  Proof.
    intros s r s' H. destruct (try_set_sname_run _ _ _ _ _ H) as (_ & _ & K). intros q c.
    unfold scope_known, scope_unsupported in K.
    destruct r as [[]|e]; [| |destruct K as (K & _)]; exact (ma_scope _ _ _ MA _ _ _ _ q c K).
  Qed.
  Lemma keeps_loop K (g : Z -> St -> gen (K * option V)) p ms : keeps (pv_loop g p ms).
  Proof.
    induction ms as [|m rest IH]; cbn [pv_loop]; [apply keeps_ret|]. apply keeps_bind.
    - intros s r s' [= _ <-] q c. reflexivity.
    - intros _ s r s' H. destruct (g m (ps_st s)) as [[|x t] [e|]]; try (injection H as _ <-; intros q c; reflexivity);
        destruct e; try (injection H as _ <-; intros q c; reflexivity). exact (IH _ _ _ H).
  Qed.
  Lemma keeps_pv K (g : Z -> St -> gen (K * option V)) keys p ms b1 b2 : keeps (pv_get cls g keys p ms b1 b2).
  Proof.
    unfold pv_get. apply keeps_bind; [apply keeps_lift|]. intros d. apply keeps_bind; [apply keeps_loop|].
    intros [l|]; [apply keeps_ret|]. destruct (or_default d ms); [apply keeps_throw|].
    destruct (_ && _); [apply keeps_throw|]. destruct b1; [apply keeps_throw|apply keeps_ret].
  Qed.
  Lemma keeps_ioscope p cpus ms : keeps (validate_prop_vs_ioscope cls p cpus ms).
  Proof.
    unfold validate_prop_vs_ioscope, get_pvinfo_cpus. apply keeps_bind; [apply keeps_pv|]. intros [|x t]; [apply keeps_ret|].
    destruct (forallb _ t); [apply keeps_ret|apply keeps_throw].
  Qed.
  Lemma keeps_cpus p cpus ms : keeps (get_prop_cpus cls p cpus ms).
  Proof.
    unfold get_prop_cpus. apply keeps_bind; [apply keeps_lift|]. intros _. apply keeps_bind; [apply keeps_lift|]. intros l.
    apply keeps_bind; [apply keeps_lift|]. intros [|c t]; [apply keeps_ret|]. apply keeps_bind; [apply keeps_try|].
    intros []; [apply keeps_pv|]. apply keeps_bind; [apply keeps_lift|]. intros m. apply keeps_ret.
  Qed.
  Lemma keeps_packages p pkgs ms : keeps (get_prop_packages cls p pkgs ms).
  Proof.
    unfold get_prop_packages. apply keeps_bind; [apply keeps_lift|]. intros _. apply keeps_bind; [apply keeps_lift|]. intros l.
    apply keeps_bind; [apply keeps_lift|]. intros [|c t]; [apply keeps_ret|]. apply keeps_bind; [apply keeps_try|].
    intros []; cbn [negb].
    - apply keeps_bind; [apply keeps_gets|]. intros sn. apply keeps_bind; [apply keeps_lift|]. intros _. apply keeps_bind; [|intros _; apply keeps_pv].
      apply keeps_mfor. intros x. apply keeps_bind; [apply keeps_gets|]. intros io. destruct (scope_opt_eqb sn io); [apply keeps_ret|].
      apply keeps_bind; [apply keeps_lift|]. intros cpus. apply keeps_ioscope.
    - apply keeps_bind; [apply keeps_lift|]. intros m. apply keeps_ret.
  Qed.
  Lemma keeps_dies p ds ms : keeps (get_prop_dies cls p ds ms).
  Proof.
    unfold get_prop_dies. apply keeps_bind; [apply keeps_lift|]. intros _. apply keeps_bind; [apply keeps_lift|]. intros l.
    destruct ds as [ds|]; [|apply keeps_throw].
    apply keeps_bind; [apply keeps_lift|]. intros nd. destruct (forallb _ ds); [apply keeps_ret|]. apply keeps_bind; [apply keeps_try|].
    intros []; cbn [negb].
    - apply keeps_bind; [apply keeps_gets|]. intros sn. apply keeps_bind; [apply keeps_lift|]. intros _. apply keeps_bind; [|intros _; apply keeps_pv].
      apply keeps_mfor. intros x. apply keeps_bind; [apply keeps_gets|]. intros io. destruct (scope_opt_eqb sn io); [apply keeps_ret|].
      apply keeps_bind; [apply keeps_lift|]. intros cpus. apply keeps_ioscope.
    - apply keeps_bind; [apply keeps_lift|]. intros m. apply keeps_ret.
  Qed.
  Lemma keeps_get_sname p : keeps (get_sname cls p).
  Proof.
    unfold get_sname. destruct (dget Z.eqb (pc_props cls) p); [|apply keeps_throw]. intros s r s' H.
    destruct (pc_sname cls (ps_st s) p) as [sc|]; [injection H as _ <-; intros q c; reflexivity|]. revert H.
    apply (keeps_bind _ _ (try_set_sname cls p) (fun known => if known then gets (fun s => pc_sname cls (ps_st s) p) else ret None)); [apply keeps_try|].
    intros []; [apply keeps_gets|apply keeps_ret].
  Qed.

  Definition samep (s s' : pstate (St := St) (V := V)) : Prop := same sees (ps_st (fst s)) (ps_st (fst s')).
  Lemma on_props_keeps A (m : M _ A) s r s' : keeps m -> on_props m s = (r, s') -> samep s s'.
  Proof. intros K H. unfold on_props in H. destruct (m (fst s)) as [r0 s0] eqn:E. injection H as _ <-. exact (K _ _ _ E). Qed.
  Lemma on_target_keeps A (m : M _ A) (s : pstate (St := St) (V := V)) r s' : on_target m s = (r, s') -> samep s s'.
  Proof. intros H. unfold on_target in H. destruct (m (snd s)) as [r0 s0]. injection H as _ <-. intros q c. reflexivity. Qed.

  Definition keepsp {A} (m : M (pstate (St := St) (V := V)) A) : Prop := forall s r s', m s = (r, s') -> samep s s'.
  Lemma keepsp_bind A B (m : M _ A) (f : A -> M _ B) : keepsp m -> (forall a, keepsp (f a)) -> keepsp (mbind m f).
  Proof.
    intros Hm Hf s r s' H. unfold mbind in H. destruct (m s) as [[a|e] s1] eqn:E.
    - eapply same_trans; [exact (Hm _ _ _ E)|exact (Hf _ _ _ _ H)].
    - injection H as _ <-. exact (Hm _ _ _ E).
  Qed.
  Lemma keepsp_ret A (x : A) : keepsp (ret x).
  Proof. intros s r s' [= _ <-] q c. reflexivity. Qed.
  Lemma keepsp_props A (m : M _ A) : keeps m -> keepsp (on_props m).
  Proof. intros K s r s'. now apply on_props_keeps. Qed.
  Lemma keepsp_target A (m : M _ A) : keepsp (on_target m).
  Proof. intros s r s'. apply on_target_keeps. Qed.

  Lemma keeps_sname mnames p ov : keepsp (get_prop_sname cls mnames p ov).
  Proof.
    unfold get_prop_sname. apply keepsp_bind.
    { destruct ov; [apply keepsp_ret|]. apply keepsp_bind; [apply keepsp_props, keeps_get_sname|]. intros o. apply keepsp_ret. }
    intros sn. apply keepsp_bind; [apply keepsp_target|].
    intros [l|l|l]; (apply keepsp_bind; [apply keepsp_props|intros; apply keepsp_ret]).
    - apply keeps_cpus. - apply keeps_dies. - apply keeps_packages.
  Qed.

  Lemma reading_same mnames props ro names s l s' : reading (get_prop_sname cls mnames) props ro names s l s' -> samep s s'.
  Proof.
    induction 1 as [s|p d rest s l s' Hro Hd Hw _ IH|p d rest s items s1 l s' Hd Hw Hr _ IH|p d rest s s1 items s2 l s' Hd Hw Hr1 Hr2 _ IH].
    - intros q c; reflexivity.
    - exact IH.
    - eapply same_trans; [exact (keeps_sname _ _ _ _ _ _ Hr)|exact IH].
    - eapply same_trans; [exact (keeps_sname _ _ _ _ _ _ Hr1)|]. eapply same_trans; [exact (keeps_sname _ _ _ _ _ _ Hr2)|exact IH].
  Qed.
  Lemma reading_each mnames props ro names s l s' : reading (get_prop_sname cls mnames) props ro names s l s' ->
    forall p items, In (p, items) l -> exists ov s1 s2, samep s s1 /\ get_prop_sname cls mnames p ov s1 = (Ok items, s2).
  Proof.
    induction 1 as [s|p d rest s l s' Hro Hd Hw _ IH|p d rest s items s1 l s' Hd Hw Hr _ IH|p d rest s s1 items s2 l s' Hd Hw Hr1 Hr2 _ IH];
      intros p0 items0 I; [destruct I|auto| |].
    - destruct I as [[= <- <-]|I].
      + exists false, s, s1. split; [intros q c; reflexivity|exact Hr].
      + destruct (IH _ _ I) as (ov & a & b & S1 & E). exists ov, a, b. split; [|exact E].
        eapply same_trans; [exact (keeps_sname _ _ _ _ _ _ Hr)|exact S1].
    - destruct I as [[= <- <-]|I].
      + exists true, s1, s2. split; [exact (keeps_sname _ _ _ _ _ _ Hr1)|exact Hr2].
      + destruct (IH _ _ I) as (ov & a & b & S1 & E). exists ov, a, b. split; [|exact E].
        eapply same_trans; [exact (keeps_sname _ _ _ _ _ _ Hr1)|]. eapply same_trans; [exact (keeps_sname _ _ _ _ _ _ Hr2)|exact S1].
  Qed.

  (** ** What is read is what is seen *)
  Hypothesis Hv : forall x y, pc_veqb cls x y = true <-> x = y.
  Hypothesis Hone : one_value_per_cpu cls.
  Hypothesis Hkey : keyed cls.

  Lemma veq : veq_equiv cls.
  Proof.
    split; [|split].
    - intros x. now apply Hv.
    - intros x y H. apply Hv in H. apply Hv. auto.
    - intros x y z H1 H2. apply Hv in H1. apply Hv in H2. apply Hv. congruence.
  Qed.

  Lemma read_cpus p l mnames s out s' pv : get_prop_cpus cls p (Some l) mnames s = (Ok out, s') -> In pv out -> pv_val pv <> None ->
    sees (ps_st s) p (pv_key pv) = pv_val pv.
  Proof.
    intros H I Hne. pose proof (keeps_cpus _ _ _ _ _ _ H) as K.
    destruct (get_prop_cpus_l cls _ _ _ _ _ _ Hwf Hone H) as (l0 & _ & Hk & _ & _ & [(-> & ->)|(ms & _ & C)]).
    - destruct out; [destruct I|discriminate Hk].
    - rewrite <- (K p (pv_key pv)).
      destruct C as [(_ & pre & m & vals & _ & _ & Hg & Hvals & _ & _)|[(_ & _ & Hn & _)|(_ & Hn & _)]].
      + symmetry. eapply (ma_read _ _ _ MA); [exact Hg|]. rewrite <- Hvals. apply in_map_iff. exists pv. auto.
      + rewrite Forall_forall in Hn. now elim Hne; apply Hn.
      + rewrite Forall_forall in Hn. now elim Hne; apply Hn.
  Qed.

  Lemma unit_seen p m ms st (P : Z -> Prop) v c :
    unit_gives cls st p m P v -> In m ms -> P c ->
    ((forall c0, P c0 -> sees st p c0 = sees st p c) \/ agree cls st p ms P) -> sees st p c = v.
  Proof.
    intros (c0 & (P0 & _) & (rest & e & E)) Im Pc H.
    assert (v = sees st p c0) as -> by (eapply (ma_read _ _ _ MA); [exact E|now left]).
    destruct H as [H|(cpus & Hc & [(pre & m' & vals & _ & _ & Hg & Hs)|Hl])].
    - symmetry. now apply H.
    - assert (forall x, In x cpus -> In (x, sees st p x) vals) as Hin.
      { intros x Ix. rewrite <- (Hone _ _ _ _ _ Hg) in Ix. apply in_map_iff in Ix. destruct Ix as ([x0 w] & Ex & Ix). cbn in Ex. subst x0.
        now rewrite <- (ma_read _ _ _ MA _ _ _ _ _ _ _ _ Hg Ix). }
      pose proof (Hs _ _ (Hin c (proj2 (Hc c) Pc)) (Hin c0 (proj2 (Hc c0) P0))) as X. cbn [snd] in X.
      unfold same_value in X. destruct (sees st p c), (sees st p c0); try (destruct X; fail); [|reflexivity].
      apply Hv in X. now subst.
    - exfalso. rewrite Forall_forall in Hl. pose proof (ma_lacks _ _ _ MA _ _ _ _ c0 (Hl m Im) (proj2 (Hc c0) P0)) as X.
      unfold lacks in X. rewrite E in X. discriminate X.
  Qed.

  Lemma pkg_unit q c x sc : cpu_in_pkg topo q c -> cpu_in_pkg topo q x -> sc = SPackage \/ sc = SGlobal -> same_unit topo sc c x.
  Proof.
    intros (t & It & Lt & Et & Ep) (u & Iu & Lu & Eu & Eq) H. exists t, u. repeat (split; [assumption|]).
    destruct H as [-> | ->]; cbn; congruence.
  Qed.
  Lemma die_unit q c x sc : cpu_in_die topo q c -> cpu_in_die topo q x -> sc = SDie \/ sc = SPackage \/ sc = SGlobal -> same_unit topo sc c x.
  Proof.
    intros (t & It & Lt & Et & Ep & Ed) (u & Iu & Lu & Eu & Eq & Ee) H. exists t, u. repeat (split; [assumption|]).
    destruct H as [-> |[-> | ->]]; cbn; congruence.
  Qed.

  Lemma oscope_dec (a b : option scope) : a = b \/ a <> b.
  Proof. destruct a as [[]|], b as [[]|]; (now left) || (right; discriminate). Qed.

  Lemma read_packages p l mnames s out s' pv c : get_prop_packages cls p (Some l) mnames s = (Ok out, s') -> In pv out -> pv_val pv <> None ->
    cpu_in_pkg topo (pv_key pv) c -> sees (ps_st s) p c = pv_val pv.
  Proof.
    intros H I Hne Hc. rewrite <- (keeps_packages _ _ _ _ _ _ H p c).
    destruct (get_prop_packages_l cls Hwf _ _ _ _ _ _ Hkey veq H) as (l0 & _ & _ & Hk & _ & _ & [(-> & ->)|(ms & _ & C)]).
    - destruct out; [destruct I|discriminate Hk].
    - destruct C as [(_ & Hn & _)|(_ & Hsc & Hag & [(pre & m & (po & Ems) & _ & Hu & _)|(_ & Hn)])].
      + rewrite Forall_forall in Hn. now elim Hne; apply Hn.
      + rewrite Forall_forall in Hu. destruct (Hu pv I) as (_ & U).
        apply (unit_seen p m ms _ _ _ _ U); [rewrite Ems; apply in_or_app; right; now left|exact Hc|].
        destruct (oscope_dec (pc_sname cls (ps_st s') p) (pc_iosname cls (ps_st s') p)) as [E|N].
        * left. intros c0 Hc0. apply (ma_shares _ _ _ MA).
          destruct Hsc as [Hsc|Hsc]; rewrite Hsc in E; apply (ma_io _ _ _ MA _ _ _ c0 c (eq_sym E)), (pkg_unit (pv_key pv)); auto.
        * right. apply Hag; [exact N|]. rewrite <- Hk. now apply in_map.
      + rewrite Forall_forall in Hn. now elim Hne; apply Hn.
  Qed.

  Lemma read_dies p ds mnames s out s' pv c : (exists d, In d ds /\ snd d <> Some []) ->
    get_prop_dies cls p (Some ds) mnames s = (Ok out, s') -> In pv out -> pv_val pv <> None ->
    cpu_in_die topo (pv_key pv) c -> sees (ps_st s) p c = pv_val pv.
  Proof.
    intros Hd H I Hne Hc. rewrite <- (keeps_dies _ _ _ _ _ _ H p c).
    destruct (get_prop_dies_l cls Hwf _ _ _ _ _ _ Hkey veq Hd H) as (_ & _ & ms & _ & C).
    - destruct C as [(_ & Hn & _)|(_ & _ & (sc & Esc & Hsc) & Hag & [(pre & m & (po & Ems) & _ & Hu & _)|(_ & Hn)])].
      + rewrite Forall_forall in Hn. now elim Hne; apply Hn.
      + rewrite Forall_forall in Hu. destruct (Hu pv I) as (_ & U).
        apply (unit_seen p m ms _ _ _ _ U); [rewrite Ems; apply in_or_app; right; now left|exact Hc|].
        destruct (oscope_dec (pc_sname cls (ps_st s') p) (pc_iosname cls (ps_st s') p)) as [E|N].
        * left. intros c0 Hc0. apply (ma_shares _ _ _ MA). rewrite Esc in E.
          apply (ma_io _ _ _ MA _ _ _ c0 c (eq_sym E)), (die_unit (pv_key pv)); auto.
        * right. apply Hag; [exact N|]. now apply in_map.
      + rewrite Forall_forall in Hn. now elim Hne; apply Hn.
  Qed.

  Lemma dies_dict_some l : l <> [] -> exists d, In d (dies_dict l) /\ snd d <> Some [].
  Proof.
    destruct l as [|[p x] t]; [congruence|]. intros _. eexists. split.
    - unfold dies_dict. apply in_map_iff. exists p. split; [reflexivity|]. apply dedup_In. now left.
    - cbn [snd map filter fst]. rewrite Z.eqb_refl. discriminate.
  Qed.
  Lemma dies_nil p mnames s out s' : get_prop_dies cls p (Some []) mnames s = (Ok out, s') -> out = [].
  Proof.
    unfold get_prop_dies. intros H. apply lift_bind in H as [(d & _ & H)|(e & _ & [=] & _)].
    apply lift_bind in H as [(ms & _ & H)|(e & _ & [=] & _)]. apply lift_bind in H as [(nd & _ & H)|(e & _ & [=] & _)].
    cbn [forallb] in H. now injection H as <- _.
  Qed.

  Lemma target_scope sn t w t' : sname_and_nums ci sn t = (Ok w, t') ->
    match w with OnPackages _ => sn = SPackage | OnDies _ => sn = SDie | OnCPUs _ => True end.
  Proof.
    assert (forall t w t', (let! l := ot_get_cpus ci in ret (OnCPUs l)) t = (Ok w, t') -> match w with OnCPUs _ => True | _ => False end) as HC.
    { intros t0 w0 t1 H. unfold mbind in H. destruct (ot_get_cpus ci t0) as [[l|e] t2]; [|discriminate]. injection H as <- _. exact I. }
    unfold sname_and_nums. intros H.
    destruct sn; try (apply HC in H; destruct w; [exact I|destruct H|destruct H]);
      unfold catch_no_target in H; unfold mbind at 1 in H.
    - destruct (ot_get_dies ci true t) as [[l|e] t2]; [injection H as <- _; reflexivity|].
      destruct e; try discriminate H; apply HC in H; destruct w; [exact I|destruct H|destruct H].
    - destruct (ot_get_packages ci true t) as [[l|e] t2]; [injection H as <- _; reflexivity|].
      destruct e; try discriminate H; apply HC in H; destruct w; [exact I|destruct H|destruct H].
  Qed.

  Lemma get_sname_scope p s r s' : get_sname cls p s = (Ok r, s') -> r = None \/ pc_sname cls (ps_st s') p = r.
  Proof.
    unfold get_sname. destruct (dget Z.eqb (pc_props cls) p); [|discriminate].
    destruct (pc_sname cls (ps_st s) p) as [sc|] eqn:E; [intros [= <- <-]; auto|].
    unfold mbind. destruct (try_set_sname cls p s) as [[[]|e] s1]; [| |discriminate]; cbv beta iota.
    - unfold gets. intros [= <- <-]. auto.
    - unfold ret. intros [= <- <-]. auto.
  Qed.

  (** A value that was read is what every CPU it is about sees; by package or die only if that is the scope. *)
  Lemma read_seen mnames p ov s items s' : get_prop_sname cls mnames p ov s = (Ok items, s') ->
    forall k v m, In (k, v, m) items ->
      by_scope cls p (num_sname k) /\ (v <> None -> forall c, cpu_of topo k c -> sees (ps_st (fst s)) p c = v).
  Proof.
    intros H k v m I. unfold get_prop_sname in H. unfold mbind at 1 in H.
    match type of H with match ?x with _ => _ end = _ => destruct x as [[sn|e] s1] eqn:E1 end; [|discriminate].
    assert (samep s s1 /\ forall sc, sn = sc -> sc = SPackage \/ sc = SDie -> forall st sc', pc_sname cls st p = Some sc' -> sc' = sc) as (S1 & Hsc).
    { destruct ov.
      - injection E1 as <- <-. split; [intros q c; reflexivity|]. intros sc <- [X|X]; discriminate X.
      - unfold mbind in E1. destruct (on_props (get_sname cls p) s) as [[o|e] s2] eqn:E2; [|discriminate].
        injection E1 as <- <-. split; [exact (on_props_keeps _ _ _ _ _ (keeps_get_sname p) E2)|].
        unfold on_props in E2. destruct (get_sname cls p (fst s)) as [r0 s0] eqn:E3. injection E2 as -> <-.
        destruct (get_sname_scope _ _ _ _ E3) as [-> |Eo]; [intros sc <- [X|X]; discriminate X|].
        destruct o as [sc0|]; [|intros sc <- [X|X]; discriminate X]. intros sc <- _ st sc' Est. exact (ma_fixed _ _ _ MA _ _ _ _ _ Est Eo). }
    clear E1. unfold mbind at 1 in H. destruct (on_target (sname_and_nums (pc_ci cls) sn) s1) as [[w|e] s2] eqn:E2; [|discriminate].
    pose proof (on_target_keeps _ _ _ _ _ E2) as S2.
    assert (exists t t', sname_and_nums ci sn t = (Ok w, t')) as (t & t' & Et).
    { unfold on_target in E2. destruct (sname_and_nums (pc_ci cls) sn (snd s1)) as [r0 t0] eqn:E3. injection E2 as -> <-. exists (snd s1), t0. exact E3. }
    pose proof (target_scope _ _ _ _ Et) as Hw.
    assert (forall q c, sees (ps_st (fst s2)) q c = sees (ps_st (fst s)) q c) as SS.
    { intros q c. rewrite (S2 q c). apply S1. }
    destruct w as [l|l|l]; unfold mbind, on_props in H.
    - destruct (get_prop_cpus cls p (Some l) mnames (fst s2)) as [[out|e] s3] eqn:E; [|discriminate]. injection H as <- <-.
      apply in_map_iff in I. destruct I as (pv & [= <- <- <-] & I). cbn [num_sname]. split; [intros st sc _; exact Logic.I|].
      intros Hne c Hc. cbn in Hc. subst c. rewrite <- SS. exact (read_cpus _ _ _ _ _ _ _ E I Hne).
    - destruct (get_prop_dies cls p (Some (dies_dict l)) mnames (fst s2)) as [[out|e] s3] eqn:E; [|discriminate]. injection H as <- <-.
      apply in_map_iff in I. destruct I as (pv & [= <- <- <-] & I). cbn [num_sname]. split.
      + intros st sc Est. exact (Hsc SDie Hw (or_intror eq_refl) st sc Est).
      + intros Hne c Hc. cbn in Hc. rewrite <- surjective_pairing in Hc. rewrite <- SS.
        destruct l as [|x l]; [apply dies_nil in E; subst out; destruct I|].
        refine (read_dies _ _ _ _ _ _ _ _ (dies_dict_some (x :: l) _) E I Hne Hc). discriminate.
    - destruct (get_prop_packages cls p (Some l) mnames (fst s2)) as [[out|e] s3] eqn:E; [|discriminate]. injection H as <- <-.
      apply in_map_iff in I. destruct I as (pv & [= <- <- <-] & I). cbn [num_sname]. split.
      + intros st sc Est. exact (Hsc SPackage Hw (or_introl eq_refl) st sc Est).
      + intros Hne c Hc. cbn in Hc. rewrite <- SS. exact (read_packages _ _ _ _ _ _ _ _ E I Hne Hc).
  Qed.

  Lemma read_cpus_all p l mnames s out s' pv pv' : get_prop_cpus cls p (Some l) mnames s = (Ok out, s') -> In pv out -> pv_val pv <> None ->
    In pv' out -> sees (ps_st s) p (pv_key pv') = pv_val pv'.
  Proof.
    intros H I Hne J. pose proof (keeps_cpus _ _ _ _ _ _ H) as K.
    destruct (get_prop_cpus_l cls _ _ _ _ _ _ Hwf Hone H) as (l0 & _ & Hk & _ & _ & [(-> & ->)|(ms & _ & C)]).
    - destruct out; [destruct I|discriminate Hk].
    - rewrite <- (K p (pv_key pv')).
      destruct C as [(_ & pre & m & vals & _ & _ & Hg & Hvals & _ & _)|[(_ & _ & Hn & _)|(_ & Hn & _)]].
      + symmetry. eapply (ma_read _ _ _ MA); [exact Hg|]. rewrite <- Hvals. apply in_map_iff. exists pv'. auto.
      + rewrite Forall_forall in Hn. now elim Hne; apply Hn.
      + rewrite Forall_forall in Hn. now elim Hne; apply Hn.
  Qed.

  Lemma unit_some p m st (P : Z -> Prop) v : unit_gives cls st p m P v -> exists c, P c.
  Proof. intros (c & (Hc & _) & _). eauto. Qed.
  Lemma some_packages p l mnames s out s' pv : get_prop_packages cls p (Some l) mnames s = (Ok out, s') -> In pv out -> pv_val pv <> None ->
    exists c, cpu_in_pkg topo (pv_key pv) c.
  Proof.
    intros H I Hne.
    destruct (get_prop_packages_l cls Hwf _ _ _ _ _ _ Hkey veq H) as (l0 & _ & _ & Hk & _ & _ & [(-> & ->)|(ms & _ & C)]).
    - destruct out; [destruct I|discriminate Hk].
    - destruct C as [(_ & Hn & _)|(_ & Hsc & Hag & [(pre & m & (po & Ems) & _ & Hu & _)|(_ & Hn)])].
      + rewrite Forall_forall in Hn. now elim Hne; apply Hn.
      + rewrite Forall_forall in Hu. destruct (Hu pv I) as (_ & U). exact (unit_some _ _ _ _ _ U).
      + rewrite Forall_forall in Hn. now elim Hne; apply Hn.
  Qed.
  Lemma some_dies p ds mnames s out s' pv : (exists d, In d ds /\ snd d <> Some []) ->
    get_prop_dies cls p (Some ds) mnames s = (Ok out, s') -> In pv out -> pv_val pv <> None -> exists c, cpu_in_die topo (pv_key pv) c.
  Proof.
    intros Hd H I Hne.
    destruct (get_prop_dies_l cls Hwf _ _ _ _ _ _ Hkey veq Hd H) as (_ & _ & ms & _ & C).
    - destruct C as [(_ & Hn & _)|(_ & _ & (sc & Esc & Hsc) & Hag & [(pre & m & (po & Ems) & _ & Hu & _)|(_ & Hn)])].
      + rewrite Forall_forall in Hn. now elim Hne; apply Hn.
      + rewrite Forall_forall in Hu. destruct (Hu pv I) as (_ & U). exact (unit_some _ _ _ _ _ U).
      + rewrite Forall_forall in Hn. now elim Hne; apply Hn.
  Qed.

  Lemma pv_one g keys p ms b1 b2 s out s' pv pv' : pv_get (K := Z) cls g keys p ms b1 b2 s = (Ok out, s') -> In pv out -> In pv' out ->
    pv_mname pv' = pv_mname pv.
  Proof.
    unfold pv_get. intros H I J. apply lift_bind in H as [(d & _ & H)|(e & _ & [=] & _)]. unfold mbind in H.
    destruct (pv_loop g p (or_default d ms) s) as [[[l|]|e] s1] eqn:E; [| |discriminate].
    - injection H as <- <-. revert s E. induction (or_default d ms) as [|m rest IH]; intros s E; cbn [pv_loop] in E; [discriminate|].
      unfold mbind, log_get, modify in E. cbn [ps_st] in E.
      destruct (g m (ps_st s)) as [[|x t] [e|]]; try (destruct e; try discriminate E; exact (IH _ E)); try discriminate E.
      + injection E as <- _. destruct I.
      + injection E as <- _. change (In pv (map (fun kv => PV p (fst kv) m (snd kv)) (x :: t))) in I.
        change (In pv' (map (fun kv => PV p (fst kv) m (snd kv)) (x :: t))) in J.
        apply in_map_iff in I. apply in_map_iff in J. destruct I as (a & <- & _). destruct J as (b & <- & _). reflexivity.
    - destruct (or_default d ms) as [|m0 mt]; [discriminate|]. destruct (_ && _); [discriminate|]. destruct b1; [discriminate|].
      injection H as <- <-. apply in_map_iff in I. apply in_map_iff in J. destruct I as (a & <- & _). destruct J as (b & <- & _). reflexivity.
  Qed.
  Lemma one_mname p l mnames s out s' pv pv' : get_prop_cpus cls p l mnames s = (Ok out, s') -> In pv out -> In pv' out ->
    pv_mname pv' = pv_mname pv.
  Proof.
    unfold get_prop_cpus. intros H I J. apply lift_bind in H as [(d & _ & H)|(e & _ & [=] & _)].
    apply lift_bind in H as [(ms & _ & H)|(e & _ & [=] & _)]. apply lift_bind in H as [(l0 & _ & H)|(e & _ & [=] & _)].
    destruct l0 as [|c t]; [injection H as <- _; destruct I|]. unfold mbind at 1 in H.
    destruct (try_set_sname cls p s) as [[[]|e] s1]; [| |discriminate].
    - unfold get_pvinfo_cpus in H. exact (pv_one _ _ _ _ _ _ _ _ _ _ _ H I J).
    - apply lift_bind in H as [(m & _ & H)|(e & _ & [=] & _)]. injection H as <- _.
      change (In pv (map (fun c => PV p c m None) (c :: t))) in I. change (In pv' (map (fun c => PV p c m None) (c :: t))) in J.
      apply in_map_iff in I. apply in_map_iff in J. destruct I as (a & <- & _). destruct J as (b & <- & _). reflexivity.
  Qed.

  (** What was read is about some CPUs, and the CPUs are read with one mechanism. *)
  Lemma read_some mnames p ov s items s' : get_prop_sname cls mnames p ov s = (Ok items, s') ->
    forall k v m, In (k, v, m) items -> (v <> None -> exists c, cpu_of topo k c) /\
      forall x k' v' m', k = NumCPU x -> In (k', v', m') items -> m' = m /\ exists x', k' = NumCPU x' /\ (v <> None -> sees (ps_st (fst s)) p x' = v').
  Proof.
    intros H k v m I. unfold get_prop_sname in H. unfold mbind at 1 in H.
    match type of H with match ?x with _ => _ end = _ => destruct x as [[sn|e] s1] eqn:E1 end; [|discriminate].
    assert (samep s s1) as S1.
    { destruct ov; [injection E1 as _ <-; intros q c; reflexivity|]. unfold mbind in E1.
      destruct (on_props (get_sname cls p) s) as [[o|e] s2] eqn:E2; [|discriminate]. injection E1 as _ <-.
      exact (on_props_keeps _ _ _ _ _ (keeps_get_sname p) E2). }
    clear E1. unfold mbind at 1 in H. destruct (on_target (sname_and_nums (pc_ci cls) sn) s1) as [[w|e] s2] eqn:E2; [|discriminate].
    pose proof (on_target_keeps _ _ _ _ _ E2) as S2. clear E2.
    assert (forall q c, sees (ps_st (fst s2)) q c = sees (ps_st (fst s)) q c) as SS.
    { intros q c. rewrite (S2 q c). apply S1. }
    destruct w as [l|l|l]; unfold mbind, on_props in H.
    - destruct (get_prop_cpus cls p (Some l) mnames (fst s2)) as [[out|e] s3] eqn:E; [|discriminate]. injection H as <- <-.
      apply in_map_iff in I. destruct I as (pv & [= <- <- <-] & I). cbn [cpu_of]. split; [eauto|].
      intros x k' v' m' _ J. apply in_map_iff in J. destruct J as (pv' & [= <- <- <-] & J).
      split; [|exists (pv_key pv'); split; [reflexivity|]; intros Hne; rewrite <- SS; exact (read_cpus_all _ _ _ _ _ _ _ _ E I Hne J)].
      exact (one_mname _ _ _ _ _ _ _ _ E I J).
    - destruct (get_prop_dies cls p (Some (dies_dict l)) mnames (fst s2)) as [[out|e] s3] eqn:E; [|discriminate]. injection H as <- <-.
      apply in_map_iff in I. destruct I as (pv & [= <- <- <-] & I). split; [|discriminate]. intros Hne. cbn [cpu_of].
      destruct l as [|x l]; [apply dies_nil in E; subst out; destruct I|].
      rewrite <- surjective_pairing. refine (some_dies _ _ _ _ _ _ _ (dies_dict_some (x :: l) _) E I Hne). discriminate.
    - destruct (get_prop_packages cls p (Some l) mnames (fst s2)) as [[out|e] s3] eqn:E; [|discriminate]. injection H as <- <-.
      apply in_map_iff in I. destruct I as (pv & [= <- <- <-] & I). split; [|discriminate]. intros Hne. exact (some_packages _ _ _ _ _ _ _ E I Hne).
  Qed.
End Read.
