(** Printing the properties of a class: what is read is read once. *)
From Coq Require Import Ascii String ZifyBool.
From Verif Require Import Base L_Base L_Monad M_CPUInfo S_CPUInfo L_CPUInfo L_CPUInfo2 M_Text L_Text M_Props S_Props L_Props L_Props2 L_Props3 M_OpTarget M_Print S_Print L_Print.

Section Once.
  Context {St V : Type}.
  Variable cls : pclass St V.
  Let ci := pc_ci cls.

  Lemma pv_get_keys {K} (g : Z -> St -> gen (K * option V)) keys pname ms rns i0 s out s' :
    (forall m st vals, g m st = (vals, None) -> map fst vals = keys) ->
    pv_get cls g keys pname ms rns i0 s = (Ok out, s') -> map pv_key out = keys.
  Proof.
    intros Hg H. destruct (pv_get_spec cls g _ _ _ _ _ _ _ _ H) as (p & _ & _ & _ & [(pre & m & post & vals & _ & _ & E & -> & _)|(_ & _ & (m & _ & ->) & _)]).
    - rewrite map_map. cbn [pv_key]. exact (Hg _ _ _ E).
    - rewrite map_map. cbn [pv_key]. apply map_id.
  Qed.

  Lemma unsup_keys {K S} (g : K -> Z) m (l : list K) (s : S) out s' :
    ret (map (fun k => @PV K V (g k) k m None) l) s = (Ok out, s') -> map pv_key out = l.
  Proof. intros [= <- _]. rewrite map_map. cbn [pv_key]. apply map_id. Qed.

  Lemma keys_cpus pname cpus mnames s out s' : one_value_per_cpu cls ->
    get_prop_cpus cls pname (Some cpus) mnames s = (Ok out, s') -> NoDup (map pv_key out) /\
      forall x, In x (map pv_key out) -> In x (ci_online (pc_ci cls)).
  Proof.
    intros Hone H. unfold get_prop_cpus in H.
    apply lift_bind in H as [(p & Hp & H)|(e & _ & [=] & _)].
    apply lift_bind in H as [(ms & Hms & H)|(e & _ & [=] & _)].
    apply lift_bind in H as [(l & Hl & H)|(e & _ & [=] & _)].
    assert (NoDup l /\ forall x, In x l -> In x (ci_online (pc_ci cls))) as ND.
    { unfold normalize_cpus in Hl. apply normalize_in_ok in Hl. destruct Hl as (-> & Hl). split; [apply NoDup_dedup|].
      intros x I. rewrite dedup_In in I. now apply Hl. }
    destruct l as [|c t]; [injection H as <- _; split; [constructor|intros; contradiction]|]. unfold mbind at 1 in H.
    destruct (try_set_sname cls pname s) as [[[]|e] s1]; [| |discriminate].
    - unfold get_pvinfo_cpus in H. rewrite (pv_get_keys _ _ _ _ _ _ _ _ _ (fun m st vals E => Hone st pname (c :: t) m vals E) H). exact ND.
    - apply lift_bind in H as [(m & Hm & H)|(e & _ & [=] & _)]. apply unsup_keys in H; rewrite H; exact ND.
  Qed.

  Lemma keys_packages pname packages mnames s out s' :
    get_prop_packages cls pname (Some packages) mnames s = (Ok out, s') -> NoDup (map pv_key out) /\
      (wf_ci (pc_ci cls) -> forall x, In x (map pv_key out) -> is_pkg (ci_topo (pc_ci cls)) x).
  Proof.
    intros H. unfold get_prop_packages in H.
    apply lift_bind in H as [(p & Hp & H)|(e & _ & [=] & _)].
    apply lift_bind in H as [(ms & Hms & H)|(e & _ & [=] & _)].
    apply lift_bind in H as [(l & Hl & H)|(e & _ & [=] & _)].
    assert (NoDup l /\ (wf_ci (pc_ci cls) -> forall x, In x l -> is_pkg (ci_topo (pc_ci cls)) x)) as ND.
    { unfold normalize_packages in Hl. destruct (get_packages (pc_ci cls)) as [av|] eqn:Eav; [|discriminate]. cbn [rbind] in Hl.
      apply normalize_in_ok in Hl. destruct Hl as (-> & Hl). split; [apply NoDup_dedup|].
      intros W x I. rewrite dedup_In in I. destruct (get_packages_l (pc_ci cls) W) as (r & Er & _ & Hr). rewrite Eav in Er. injection Er as ->.
      now apply Hr, Hl. }
    destruct l as [|c t]; [injection H as <- _; split; [constructor|intros; contradiction]|]. unfold mbind at 1 in H.
    destruct (try_set_sname cls pname s) as [[[]|e] s1]; cbn [negb] in H; [| |discriminate].
    - unfold mbind at 1, gets at 1 in H. cbv beta iota in H.
      apply lift_bind in H as [([] & Hval & H)|(e & _ & [=] & _)]. unfold mbind at 1 in H.
      match type of H with match ?x with _ => _ end = _ => destruct x as [[[]|e] s2] end; [|discriminate H].
      rewrite (pv_get_keys _ _ _ _ _ _ _ _ _ (fun m st vals E => proj1 (gen_map_none _ _ _ E)) H). exact ND.
    - apply lift_bind in H as [(m & Hm & H)|(e & _ & [=] & _)]. apply unsup_keys in H; rewrite H; exact ND.
  Qed.

  Lemma pairs_nodup (f : Z -> res (list Z)) pkgs ll : NoDup pkgs -> (forall p l, f p = Ok l -> NoDup l) ->
    rmap pkgs (fun p => let? l := f p in Ok (map (pair p) l)) = Ok ll -> NoDup (concat ll).
  Proof.
    intros ND Hf. revert ll. induction pkgs as [|p t IH]; cbn [rmap]; intros ll.
    - intros [= <-]. constructor.
    - inversion ND as [|? ? Ni ND']; subst. destruct (f p) as [l|] eqn:E; cbn [rbind]; [|discriminate].
      destruct (rmap t _) as [ys|] eqn:E2; cbn [rbind]; [|discriminate]. intros [= <-]. cbn [concat].
      apply NoDup_app_disj.
      + apply FinFun.Injective_map_NoDup; [intros x y [= ->]; reflexivity|exact (Hf _ _ E)].
      + exact (IH ND' _ eq_refl).
      + intros x J I. apply in_map_iff in I. destruct I as (d & <- & _). apply in_concat in J. destruct J as (y & Iy & J).
        rewrite (rmap_In _ _ _ E2) in Iy. destruct Iy as (q & Iq & Eq). destruct (f q) as [lq|]; cbn [rbind] in Eq; [|discriminate].
        injection Eq as <-. apply in_map_iff in J. destruct J as (d' & [= -> _] & _). contradiction.
  Qed.

  Lemma keys_dies pname ds mnames s out s' : (forall p arg, In (p, arg) ds -> arg <> None) ->
    get_prop_dies cls pname (Some ds) mnames s = (Ok out, s') -> NoDup (map pv_key out) /\
      (wf_ci (pc_ci cls) -> forall x, In x (map pv_key out) -> is_die (ci_topo (pc_ci cls)) x).
  Proof.
    intros Hds H. unfold get_prop_dies in H.
    apply lift_bind in H as [(p & Hp & H)|(e & _ & [=] & _)].
    apply lift_bind in H as [(ms & Hms & H)|(e & _ & [=] & _)].
    apply lift_bind in H as [(nd & Hl & H)|(e & _ & [=] & _)].
    assert (NoDup nd /\ (wf_ci (pc_ci cls) -> forall x, In x nd -> is_die (ci_topo (pc_ci cls)) x)) as ND.
    { split; [|intros W x I; now apply (normalize_dies_arg_l cls W ds nd Hl x)]. unfold normalize_dies_arg in Hl. cbv zeta in Hl. match type of Hl with rbind ?r _ = _ => destruct r as [pkgs|] eqn:Ep end; cbn [rbind] in Hl; [|discriminate Hl].
      match type of Hl with rbind ?r _ = _ => destruct r as [ll|] eqn:Er end; cbn [rbind] in Hl; [|discriminate Hl]. injection Hl as <-.
      apply (pairs_nodup (fun p => match dget Z.eqb ds p with None => Exn EKey | Some d => normalize_dies (pc_ci cls) d p end) pkgs).
      - unfold normalize_packages in Ep. destruct (get_packages (pc_ci cls)); [|discriminate]. cbn [rbind] in Ep.
        apply normalize_in_ok in Ep. destruct Ep as (-> & _). apply NoDup_dedup.
      - intros q l. destruct (dget Z.eqb ds q) as [[arg|]|] eqn:Eq; [| |intros X; discriminate X].
        + unfold normalize_dies. destruct (package_to_dies _ q); cbn [rbind]; [|intros X; discriminate X]. intros E. apply normalize_in_ok in E.
          destruct E as (-> & _). apply NoDup_dedup.
        + apply (dget_In _ Zeqb_spec) in Eq. elim (Hds _ _ Eq). reflexivity.
      - rewrite <- Er. clear. unfold nums_t. induction pkgs as [|q t IH]; [reflexivity|]. cbn [rmap]. destruct (dget Z.eqb ds q); cbn [rbind]; [|reflexivity].
        destruct (normalize_dies _ _ q); cbn [rbind]; [|reflexivity]. now rewrite IH. }
    match type of H with (if ?b then _ else _) _ = _ => destruct b end; [injection H as <- _; split; [constructor|intros; contradiction]|]. unfold mbind at 1 in H.
    destruct (try_set_sname cls pname s) as [[[]|e] s1]; cbn [negb] in H; [| |discriminate].
    - unfold mbind at 1, gets at 1 in H. cbv beta iota in H.
      apply lift_bind in H as [([] & Hval & H)|(e & _ & [=] & _)]. unfold mbind at 1 in H.
      match type of H with match ?x with _ => _ end = _ => destruct x as [[[]|e] s2] end; [|discriminate H].
      rewrite (pv_get_keys _ _ _ _ _ _ _ _ _ (fun m st vals E => proj1 (gen_map_none _ _ _ E)) H). exact ND.
    - apply lift_bind in H as [(m & Hm & H)|(e & _ & [=] & _)]. apply unsup_keys in H; rewrite H; exact ND.
  Qed.

  Lemma sname_once mnames pname ov s items s' : one_value_per_cpu cls ->
    get_prop_sname cls mnames pname ov s = (Ok items, s') -> read_once items.
  Proof.
    intros Hone. unfold get_prop_sname. unfold mbind at 1. match goal with |- match ?x with _ => _ end = _ -> _ => destruct x as [[sn|e] s1] end; [|discriminate].
    unfold mbind at 1. destruct (on_target (sname_and_nums (pc_ci cls) sn) s1) as [[w|e] s2]; [|discriminate].
    unfold read_once. destruct w as [l|l|l]; unfold mbind, on_props.
    - destruct (get_prop_cpus cls pname (Some l) mnames (fst s2)) as [[out|e] s3] eqn:E; [|discriminate]. intros [= <- _].
      rewrite map_map. cbn. pose proof (proj1 (keys_cpus _ _ _ _ _ _ Hone E)) as ND. rewrite <- (map_map pv_key NumCPU).
      apply FinFun.Injective_map_NoDup; [intros x y [= ->]; reflexivity|exact ND].
    - destruct (get_prop_dies cls pname (Some (dies_dict l)) mnames (fst s2)) as [[out|e] s3] eqn:E; [|discriminate]. intros [= <- _].
      rewrite map_map. cbn.
      assert (NoDup (map pv_key out)) as ND.
      { refine (proj1 (keys_dies pname (dies_dict l) mnames (fst s2) out s3 _ E)). intros p arg I. unfold dies_dict in I.
        apply in_map_iff in I. destruct I as (q & [= _ <-] & _). discriminate. }
      rewrite <- (map_map pv_key (fun pd => NumDie (fst pd) (snd pd))).
      apply FinFun.Injective_map_NoDup; [intros [x x'] [y y'] [= -> ->]; reflexivity|exact ND].
    - destruct (get_prop_packages cls pname (Some l) mnames (fst s2)) as [[out|e] s3] eqn:E; [|discriminate]. intros [= <- _].
      rewrite map_map. cbn. pose proof (proj1 (keys_packages _ _ _ _ _ _ E)) as ND. rewrite <- (map_map pv_key NumPkg).
      apply FinFun.Injective_map_NoDup; [intros x y [= ->]; reflexivity|exact ND].
  Qed.

  Lemma sname_exist mnames pname ov s items s' : one_value_per_cpu cls -> wf_ci (pc_ci cls) ->
    get_prop_sname cls mnames pname ov s = (Ok items, s') -> forall k v m, In (k, v, m) items -> exists_num (pc_ci cls) k.
  Proof.
    intros Hone W. unfold get_prop_sname. unfold mbind at 1. match goal with |- match ?x with _ => _ end = _ -> _ => destruct x as [[sn|e] s1] end; [|discriminate].
    unfold mbind at 1. destruct (on_target (sname_and_nums (pc_ci cls) sn) s1) as [[w|e] s2]; [|discriminate].
    destruct w as [l|l|l]; unfold mbind, on_props.
    - destruct (get_prop_cpus cls pname (Some l) mnames (fst s2)) as [[out|e] s3] eqn:E; [|discriminate]. intros [= <- _] k v m I.
      apply in_map_iff in I. destruct I as (pv & [= <- _ _] & I). apply (proj2 (keys_cpus _ _ _ _ _ _ Hone E)). now apply in_map.
    - destruct (get_prop_dies cls pname (Some (dies_dict l)) mnames (fst s2)) as [[out|e] s3] eqn:E; [|discriminate]. intros [= <- _] k v m I.
      apply in_map_iff in I. destruct I as (pv & [= <- _ _] & I). cbn [exists_num]. rewrite <- surjective_pairing.
      refine (proj2 (keys_dies pname (dies_dict l) mnames (fst s2) out s3 _ E) W _ (in_map pv_key _ _ I)). intros p arg J. unfold dies_dict in J.
      apply in_map_iff in J. destruct J as (q & [= _ <-] & _). discriminate.
    - destruct (get_prop_packages cls pname (Some l) mnames (fst s2)) as [[out|e] s3] eqn:E; [|discriminate]. intros [= <- _] k v m I.
      apply in_map_iff in I. destruct I as (pv & [= <- _ _] & I). exact (proj2 (keys_packages _ _ _ _ _ _ E) W _ (in_map pv_key _ _ I)).
  Qed.

  Lemma sname_same mnames pname ov s items s' : get_prop_sname cls mnames pname ov s = (Ok items, s') ->
    exists sn, Forall (fun it => num_sname (fst (fst it)) = sn) items.
  Proof.
    unfold get_prop_sname. unfold mbind at 1. match goal with |- match ?x with _ => _ end = _ -> _ => destruct x as [[sn|e] s1] end; [|discriminate].
    unfold mbind at 1. destruct (on_target (sname_and_nums (pc_ci cls) sn) s1) as [[w|e] s2]; [|discriminate].
    destruct w as [l|l|l]; unfold mbind, on_props.
    - destruct (get_prop_cpus cls pname (Some l) mnames (fst s2)) as [[out|e] s3]; [|discriminate]. intros [= <- _].
      exists RCPU. apply Forall_map. apply Forall_forall. reflexivity.
    - destruct (get_prop_dies cls pname _ mnames (fst s2)) as [[out|e] s3]; [|discriminate]. intros [= <- _].
      exists RDie. apply Forall_map. apply Forall_forall. reflexivity.
    - destruct (get_prop_packages cls pname (Some l) mnames (fst s2)) as [[out|e] s3]; [|discriminate]. intros [= <- _].
      exists RPkg. apply Forall_map. apply Forall_forall. reflexivity.
  Qed.
End Once.
