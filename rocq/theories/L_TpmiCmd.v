(** Lemmas about the TPMI commands: the loop over devices and instances. *)
From Verif Require Import Base L_Base L_Monad M_Text S_Text L_Text M_Kver M_Osa M_CPUInfo M_MSR S_MSR L_Bits
  M_Tpmi S_Tpmi L_Tpmi L_Tpmi2 L_Tpmi3 L_Tpmi4 L_Tpmi5 L_Tpmi6 M_TpmiCmd.
From Coq Require Import ZifyBool.

Lemma layout_insts d d' : same_layout d d' -> map ds_inst d = map ds_inst d'.
Proof. intros H. induction H as [|x y l l' (H1 & _) H IH]; [reflexivity|]. cbn [map]. now rewrite H1, IH. Qed.

Lemma lay_insts s s' f a : lay (t_devs s) (t_devs s') -> insts_of s f a = insts_of s' f a.
Proof.
  intros H. specialize (H (a, f)). unfold insts_of.
  destruct (dget pair_eqb (t_devs s) (a, f)), (dget pair_eqb (t_devs s') (a, f)); try tauto. now apply layout_insts.
Qed.

Section Iter.
  Variable nm : tnames.
  Variable env : tenv.
  Variable created : list ((Z * Z) * dump).
  Variable s0 : tstate.
  Hypothesis H0 : reached nm env created s0.
  Variable f : Z.
  Variable A : Type.
  Variable body : A -> Z -> Z -> Z -> M tstate A.
  Variable J : list (Z * Z * Z) -> A -> tstate -> Prop.
  Variable E : exc -> tstate -> Prop.
  Variable ok : list (Z * Z * Z) -> Z -> Z -> Z -> Prop.
  Hypothesis J_inv : forall dn acc s, J dn acc s -> tinv s /\ lay (t_devs s0) (t_devs s).
  Hypothesis J_ro : forall dn acc s s', J dn acc s -> tinv s' -> t_devs s' = t_devs s -> J dn acc s'.
  Hypothesis J_body : forall dn acc s a p i, J dn acc s -> ok dn a p i ->
    post (body acc a p i) s (fun acc' s' => J (dn ++ [(a, p, i)]) acc' s') E.

  Lemma insts_loop a p : forall l dn acc s, J dn acc s ->
    (forall dn' i rest, In i l -> dn ++ map (fun i => (a, p, i)) l = dn' ++ (a, p, i) :: rest -> ok dn' a p i) ->
    post (mfold (fun acc i => body acc a p i) l acc) s
      (fun acc' s' => J (dn ++ map (fun i => (a, p, i)) l) acc' s') E.
  Proof.
    induction l as [|i l IH]; intros dn acc s HJ Hok; cbn [mfold map].
    - apply post_ret. now rewrite app_nil_r.
    - apply post_bind. eapply post_conseq; [apply (J_body dn acc s a p i HJ)|auto with *|auto].
      + apply (Hok dn i (map (fun i => (a, p, i)) l)); [now left|reflexivity].
      + cbn beta. intros acc1 s1 H1. eapply post_conseq; [apply (IH _ _ _ H1)| |auto].
        * intros dn' j rest Hj Ej. apply (Hok dn' j rest); [now right|]. cbn [map]. now rewrite <- app_assoc in Ej.
        * cbn beta. intros acc2 s2 H2. now rewrite <- app_assoc in H2.
  Qed.

  Definition bad (l : list Z) (sel : list (Z * Z)) : Prop := exists ap, In ap sel /\ ~ incl l (insts_of s0 f (fst ap)).
  Definition F (l : list Z) (sel : list (Z * Z)) (e : exc) (s' : tstate) : Prop :=
    E e s' \/ (exists dn acc, J dn acc s') /\ bad l sel.

  Lemma do_device_post a p ins acc s d dn : J dn acc s -> dget pair_eqb (t_devs s) (a, f) = Some d ->
    let l := match ins with Some l => l | None => insts_of s0 f a end in
    (forall dn' i rest, dn ++ map (fun i => (a, p, i)) l = dn' ++ (a, p, i) :: rest -> In i l -> In i (insts_of s0 f a) -> ok dn' a p i) ->
    post (do_device f a p body (ins, acc)) s
      (fun r s' => incl l (insts_of s0 f a) /\ fst r = Some l /\ J (dn ++ map (fun i => (a, p, i)) l) (snd r) s')
      (fun e s' => E e s' \/ (exists dn acc, J dn acc s') /\ ~ incl l (insts_of s0 f a)).
  Proof.
    intros HJ Ed l Hok. destruct (J_inv _ _ _ HJ) as [Hi Hl].
    assert (Ei : insts_of s0 f a = map ds_inst d).
    { rewrite (lay_insts _ _ _ _ Hl). unfold insts_of. now rewrite Ed. }
    unfold do_device. cbn [fst snd]. apply post_bind.
    apply (post_conseq _ _ (fun l' s' => l' = l /\ incl l (insts_of s0 f a) /\ J dn acc s') _
             (fun e s' => J dn acc s' /\ ~ incl l (insts_of s0 f a))).
    - destruct ins as [l0|]; subst l.
      + apply post_bind. pose proof (mfor_validate f a d l0 s Hi Ed) as P.
        pose proof (ro_mfor l0 (fun i => validate_instance f a i) (fun i => ro_validate_instance f a i) s Hi) as [R1 R2].
        unfold post in P |- * at 1. destruct (mfor l0 (fun i => validate_instance f a i) s) as [[u|e] s1]; cbn [snd] in R1, R2.
        * apply post_ret. split; [reflexivity|]. split; [rewrite Ei; apply P|]. eapply J_ro; eassumption.
        * split; [eapply J_ro; eassumption|]. rewrite Ei. exact P.
      + apply post_bind. destruct (t_get_mdmap_run f a s Hi) as (s1 & K1 & K2 & K3). unfold post at 1. rewrite K3, Ed.
        apply post_ret. split; [rewrite Ei; apply exp_md_keys|]. split; [intros x Hx; exact Hx|]. eapply J_ro; eassumption.
    - cbn beta. intros l' s1 (-> & Hin & HJ1). apply post_bind. eapply post_conseq.
      + apply (insts_loop a p l dn acc s1 HJ1). intros dn' i rest Hx Ex. apply (Hok dn' i rest Ex Hx). now apply Hin.
      + cbn beta. intros acc2 s2 H2. apply post_ret. auto.
      + cbn beta. intros e s2 HE. now left.
    - cbn beta. intros e s1 (HJ1 & Hn). right. split; [eauto|exact Hn].
  Qed.

  Definition do_step (fmap : list (Z * Z)) (st : option (list Z) * A) (ap : Z * Z) : M tstate (option (list Z) * A) :=
    if pkg_is fmap ap then do_device f (fst ap) (snd ap) body st else ret st.

  Lemma mfold_app2 {X B} (g : X -> B -> M tstate X) l1 l2 a s :
    mfold g (l1 ++ l2) a s = (let! x := mfold g l1 a in mfold g l2 x) s.
  Proof.
    revert a s. induction l1 as [|x l1 IH]; intros a s; [reflexivity|]. cbn [mfold app]. unfold mbind in *.
    destruct (g a x s) as [[y|e] s1]; [apply IH|reflexivity].
  Qed.

  Lemma do_flat fmap plist : forall alist st s,
    mfold (fun st a => match dget Z.eqb fmap a with
                       | None => ret st
                       | Some pkg => mfold (fun st p => if pkg =? p then do_device f a p body st else ret st) plist st
                       end) alist st s =
    mfold (do_step fmap) (flat_map (fun a => map (pair a) plist) alist) st s.
  Proof.
    assert (G : forall a st s, match dget Z.eqb fmap a with
                       | None => ret st
                       | Some pkg => mfold (fun st p => if pkg =? p then do_device f a p body st else ret st) plist st
                       end s = mfold (do_step fmap) (map (pair a) plist) st s).
    { intros a. unfold do_step, pkg_is. induction plist as [|p l IH]; intros st s; cbn [map mfold fst snd].
      - now destruct (dget Z.eqb fmap a).
      - destruct (dget Z.eqb fmap a) as [pkg|].
        + unfold mbind. destruct ((if pkg =? p then do_device f a p body st else ret st) s) as [[st1|e] s1]; [apply IH|reflexivity].
        + unfold mbind, ret at 2. apply IH. }
    induction alist as [|a l IH]; intros st s; [reflexivity|]. cbn [flat_map]. rewrite mfold_app2. cbn [mfold].
    unfold mbind. rewrite G. destruct (mfold _ (map (pair a) plist) st s) as [[st1|e] s1]; [apply IH|reflexivity].
  Qed.

  Lemma do_steps fmap : forall pairs ins acc s dn, J dn acc s ->
    (forall a pkg, dget Z.eqb fmap a = Some pkg -> exists d, dget pair_eqb (t_devs s0) (a, f) = Some d) ->
    let sel := filter (pkg_is fmap) pairs in let l := eff s0 f ins sel in
    (forall dn' a p i rest, dn ++ tuples l sel = dn' ++ (a, p, i) :: rest -> In (a, p) sel -> In i l -> In i (insts_of s0 f a) -> ok dn' a p i) ->
    post (mfold (do_step fmap) pairs (ins, acc)) s
      (fun r s' => (forall ap, In ap sel -> incl l (insts_of s0 f (fst ap))) /\ J (dn ++ tuples l sel) (snd r) s')
      (F l sel).
  Proof.
    induction pairs as [|[a p] pairs IH]; intros ins acc s dn HJ Hdev sel l Hok.
    - cbn [mfold]. apply post_ret. split; [intros ap []|]. cbn. now rewrite app_nil_r.
    - cbn [mfold]. apply post_bind. unfold do_step at 1. subst sel l. cbn [filter] in *.
      destruct (pkg_is fmap (a, p)) eqn:Ep.
      + cbn [fst snd]. assert (Hd : exists d, dget pair_eqb (t_devs s0) (a, f) = Some d).
        { unfold pkg_is in Ep. cbn [fst] in Ep. destruct (dget Z.eqb fmap a) as [pkg|] eqn:Ea; [|discriminate]. eauto. }
        destruct (J_inv _ _ _ HJ) as [Hi Hl].
        assert (Hd' : exists d, dget pair_eqb (t_devs s) (a, f) = Some d).
        { destruct Hd as (d0 & Ed0). specialize (Hl (a, f)). rewrite Ed0 in Hl. destruct (dget pair_eqb (t_devs s) (a, f)); [eauto|destruct Hl]. }
        destruct Hd' as (d & Ed).
        assert (El : match ins with Some l => l | None => insts_of s0 f a end = eff s0 f ins ((a, p) :: filter (pkg_is fmap) pairs)).
        { unfold eff. destruct ins; reflexivity. }
        pose proof (do_device_post a p ins acc s d dn HJ Ed) as P. cbv zeta in P. rewrite El in P.
        set (l := eff s0 f ins ((a, p) :: filter (pkg_is fmap) pairs)) in *. clearbody l.
        eapply post_conseq; [apply P| |].
        * intros dn' i rest Ex Hx Hy. apply (Hok dn' a p i (rest ++ tuples l (filter (pkg_is fmap) pairs))); [|now left|exact Hx|exact Hy].
          unfold tuples. cbn [flat_map fst snd]. rewrite app_assoc, Ex, <- app_assoc. reflexivity.
        * cbn beta. intros [ins1 acc1] s1 (R1 & R2 & R3). cbn [fst snd] in R2, R3. subst ins1.
          eapply post_conseq; [apply (IH (Some l) acc1 s1 _ R3 Hdev)| |].
          -- cbn [eff]. intros dn' b q i rest Ex Hap Hx Hy. apply (Hok dn' b q i rest); [|now right|exact Hx|exact Hy].
             rewrite <- Ex. unfold tuples. cbn [flat_map fst snd]. now rewrite app_assoc.
          -- cbn beta. intros r s2 (S3 & S4). cbn [eff] in *. split.
             ++ intros ap [<-|Hap]; cbn [fst]; [exact R1|auto].
             ++ unfold tuples in *. cbn [flat_map fst snd]. now rewrite <- app_assoc in S4.
          -- intros e s2 [HE|(K1 & ap & Hap & Hn)]; [now left|]. cbn [eff] in *. right. split; [exact K1|]. exists ap. split; [now right|exact Hn].
        * cbn beta. intros e s1 [HE|(K1 & Hn)]; [now left|]. right. split; [exact K1|]. exists (a, p). split; [now left|exact Hn].
      + apply post_ret. apply (IH ins acc s dn HJ Hdev Hok).
  Qed.

  Lemma iter_do_post addrs packages instances acc0 s : J [] acc0 s ->
    (forall fmap dn a p i rest, dget Z.eqb (te_fmaps env) f = Some fmap ->
       tuples (eff s0 f instances (sel_of env fmap addrs packages)) (sel_of env fmap addrs packages) = dn ++ (a, p, i) :: rest ->
       In (a, p) (sel_of env fmap addrs packages) -> In i (eff s0 f instances (sel_of env fmap addrs packages)) ->
       In i (insts_of s0 f a) -> ok dn a p i) ->
    post (iter_do env f addrs packages instances body acc0) s
      (fun acc s' => exists fmap, dget Z.eqb (te_fmaps env) f = Some fmap /\
         let sel := sel_of env fmap addrs packages in let l := eff s0 f instances sel in
         (forall ap, In ap sel -> incl l (insts_of s0 f (fst ap))) /\ J (tuples l sel) acc s')
      (fun e s' => E e s' \/ (exists dn acc, J dn acc s') /\
         (dget Z.eqb (te_fmaps env) f = None \/ exists fmap, dget Z.eqb (te_fmaps env) f = Some fmap /\
         ((exists a p, In a (or_none addrs) /\ In p (or_none packages) /\ validate_addr env fmap a p <> Ok tt) \/
          let sel := sel_of env fmap addrs packages in bad (eff s0 f instances sel) sel))).
  Proof.
    intros HJ Hok. destruct (reached_inv _ _ _ _ H0) as (Hi & Hl & Hef). unfold iter_do. apply post_bind.
    destruct (dget Z.eqb (te_fmaps env) f) as [fmap|] eqn:Ef.
    2:{ unfold post, lift. right. split; [eauto|now left]. }
    cbn [lift]. unfold post at 1, lift.
    apply post_bind. apply post_lift.
    2:{ intros e Ee. right. split; [eauto|]. right. exists fmap. split; [reflexivity|]. left. revert Ee. generalize (or_none addrs) as la.
        induction la as [|x la IHa]; cbn [rmap]; [discriminate|].
        destruct (rmap (or_none packages) (fun p => validate_addr env fmap x p)) as [us|e2] eqn:Er; cbn [rbind].
        - destruct (rmap la _) as [us'|e3] eqn:Er3; cbn [rbind]; [discriminate|].
          intros Ee. destruct (IHa Ee) as (a & p & K1 & K2 & K3). exists a, p. split; [now right|auto].
        - intros _. revert e2 Er. generalize (or_none packages) as lp. induction lp as [|y lp IHp]; cbn [rmap]; [discriminate|].
          intros e2 Er. destruct (validate_addr env fmap x y) as [[]|e4] eqn:Ev; cbn [rbind] in Er.
          + destruct (rmap lp _) as [us''|e5] eqn:Er5; cbn [rbind] in Er; [discriminate|].
            destruct (IHp _ eq_refl) as (a & p & K1 & K2 & K3). exists a, p. split; [exact K1|]. split; [now right|exact K3].
          + exists x, y. split; [now left|]. split; [now left|]. congruence. }
    intros us _. apply post_bind. unfold post at 1. rewrite do_flat.
    match goal with |- match ?m s with _ => _ end => fold (post m s) end.
    pose proof (do_steps fmap (flat_map (fun a => map (pair a) (plist_of env packages)) (alist_of fmap addrs)) instances acc0 s [] HJ) as P.
    fold (sel_of env fmap addrs packages) in P. cbv zeta in P.
    assert (Hdev : forall a pkg, dget Z.eqb fmap a = Some pkg -> exists d, dget pair_eqb (t_devs s0) (a, f) = Some d).
    { intros a pkg Ea. destruct (proj1 (ef_maps _ _ _ Hef f a pkg)) as [[d0 Hd0] _]; [eauto|]. pose proof (Hl (a, f)) as Hla. rewrite Hd0 in Hla.
      destruct (dget pair_eqb (t_devs s0) (a, f)); [eauto|destruct Hla]. }
    specialize (P Hdev). specialize (P (fun dn a p i rest => Hok fmap dn a p i rest eq_refl)). unfold post in P. unfold alist_of, plist_of in P.
    destruct (mfold (do_step fmap) _ (instances, acc0) s) as [[r|e] s1].
    - destruct P as (P3 & P4). unfold post, ret. exists fmap. split; [reflexivity|]. split; [exact P3|exact P4].
    - destruct P as [P|(P1 & P2)]; [now left|]. right. split; [exact P1|]. right. exists fmap. split; [reflexivity|]. right. exact P2.
  Qed.
End Iter.
