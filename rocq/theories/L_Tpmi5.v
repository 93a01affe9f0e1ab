(** Lemmas about TPMI: the constructor, register access in every reachable state. *)
From Verif Require Import Base L_Base L_Monad M_Text S_Text L_Text M_Kver M_Osa M_CPUInfo M_MSR S_MSR L_Bits
  M_Tpmi S_Tpmi L_Tpmi L_Tpmi2 L_Tpmi3 L_Tpmi4.
From Coq Require Import ZifyBool.

(** ** fname2addrs *)
Lemma dset_NoDupZ {V} (l : list (Z * V)) k v : NoDup (map fst l) -> NoDup (map fst (dset Z.eqb l k v)).
Proof. apply (dset_NoDup _ Zeqb_spec). Qed.

Definition has (fa : list (Z * list Z)) (f a : Z) : Prop := exists l, dget Z.eqb fa f = Some l /\ In a l.

Section Init.
  Variables (nm : tnames) (fdicts : list (Z * list (Z * rdict))) (f2n : list (Z * Z)).

  Lemma add_dir_has addr acc fid f a : NoDup (map fst acc) ->
    NoDup (map fst (add_dir f2n addr acc fid)) /\
    (has (add_dir f2n addr acc fid) f a <-> has acc f a \/ dget Z.eqb f2n fid = Some f /\ a = addr).
  Proof.
    intros Hn. unfold add_dir, has. destruct (dget Z.eqb f2n fid) as [g|] eqn:Eg.
    2:{ split; [exact Hn|]. split; [auto|]. intros [H|[H _]]; [exact H|discriminate]. }
    destruct (dget Z.eqb acc g) as [l|] eqn:El; (split; [now apply dset_NoDupZ|]);
      (destruct (Z.eq_dec f g) as [->|Hne];
       [rewrite (dget_dset_same _ Zeqb_spec)|rewrite (dget_dset_other _ Zeqb_spec) by exact Hne]).
    - split.
      + intros (l' & [= <-] & Hin). apply in_app_iff in Hin as [Hin|[<-|[]]]; [left; eauto|right; auto].
      + intros [(l' & E & Hin)|[_ ->]].
        * exists (l ++ [addr]). split; [reflexivity|]. apply in_app_iff. left. congruence.
        * exists (l ++ [addr]). split; [reflexivity|]. apply in_app_iff. right. now left.
    - split; [auto|]. intros [H|[[= H] _]]; [exact H|congruence].
    - split.
      + intros (l' & [= <-] & [<-|[]]). right. auto.
      + intros [(l' & E & Hin)|[_ ->]]; [congruence|]. exists [addr]. split; [reflexivity|now left].
    - split; [auto|]. intros [H|[[= H] _]]; [exact H|congruence].
  Qed.

  Lemma add_dirs_has addr f a : forall fids acc, NoDup (map fst acc) ->
    NoDup (map fst (fold_left (add_dir f2n addr) fids acc)) /\
    (has (fold_left (add_dir f2n addr) fids acc) f a <->
     has acc f a \/ exists fid, In fid fids /\ dget Z.eqb f2n fid = Some f /\ a = addr).
  Proof.
    induction fids as [|x fids IH]; intros acc Hn; cbn [fold_left].
    - split; [exact Hn|]. split; [auto|]. intros [H|(fid & [] & _)]. exact H.
    - destruct (add_dir_has addr acc x f a Hn) as [Hn' Hh]. destruct (IH _ Hn') as [H1 H2]. split; [exact H1|].
      rewrite H2, Hh. split.
      + intros [[H|H]|(fid & Hin & H)]; [auto|right; exists x; split; [now left|exact H]|right; exists fid; split; [now right|exact H]].
      + intros [H|(fid & [->|Hin] & H)]; [auto|left; auto|right; eauto].
  Qed.

  Lemma fname2addrs_has paths f a : NoDup (map fst (fname2addrs f2n paths)) /\
    (has (fname2addrs f2n paths) f a <->
     exists fids fid, In (a, fids) paths /\ In fid fids /\ dget Z.eqb f2n fid = Some f).
  Proof.
    unfold fname2addrs.
    assert (G : forall paths acc, NoDup (map fst acc) ->
      NoDup (map fst (fold_left (fun acc p => fold_left (add_dir f2n (fst p)) (snd p) acc) paths acc)) /\
      (has (fold_left (fun acc p => fold_left (add_dir f2n (fst p)) (snd p) acc) paths acc) f a <->
       has acc f a \/ exists fids fid, In (a, fids) paths /\ In fid fids /\ dget Z.eqb f2n fid = Some f)).
    { clear paths. induction paths as [|[x fs] paths IH]; intros acc Hn; cbn [fold_left].
      - split; [exact Hn|]. split; [auto|]. intros [H|(? & ? & [] & _)]. exact H.
      - cbn [fst snd]. destruct (add_dirs_has x f a fs acc Hn) as [Hn' Hh]. destruct (IH _ Hn') as [H1 H2].
        split; [exact H1|]. rewrite H2, Hh. split.
        + intros [[H|(fid & K1 & K2 & ->)]|(fids & fid & Hin & H)]; [auto| |].
          * right. exists fs, fid. split; [now left|auto].
          * right. exists fids, fid. split; [now right|exact H].
        + intros [H|(fids & fid & [E|Hin] & H)]; [auto| |].
          * injection E as -> ->. left. right. exists fid. tauto.
          * right. eauto. }
    destruct (G paths []) as [H1 H2]; [constructor|]. split; [exact H1|]. rewrite H2. split; [|auto].
    intros [(l & E & _)|H]; [discriminate|exact H].
  Qed.

  (** ** The loop of the constructor *)
  Variable created : list ((Z * Z) * dump).
  Hypothesis Hcr : forall k d, dget pair_eqb created k = Some d -> dump_ok d.
  Hypothesis Htab : tables_ok fdicts.

  Lemma reports_unique a p p' : reports nm fdicts created a p -> reports nm fdicts created a p' -> p = p'.
  Proof.
    intros (fd & rd & sm & d & v & E1 & E2 & E3 & E4 & Hv & b & Hb & Hf) (fd' & rd' & sm' & d' & v' & E1' & E2' & E3' & E4' & Hv' & b' & Hb' & Hf').
    assert (fd' = fd) by congruence. subst fd'. assert (rd' = rd) by congruence. subst rd'.
    assert (sm' = sm) by congruence. subst sm'. assert (d' = d) by congruence. subst d'.
    rewrite <- (reg_value_unique d 0 rd v v' ltac:(eauto) Hv Hv') in Hf'.
    rewrite <- (mask_unique b b' sm Hb Hb') in Hf'. eapply field_unique; [|exact Hf|exact Hf']. apply Hb.
  Qed.

  Record fmi (todo : list (Z * Z)) (st : list (Z * list (Z * Z)) * list Z) : Prop := {
    fi_sound : forall f fm a p, dget Z.eqb (fst st) f = Some fm -> dget Z.eqb fm a = Some p ->
      reports nm fdicts created a p /\ (f = n_info nm \/ exists d, dget pair_eqb created (a, f) = Some d);
    fi_done : forall f a, In (f, a) todo -> exists fm p, dget Z.eqb (fst st) f = Some fm /\ dget Z.eqb fm a = Some p;
    fi_info : exists fm, dget Z.eqb (fst st) (n_info nm) = Some fm;
    fi_infos : forall f fm a p, dget Z.eqb (fst st) f = Some fm -> dget Z.eqb fm a = Some p ->
      exists fmi, dget Z.eqb (fst st) (n_info nm) = Some fmi /\ dget Z.eqb fmi a = Some p;
    fi_nd : NoDup (map fst (fst st)) /\ forall f fm, dget Z.eqb (fst st) f = Some fm -> NoDup (map fst fm);
    fi_pkgs : NoDup (snd st) /\ forall p, In p (snd st) <->
      exists fm a, dget Z.eqb (fst st) (n_info nm) = Some fm /\ dget Z.eqb fm a = Some p
  }.

  Definition sdev (s : tstate) : Prop := tinv s /\ t_devs s = created.

  (** Reading the package number. *)
  Lemma read_package a s : sdev s ->
    post (t_read_register0 (TE fdicts [] []) (n_info nm) a 0 (n_bus nm) (Some (n_pkgid nm))) s
      (fun p s' => sdev s' /\ reports nm fdicts created a p) (fun _ s' => True).
  Proof.
    intros [Hi Hd]. destruct (ro_read0 (TE fdicts [] []) (n_info nm) a 0 (n_bus nm) (Some (n_pkgid nm)) s Hi) as [R1 R2].
    unfold post.
    destruct (t_read_register0 (TE fdicts [] []) (n_info nm) a 0 (n_bus nm) (Some (n_pkgid nm)) s) as [[p|e] s'] eqn:E; [|exact I].
    cbn [snd] in *. split; [split; [exact R1|congruence]|].
    (* the read succeeded: the register exists *)
    pose proof E as E0. unfold t_read_register0 in E0. unfold mbind at 1, lift at 1 in E0.
    destruct (get_regdict (TE fdicts [] []) (n_info nm) (n_bus nm)) as [rd|] eqn:Er; [|discriminate].
    unfold get_regdict in Er. cbn [te_fdicts] in Er. destruct (dget Z.eqb fdicts (n_info nm)) as [fd|] eqn:Ef; [|discriminate].
    destruct (dget Z.eqb fd (n_bus nm)) as [rd0|] eqn:Er0; [|discriminate]. injection Er as ->.
    unfold mbind at 1 in E0. rewrite t_build_run in E0 by exact Hi.
    destruct (dget pair_eqb (t_devs s) (a, n_info nm)) as [d|] eqn:Ed; [|discriminate].
    pose proof (Htab _ _ _ _ Ef Er0) as Hreg. pose proof (proj1 Hi _ _ Ed) as Hdok.
    assert (V : forall o, (exists v, holds d 0 o v) \/ fst (t_read a (n_info nm) 0 o (exp_md 0 d) s) = Exn EError).
    { intros o. destruct (word_exists d 0 o) eqn:Ew; [left; now apply word_exists_spec|right].
      assert (Hno : forall v, ~ holds d 0 o v).
      { intros v Hv. assert (word_exists d 0 o = true) by (apply word_exists_spec; eauto). congruence. }
      destruct (C34_only_l d 0 o (show d) Hdok Hno) as (md & Eb & Em). rewrite build_show in Eb by exact Hdok. injection Eb as <-.
      unfold t_read, mbind at 1, lift at 1. unfold read_text in Em.
      destruct (validate_instance_offset (exp_md 0 d) 0 o) as [pp|e] eqn:Ev; cbn [rbind] in Em.
      + unfold mbind, t_text. rewrite Ed. unfold lift, read_text. rewrite Ev. cbn [rbind]. now rewrite Em.
      + now injection Em as ->. }
    assert (Hval : exists v, reg_value d 0 rd v).
    { unfold mbind at 1 in E0. destruct (V (rd_offset rd)) as [(lo & Hlo)|Hbad].
      2:{ destruct (t_read a (n_info nm) 0 (rd_offset rd) (exp_md 0 d) s) as [r1 s1]. cbn [fst] in Hbad. subst r1. discriminate. }
      destruct Hreg as (Ho & Hm & [Hw|Hw] & _).
      - exists lo. left. auto.
      - rewrite (t_read_run a _ 0 (rd_offset rd) s d lo Hi Ed Ho Hm Hlo) in E0. rewrite Hw in E0. change (32 <? 64) with true in E0. cbv iota in E0.
        unfold mbind at 1 in E0. unfold mbind at 1 in E0. destruct (V (rd_offset rd + 4)) as [(hi & Hhi)|Hbad].
        + exists (lo + 2 ^ 32 * hi). right. eauto 10.
        + destruct (t_read a (n_info nm) 0 (rd_offset rd + 4) (exp_md 0 d) s) as [r1 s1]. cbn [fst] in Hbad. subst r1. discriminate. }
    destruct Hval as (v & Hv). destruct (dget Z.eqb (rd_fields rd) (n_pkgid nm)) as [sm|] eqn:Esm.
    - assert (Hdef : reg_def (TE fdicts [] []) (n_info nm) (n_bus nm) rd) by (exists fd; auto).
      rewrite (read0_field_run (TE fdicts [] []) (n_info nm) a 0 (n_bus nm) (n_pkgid nm) sm s d rd v Hi Ed Hdef Hreg Hv Esm) in E.
      injection E as <- <-. destruct Hreg as (_ & _ & _ & Hmask). destruct (Hmask _ _ Esm) as (b & Hb).
      exists fd, rd, sm, d, v. repeat (split; [assumption|]). split; [congruence|]. split; [exact Hv|].
      exists b. split; [exact Hb|]. now apply get_bitfield_field.
    - exfalso. assert (Hdef : reg_def (TE fdicts [] []) (n_info nm) (n_bus nm) rd) by (exists fd; auto).
      pose proof (read0_run (TE fdicts [] []) (n_info nm) a 0 (n_bus nm) s d rd v Hi Ed Hdef Hreg Hv) as R.
      unfold t_read_register0 in E, R. rewrite (get_regdict_known _ _ _ _ Hdef) in E, R. unfold lift in E, R. unfold mbind in E, R.
      destruct (t_build a (n_info nm) s) as [[md|e] s1]; [|discriminate].
      destruct (t_read a (n_info nm) 0 (rd_offset rd) md s1) as [[v0|e] s2]; [|discriminate].
      match type of R with (match ?m with _ => _ end) = _ => destruct m as [[v1|e] s3]; [|discriminate] end.
      unfold get_bfdict in E. rewrite (get_regdict_known _ _ _ _ Hdef) in E. cbn [rbind] in E. rewrite Esm in E. discriminate.
  Qed.

  Lemma fm_get_some fmaps f fm : dget Z.eqb fmaps f = Some fm -> fm_get fmaps f = fm.
  Proof. intros E. unfold fm_get. now rewrite E. Qed.

  (** Adding an address to a map keeps the invariant. *)
  Lemma fmi_add_info todo fmaps pkgs a p : fmi todo (fmaps, pkgs) -> reports nm fdicts created a p ->
    dget Z.eqb (fm_get fmaps (n_info nm)) a = None ->
    fmi todo (fm_add fmaps (n_info nm) a p, if inb p pkgs then pkgs else pkgs ++ [p]).
  Proof.
    intros H Hr Hnew. destruct H as [H1 H2 [fm0 H3] H4 [H5 H5'] [H6 H7]]. cbn [fst snd] in *.
    rewrite (fm_get_some _ _ _ H3) in Hnew. unfold fm_add. rewrite (fm_get_some _ _ _ H3).
    assert (G : forall f fm, dget Z.eqb (dset Z.eqb fmaps (n_info nm) (dset Z.eqb fm0 a p)) f = Some fm ->
                (f = n_info nm /\ fm = dset Z.eqb fm0 a p) \/ (f <> n_info nm /\ dget Z.eqb fmaps f = Some fm)).
    { intros f fm E. destruct (Z.eq_dec f (n_info nm)) as [->|Hne].
      - rewrite (dget_dset_same _ Zeqb_spec) in E. injection E as <-. auto.
      - rewrite (dget_dset_other _ Zeqb_spec) in E by exact Hne. auto. }
    split; cbn [fst snd].
    - intros f fm x q E Ex. destruct (G f fm E) as [[-> ->]|[Hne E']]; [|eauto].
      destruct (Z.eq_dec x a) as [->|Hx].
      + rewrite (dget_dset_same _ Zeqb_spec) in Ex. injection Ex as <-. auto.
      + rewrite (dget_dset_other _ Zeqb_spec) in Ex by exact Hx. eauto.
    - intros f x Hin. destruct (H2 f x Hin) as (fm & q & E & Ex). destruct (Z.eq_dec f (n_info nm)) as [->|Hne].
      + exists (dset Z.eqb fm0 a p). assert (fm = fm0) by congruence. subst fm. rewrite (dget_dset_same _ Zeqb_spec).
        destruct (Z.eq_dec x a) as [->|Hx]; [congruence|]. exists q. rewrite (dget_dset_other _ Zeqb_spec) by exact Hx. auto.
      + exists fm, q. rewrite (dget_dset_other _ Zeqb_spec) by exact Hne. auto.
    - rewrite (dget_dset_same _ Zeqb_spec). eauto.
    - intros f fm x q E Ex. exists (dset Z.eqb fm0 a p). rewrite (dget_dset_same _ Zeqb_spec). split; [reflexivity|].
      destruct (G f fm E) as [[-> ->]|[Hne E']]; [exact Ex|]. destruct (H4 f fm x q E' Ex) as (fmi & K1 & K2).
      assert (fmi = fm0) by congruence. subst fmi. destruct (Z.eq_dec x a) as [->|Hx]; [congruence|].
      now rewrite (dget_dset_other _ Zeqb_spec) by exact Hx.
    - split; [now apply dset_NoDupZ|]. intros f fm E. destruct (G f fm E) as [[-> ->]|[Hne E']]; [|eauto].
      apply dset_NoDupZ. eauto.
    - assert (Hin : forall q, In q (if inb p pkgs then pkgs else pkgs ++ [p]) <-> In q pkgs \/ q = p).
      { intros q. destruct (inb p pkgs) eqn:E.
        - apply inb_In in E. split; [auto|]. intros [Hq| ->]; assumption.
        - rewrite in_app_iff. cbn. intuition. }
      split.
      + destruct (inb p pkgs) eqn:E; [exact H6|]. apply inb_false in E. apply NoDup_rev in H6. apply NoDup_rev in H6.
        rewrite rev_involutive in H6. rewrite <- (rev_involutive (pkgs ++ [p])). apply NoDup_rev. rewrite rev_app_distr. cbn.
        constructor; [now rewrite <- in_rev|now apply NoDup_rev].
      + intros q. rewrite Hin, H7. rewrite (dget_dset_same _ Zeqb_spec). split.
        * intros [(fm & x & E & Ex)| ->].
          -- exists (dset Z.eqb fm0 a p), x. split; [reflexivity|]. assert (fm = fm0) by congruence. subst fm.
             destruct (Z.eq_dec x a) as [->|Hx]; [congruence|]. now rewrite (dget_dset_other _ Zeqb_spec) by exact Hx.
          -- exists (dset Z.eqb fm0 a p), a. split; [reflexivity|]. apply (dget_dset_same _ Zeqb_spec).
        * intros (fm & x & [= <-] & Ex). destruct (Z.eq_dec x a) as [->|Hx].
          -- rewrite (dget_dset_same _ Zeqb_spec) in Ex. injection Ex as <-. auto.
          -- rewrite (dget_dset_other _ Zeqb_spec) in Ex by exact Hx. left. eauto.
  Qed.

  Lemma fmi_add todo fmaps pkgs f a p : fmi todo (fmaps, pkgs) -> f <> n_info nm ->
    (exists d, dget pair_eqb created (a, f) = Some d) -> dget Z.eqb (fm_get fmaps (n_info nm)) a = Some p ->
    (exists fm, dget Z.eqb fmaps f = Some fm) ->
    fmi todo (fm_add fmaps f a p, pkgs).
  Proof.
    intros H Hf Hd Hinfo [fm1 Hfm1]. destruct H as [H1 H2 [fm0 H3] H4 [H5 H5'] [H6 H7]]. cbn [fst snd] in *.
    rewrite (fm_get_some _ _ _ H3) in Hinfo. unfold fm_add. rewrite (fm_get_some _ _ _ Hfm1).
    assert (G : forall g fm, dget Z.eqb (dset Z.eqb fmaps f (dset Z.eqb fm1 a p)) g = Some fm ->
                (g = f /\ fm = dset Z.eqb fm1 a p) \/ (g <> f /\ dget Z.eqb fmaps g = Some fm)).
    { intros g fm E. destruct (Z.eq_dec g f) as [->|Hne].
      - rewrite (dget_dset_same _ Zeqb_spec) in E. injection E as <-. auto.
      - rewrite (dget_dset_other _ Zeqb_spec) in E by exact Hne. auto. }
    assert (Hi : dget Z.eqb (dset Z.eqb fmaps f (dset Z.eqb fm1 a p)) (n_info nm) = Some fm0).
    { rewrite (dget_dset_other _ Zeqb_spec) by congruence. exact H3. }
    split; cbn [fst snd].
    - intros g fm x q E Ex. destruct (G g fm E) as [[-> ->]|[Hne E']]; [|eauto].
      destruct (Z.eq_dec x a) as [->|Hx].
      + rewrite (dget_dset_same _ Zeqb_spec) in Ex. injection Ex as <-. split; [|auto]. exact (proj1 (H1 _ _ _ _ H3 Hinfo)).
      + rewrite (dget_dset_other _ Zeqb_spec) in Ex by exact Hx. eauto.
    - intros g x Hin. destruct (H2 g x Hin) as (fm & q & E & Ex). destruct (Z.eq_dec g f) as [->|Hne].
      + exists (dset Z.eqb fm1 a p). assert (fm = fm1) by congruence. subst fm. rewrite (dget_dset_same _ Zeqb_spec).
        destruct (Z.eq_dec x a) as [->|Hx].
        * exists p. rewrite (dget_dset_same _ Zeqb_spec). auto.
        * exists q. rewrite (dget_dset_other _ Zeqb_spec) by exact Hx. auto.
      + exists fm, q. rewrite (dget_dset_other _ Zeqb_spec) by exact Hne. auto.
    - eauto.
    - intros g fm x q E Ex. exists fm0. split; [exact Hi|].
      destruct (G g fm E) as [[-> ->]|[Hne E']].
      + destruct (Z.eq_dec x a) as [->|Hx].
        * rewrite (dget_dset_same _ Zeqb_spec) in Ex. now injection Ex as <-.
        * rewrite (dget_dset_other _ Zeqb_spec) in Ex by exact Hx. destruct (H4 f fm1 x q Hfm1 Ex) as (fmi & K1 & K2). congruence.
      + destruct (H4 g fm x q E' Ex) as (fmi & K1 & K2). congruence.
    - split; [now apply dset_NoDupZ|]. intros g fm E. destruct (G g fm E) as [[-> ->]|[Hne E']]; [|eauto].
      apply dset_NoDupZ. eauto.
    - split; [exact H6|]. intros q. rewrite H7. rewrite Hi, H3. reflexivity.
  Qed.

  Lemma fmi_more todo st f a : fmi todo st -> (exists fm p, dget Z.eqb (fst st) f = Some fm /\ dget Z.eqb fm a = Some p) ->
    fmi (todo ++ [(f, a)]) st.
  Proof.
    intros [H1 H2 H3 H4 H5 H6] Hd. split; try assumption. intros g x Hin. apply in_app_iff in Hin as [Hin|[[= <- <-]|[]]]; eauto.
  Qed.

  Lemma fm_add_keeps fmaps f a p g : (exists fm, dget Z.eqb fmaps g = Some fm) -> exists fm, dget Z.eqb (fm_add fmaps f a p) g = Some fm.
  Proof.
    intros [fm E]. unfold fm_add. destruct (Z.eq_dec g f) as [->|Hne].
    - rewrite (dget_dset_same _ Zeqb_spec). eauto.
    - rewrite (dget_dset_other _ Zeqb_spec) by exact Hne. eauto.
  Qed.

  Lemma build_addr_post f todo st a s : sdev s -> fmi todo st -> (exists fm, dget Z.eqb (fst st) f = Some fm) ->
    (exists d, dget pair_eqb created (a, f) = Some d) ->
    post (build_addr nm fdicts f st a) s
      (fun st' s' => sdev s' /\ fmi (todo ++ [(f, a)]) st' /\ exists fm, dget Z.eqb (fst st') f = Some fm) (fun _ _ => True).
  Proof.
    intros Hs Hf [fm Efm] Hd. unfold build_addr. destruct st as [fmaps pkgs]. cbn [fst snd] in *.
    rewrite (fm_get_some _ _ _ Efm). destruct (dget Z.eqb fm a) as [p|] eqn:Ea.
    { apply post_ret. split; [exact Hs|]. split; [|eauto]. apply fmi_more; [exact Hf|]. cbn [fst]. eauto. }
    apply post_bind.
    apply (post_conseq _ _ (fun st1 s1 => sdev s1 /\ fmi todo st1 /\ (exists fm, dget Z.eqb (fst st1) f = Some fm) /\
             exists p, dget Z.eqb (fm_get (fst st1) (n_info nm)) a = Some p) _ (fun _ _ => True)).
    { destruct (dget Z.eqb (fm_get fmaps (n_info nm)) a) as [p|] eqn:Ei.
      - apply post_ret. split; [exact Hs|]. split; [exact Hf|]. split; [eauto|]. exists p. exact Ei.
      - apply post_bind. apply (post_conseq _ _ (fun md s1 => s1 = s /\ exists d, dget pair_eqb created (a, n_info nm) = Some d /\ md = exp_md 0 d) _ (fun _ _ => True)).
        + unfold post. rewrite t_build_run by apply Hs. rewrite (proj2 Hs).
          destruct (dget pair_eqb created (a, n_info nm)) as [d|] eqn:Ed; [|exact I]. split; [reflexivity|]. eauto.
        + intros md s1 (-> & d & Ed & Emd). apply post_bind. eapply post_conseq; [apply read_package; exact Hs| |auto].
          intros p s1 [Hs1 Hp]. apply post_bind. apply post_modify. apply post_ret. split; [|split; [|split]].
          * destruct Hs1 as [[T1 T2] T3]. split; [|exact T3]. split; cbn [t_devs t_mds]; [exact T1|].
            intros k md' Ek. destruct (pair_dec k (a, n_info nm)) as [->|Hne].
            -- rewrite (dget_dset_same _ pair_eqb_spec) in Ek. injection Ek as <-. exists d. rewrite T3. auto.
            -- rewrite (dget_dset_other _ pair_eqb_spec) in Ek by exact Hne. eauto.
          * now apply fmi_add_info.
          * cbn [fst]. apply fm_add_keeps. eauto.
          * cbn [fst]. exists p. unfold fm_add. rewrite (fm_get_some _ _ (dset Z.eqb (fm_get fmaps (n_info nm)) a p)); apply (dget_dset_same _ Zeqb_spec).
        + auto. }
    2: auto.
    intros [fmaps1 pkgs1] s1 (Hs1 & Hf1 & Hfm1 & p & Hp). cbn [fst snd] in *. destruct (f =? n_info nm) eqn:Efi.
    - assert (f = n_info nm) by lia. subst f. apply post_ret. split; [exact Hs1|]. split; [|exact Hfm1].
      apply fmi_more; [exact Hf1|]. cbn [fst]. destruct Hfm1 as [fm1 Efm1]. rewrite (fm_get_some _ _ _ Efm1) in Hp. eauto.
    - rewrite Hp. apply post_ret. split; [exact Hs1|]. split.
      + apply fmi_more; [apply fmi_add; auto; lia|]. cbn [fst]. unfold fm_add. rewrite (dget_dset_same _ Zeqb_spec).
        eexists _, p. split; [reflexivity|]. apply (dget_dset_same _ Zeqb_spec).
      + cbn [fst]. now apply fm_add_keeps.
  Qed.

  Lemma fm_init_fmi todo fmaps pkgs f : fmi todo (fmaps, pkgs) ->
    fmi todo (fm_init fmaps f, pkgs) /\ exists fm, dget Z.eqb (fm_init fmaps f) f = Some fm.
  Proof.
    intros H. unfold fm_init. destruct (dget Z.eqb fmaps f) as [fm|] eqn:E; [split; [exact H|eauto]|].
    split; [|rewrite (dget_dset_same _ Zeqb_spec); eauto].
    destruct H as [H1 H2 [fm0 H3] H4 [H5 H5'] [H6 H7]]. cbn [fst snd] in *.
    assert (Hne : n_info nm <> f) by congruence.
    assert (G : forall g fm, dget Z.eqb (dset Z.eqb fmaps f []) g = Some fm ->
                (g = f /\ fm = []) \/ (g <> f /\ dget Z.eqb fmaps g = Some fm)).
    { intros g fm Eg. destruct (Z.eq_dec g f) as [->|Hg].
      - rewrite (dget_dset_same _ Zeqb_spec) in Eg. injection Eg as <-. auto.
      - rewrite (dget_dset_other _ Zeqb_spec) in Eg by exact Hg. auto. }
    assert (Hi : dget Z.eqb (dset Z.eqb fmaps f []) (n_info nm) = Some fm0).
    { now rewrite (dget_dset_other _ Zeqb_spec). }
    split; cbn [fst snd].
    - intros g fm x q Eg Ex. destruct (G g fm Eg) as [[-> ->]|[Hg E']]; [discriminate|eauto].
    - intros g x Hin. destruct (H2 g x Hin) as (fm & q & Eg & Ex). exists fm, q.
      rewrite (dget_dset_other _ Zeqb_spec) by congruence. auto.
    - eauto.
    - intros g fm x q Eg Ex. destruct (G g fm Eg) as [[-> ->]|[Hg E']]; [discriminate|].
      destruct (H4 g fm x q E' Ex) as (fmi & K1 & K2). exists fmi. rewrite Hi. split; congruence.
    - split; [now apply dset_NoDupZ|]. intros g fm Eg. destruct (G g fm Eg) as [[-> ->]|[Hg E']]; [constructor|eauto].
    - split; [exact H6|]. intros q. rewrite H7, Hi, H3. reflexivity.
  Qed.

  Lemma build_addrs_post f : forall l todo st s, sdev s -> fmi todo st -> (exists fm, dget Z.eqb (fst st) f = Some fm) ->
    (forall a, In a l -> exists d, dget pair_eqb created (a, f) = Some d) ->
    post (mfold (build_addr nm fdicts f) l st) s
      (fun st' s' => sdev s' /\ fmi (todo ++ map (fun a => (f, a)) l) st') (fun _ _ => True).
  Proof.
    induction l as [|a l IH]; intros todo st s Hs Hf Hfm Hl; cbn [mfold map].
    - apply post_ret. rewrite app_nil_r. auto.
    - apply post_bind. eapply post_conseq; [apply (build_addr_post f todo st a s Hs Hf Hfm); apply Hl; now left| |auto].
      intros st1 s1 (Hs1 & Hf1 & Hfm1). eapply post_conseq; [apply (IH (todo ++ [(f, a)]) st1 s1 Hs1 Hf1 Hfm1)| |auto].
      + intros x Hx. apply Hl. now right.
      + intros st2 s2 [K1 K2]. split; [exact K1|]. now rewrite <- app_assoc in K2.
  Qed.

  Lemma build_all_post : forall fa todo st s, sdev s -> fmi todo st ->
    (forall f l a, In (f, l) fa -> In a l -> exists d, dget pair_eqb created (a, f) = Some d) ->
    post (mfold (fun st e => mfold (build_addr nm fdicts (fst e)) (snd e) (fm_init (fst st) (fst e), snd st)) fa st) s
      (fun st' s' => sdev s' /\ fmi (todo ++ flat_map (fun e => map (fun a => (fst e, a)) (snd e)) fa) st') (fun _ _ => True).
  Proof.
    induction fa as [|[f l] fa IH]; intros todo st s Hs Hf Hfa; cbn [mfold flat_map fst snd].
    - apply post_ret. rewrite app_nil_r. auto.
    - destruct st as [fmaps pkgs]. cbn [fst snd]. destruct (fm_init_fmi todo fmaps pkgs f Hf) as [Hf' Hfm].
      apply post_bind. eapply post_conseq; [apply (build_addrs_post f l todo (fm_init fmaps f, pkgs) s Hs Hf' Hfm)| |auto].
      + intros a Ha. eapply Hfa; [now left|exact Ha].
      + intros st1 s1 [Hs1 Hf1]. eapply post_conseq; [apply (IH _ st1 s1 Hs1 Hf1)| |auto].
        * intros g m a Hg. apply (Hfa g m a). now right.
        * intros st2 s2 [K1 K2]. split; [exact K1|]. now rewrite <- app_assoc in K2.
  Qed.
End Init.

(** What the constructor establishes. *)
Record env_facts (nm : tnames) (env : tenv) (created : list ((Z * Z) * dump)) : Prop := {
  ef_tables : tables_ok (te_fdicts env);
  ef_maps : forall f a p, (exists fm, dget Z.eqb (te_fmaps env) f = Some fm /\ dget Z.eqb fm a = Some p) <->
    (exists d, dget pair_eqb created (a, f) = Some d) /\ reports nm (te_fdicts env) created a p;
  ef_has : forall f a d, dget pair_eqb created (a, f) = Some d -> exists fm p, dget Z.eqb (te_fmaps env) f = Some fm /\ dget Z.eqb fm a = Some p;
  ef_nd : forall f fm, dget Z.eqb (te_fmaps env) f = Some fm -> NoDup (map fst fm);
  ef_pkgs : NoDup (te_packages env) /\
    forall p, In p (te_packages env) <-> exists a, reports nm (te_fdicts env) created a p /\ exists d, dget pair_eqb created (a, n_info nm) = Some d
}.

Lemma init_facts nm env created f2n paths s :
  (forall k d, dget pair_eqb created k = Some d -> dump_ok d) -> dirs_match f2n paths created ->
  tables_ok (te_fdicts env) ->
  tpmi_init nm (te_fdicts env) f2n paths (TS created []) = (Ok env, s) ->
  tinv s /\ t_devs s = created /\ env_facts nm env created.
Proof.
  intros Hcr Hm Ht E. unfold tpmi_init in E.
  assert (Hhas : forall f l a, In (f, l) (fname2addrs f2n paths) -> In a l -> exists d, dget pair_eqb created (a, f) = Some d).
  { intros f l a Hin Ha. apply Hm. apply (proj2 (fname2addrs_has f2n paths f a)). exists l. split; [|exact Ha].
    apply (In_dget _ Zeqb_spec); [apply (fname2addrs_has f2n paths f a)|exact Hin]. }
  destruct (fname2addrs f2n paths) as [|e0 fa0] eqn:Efa; [discriminate|].
  destruct (dget Z.eqb (e0 :: fa0) (n_info nm)) as [li|] eqn:Eli; [|discriminate].
  rewrite <- Efa in *. clear e0 fa0 Efa.
  assert (Hs0 : sdev created (TS created [])).
  { split; [|reflexivity]. split; [exact Hcr|]. cbn. discriminate. }
  assert (Hf0 : fmi nm (te_fdicts env) created [] ([(n_info nm, [])], [])).
  { split; cbn [fst snd].
    - intros f fm a p E1 E2. cbn in E1. destruct (f =? n_info nm); [|discriminate]. injection E1 as <-. discriminate.
    - intros f a [].
    - cbn. rewrite Z.eqb_refl. eauto.
    - intros f fm a p E1 E2. cbn in E1. destruct (f =? n_info nm); [|discriminate]. injection E1 as <-. discriminate.
    - split; [cbn; constructor; [intros []|constructor]|]. intros f fm E1. cbn in E1.
      destruct (f =? n_info nm); [|discriminate]. injection E1 as <-. constructor.
    - split; [constructor|]. intros p. split; [intros []|]. intros (fm & a & E1 & E2). cbn in E1. rewrite Z.eqb_refl in E1.
      injection E1 as <-. discriminate. }
  pose proof (build_all_post nm (te_fdicts env) created Ht (fname2addrs f2n paths) [] _ _ Hs0 Hf0 Hhas) as P.
  unfold mbind at 1 in E. unfold post in P.
  destruct (mfold _ (fname2addrs f2n paths) ([(n_info nm, [])], []) (TS created [])) as [[st|e] s1]; [|discriminate].
  unfold ret in E. apply pair_equal_spec in E as [E <-]. assert (Eenv : env = TE (te_fdicts env) (fst st) (snd st)) by congruence.
  destruct P as [[P1 P2] P3]. split; [exact P1|]. split; [exact P2|].
  assert (Efm : te_fmaps env = fst st) by now rewrite Eenv. assert (Epk : te_packages env = snd st) by now rewrite Eenv.
  clear Eenv E. destruct P3 as [F1 F2 [fm0 F3] F4 [F5 F5'] [F6 F7]]. cbn [app] in F2.
  assert (Hdone : forall f a d, dget pair_eqb created (a, f) = Some d -> exists fm p, dget Z.eqb (fst st) f = Some fm /\ dget Z.eqb fm a = Some p).
  { intros f a d Hd. apply F2. destruct (fname2addrs_has f2n paths f a) as [_ Hh].
    destruct (proj2 Hh) as (l & El & Ha); [apply Hm; eauto|]. apply in_flat_map. exists (f, l). split; [now apply (dget_In _ Zeqb_spec)|].
    cbn [fst snd]. apply in_map_iff. eauto. }
  assert (Hinfo : forall a p, reports nm (te_fdicts env) created a p -> exists d, dget pair_eqb created (a, n_info nm) = Some d).
  { intros a p (fd & rd & sm & d & v & _ & _ & _ & Hd & _). eauto. }
  split.
  - exact Ht.
  - intros f a p. rewrite Efm. split.
    + intros (fm & E1 & E2). destruct (F1 f fm a p E1 E2) as [K1 [->|K2]]; [|auto]. split; [eauto|exact K1].
    + intros [[d Hd] Hr]. destruct (Hdone f a d Hd) as (fm & q & E1 & E2). exists fm. split; [exact E1|].
      destruct (F1 f fm a q E1 E2) as [Hq _]. rewrite E2. f_equal. eapply reports_unique; eassumption.
  - intros f a d Hd. rewrite Efm. eauto.
  - intros f fm. rewrite Efm. eauto.
  - rewrite Epk. split; [exact F6|]. intros p. rewrite F7. split.
    + intros (fm & a & E1 & E2). destruct (F1 _ _ _ _ E1 E2) as [K1 _]. exists a. split; [exact K1|]. eauto.
    + intros (a & Hr & d & Hd). destruct (Hdone _ _ _ Hd) as (fm & q & E1 & E2). exists fm, a. split; [exact E1|].
      destruct (F1 _ _ _ _ E1 E2) as [Hq _]. rewrite E2. f_equal. eapply reports_unique; eassumption.
Qed.

Lemma reached_inv nm env created s : reached nm env created s ->
  tinv s /\ lay created (t_devs s) /\ env_facts nm env created.
Proof.
  intros H. induction H as [f2n paths s H1 H2 H3 H4|s f a i r b H IH|s v f a i r b H IH|s f a p i H IH|s k d d' H IH E Hl Hd'].
  - destruct (init_facts _ _ _ _ _ _ H1 H2 H3 H4) as (K1 & K2 & K3). rewrite K2. split; [exact K1|]. split; [apply lay_refl|exact K3].
  - destruct IH as (K1 & K2 & K3). destruct (ro_read_register env f a i r b s K1) as [R1 R2]. rewrite R2. auto.
  - destruct IH as (K1 & K2 & K3). destruct (wr_write_register env v f a i r b s K1) as [R1 R2].
    split; [exact R1|]. split; [eapply lay_trans; eassumption|exact K3].
  - destruct IH as (K1 & K2 & K3). destruct (ro_iter env f a p i s K1) as [R1 R2]. rewrite R2. auto.
  - destruct IH as (K1 & K2 & K3). split; [eapply tinv_change; eassumption|]. split; [|exact K3]. cbn [t_devs].
    eapply lay_trans; [exact K2|]. eapply lay_dset; eassumption.
Qed.

Lemma lay_back D D' k d' : lay D D' -> dget pair_eqb D' k = Some d' -> exists d, dget pair_eqb D k = Some d.
Proof. intros H E. specialize (H k). rewrite E in H. destruct (dget pair_eqb D k); [eauto|destruct H]. Qed.

Lemma reached_known nm env created s f a r rd d : reached nm env created s -> dget pair_eqb (t_devs s) (a, f) = Some d ->
  reg_def env f r rd -> known env f a r rd /\ reg_ok rd.
Proof.
  intros H E Hr. destruct (reached_inv _ _ _ _ H) as (K1 & K2 & K3). split.
  - split; [|exact Hr]. destruct (lay_back _ _ _ _ K2 E) as (d0 & E0). apply (ef_has _ _ _ K3) in E0. exact E0.
  - destruct Hr as (fd & E1 & E2). eapply (ef_tables _ _ _ K3); eassumption.
Qed.
