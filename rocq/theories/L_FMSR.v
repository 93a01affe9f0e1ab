(** Lemmas about MSR features. *)
From Coq Require Import Ascii String ZifyBool.
From Verif Require Import Base L_Base L_Monad M_CPUInfo S_CPUInfo L_CPUInfo M_Text M_MSR S_MSR L_Bits
  L_MSR L_MSR2 L_MSR3 L_MSR4 M_Osa S_Osa L_Osa M_FMSR S_FMSR L_Text.

Lemma fval_eqb_spec a b : fval_eqb a b = true <-> a = b.
Proof.
  destruct a as [x|x|x], b as [y|y|y]; cbn; try (split; discriminate).
  - rewrite str_eqb_spec. split; congruence.
  - destruct (Bool.eqb_spec x y); split; congruence.
  - rewrite Z.eqb_eq. split; congruence.
Qed.

Lemma lower_nocase a b : lower a = lower b <-> nocase a b.
Proof. exact (C40_case_l a b). Qed.

Lemma nocase_sym a b : nocase a b -> nocase b a.
Proof. rewrite <- !lower_nocase. auto. Qed.
Lemma nocase_trans a b c : nocase a b -> nocase b c -> nocase a c.
Proof. rewrite <- !lower_nocase. congruence. Qed.
Lemma nocase_refl a : nocase a a.
Proof. now rewrite <- lower_nocase. Qed.

Lemma same_name_sym v w : same_name v w -> same_name w v.
Proof. intros [->|(s & t & -> & -> & H)]; [now left|]. right. exists t, s. auto using nocase_sym. Qed.
Lemma same_name_trans u v w : same_name u v -> same_name v w -> same_name u w.
Proof.
  intros [->|(s & t & -> & -> & H)]; [auto|]. intros [<-|(s' & t' & [= <-] & -> & H')].
  - right. eauto.
  - right. exists s, t'. eauto using nocase_trans.
Qed.

Lemma ftype_eqb_spec a b : ftype_eqb a b = true <-> a = b.
Proof. destruct a, b; cbn; split; congruence. Qed.

(** Building a dictionary in a loop. *)
Lemma fold_dset {K V X} (eqb : K -> K -> bool) (spec : forall a b, eqb a b = true <-> a = b)
    (g : list (K * V) -> X -> list (K * V)) (kv : X -> option (K * V)) :
  (forall d x, g d x = match kv x with Some (k, v) => dset eqb d k v | None => d end) ->
  forall l d0 k,
  match dget eqb (fold_left g l d0) k with
  | Some v => (exists x, In x l /\ kv x = Some (k, v)) \/ dget eqb d0 k = Some v
  | None => (forall x v, In x l -> kv x <> Some (k, v)) /\ dget eqb d0 k = None
  end.
Proof.
  intros Hg. induction l as [|x t IH]; intros d0 k; cbn [fold_left].
  - destruct (dget eqb d0 k); auto.
  - specialize (IH (g d0 x) k). destruct (dget eqb (fold_left g t (g d0 x)) k) as [v|].
    + destruct IH as [(y & Hy & E)|E]; [left; exists y; cbn; auto|].
      rewrite Hg in E. destruct (kv x) as [[k' v']|] eqn:Ex; [|auto].
      destruct (eqb k k') eqn:Ek.
      * apply spec in Ek. subst k'. rewrite (dget_dset_same _ spec) in E. injection E as ->.
        left. exists x. cbn. auto.
      * rewrite (dget_dset_other _ spec) in E; [auto|]. intros ->. rewrite (proj2 (spec k' k') eq_refl) in Ek. discriminate.
    + destruct IH as (H1 & H2). rewrite Hg in H2. split.
      * intros y v [<-|Hy]; [|auto]. intros Ex. rewrite Ex, (dget_dset_same _ spec) in H2. discriminate.
      * destruct (kv x) as [[k' v']|] eqn:Ex; [|auto].
        destruct (eqb k k') eqn:Ek.
        -- apply spec in Ek. subst k'. rewrite (dget_dset_same _ spec) in H2. discriminate.
        -- rewrite (dget_dset_other _ spec) in H2; [auto|]. intros ->.
           rewrite (proj2 (spec k' k') eq_refl) in Ek. discriminate.
Qed.

Lemma rvals_get vals code :
  match dget Z.eqb (rvals vals) code with
  | Some v => In (v, code) vals
  | None => forall v, ~ In (v, code) vals
  end.
Proof.
  pose proof (fold_dset Z.eqb Zeqb_spec (fun d nc => dset Z.eqb d (snd nc) (fst nc))
    (fun nc : fval * Z => Some (snd nc, fst nc)) (fun _ _ => eq_refl) vals [] code) as H.
  unfold rvals. destruct (dget Z.eqb (fold_left _ vals []) code) as [v|].
  - destruct H as [([n c] & Hin & [= -> ->])|H]; [exact Hin|discriminate].
  - intros v Hin. now apply (proj1 H (v, code) v Hin).
Qed.

Lemma vals_nocase_get vals k :
  match dget str_eqb (vals_nocase vals) k with
  | Some c => exists s, In (VStr s, c) vals /\ lower s = k
  | None => forall s c, In (VStr s, c) vals -> lower s <> k
  end.
Proof.
  pose proof (fold_dset str_eqb str_eqb_spec
    (fun d nc => match fst nc with VStr s => dset str_eqb d (lower s) (snd nc) | _ => d end)
    (fun nc : fval * Z => match fst nc with VStr s => Some (lower s, snd nc) | _ => None end)) as H.
  specialize (H (fun d x => match fst x as f return (match f with VStr s => dset str_eqb d (lower s) (snd x) | _ => d end
      = match match f with VStr s => Some (lower s, snd x) | _ => None end with Some (k, v) => dset str_eqb d k v | None => d end)
      with VStr _ => eq_refl | VBool _ => eq_refl | VInt _ => eq_refl end) vals [] k).
  unfold vals_nocase. destruct (dget str_eqb (fold_left _ vals []) k) as [v|].
  - destruct H as [([n c] & Hin & E)|H]; [|discriminate]. cbn [fst snd] in E.
    destruct n as [s| |]; try discriminate. injection E as <- <-. eauto.
  - intros s c Hin E. apply (proj1 H (VStr s, c) c Hin). cbn. now rewrite E.
Qed.

Lemma aliases_nocase_get al k :
  match dget str_eqb (aliases_nocase al) k with
  | Some n => exists a, In (a, n) al /\ lower a = k
  | None => forall a n, In (a, n) al -> lower a <> k
  end.
Proof.
  pose proof (fold_dset str_eqb str_eqb_spec (fun d an => dset str_eqb d (lower (fst an)) (snd an))
    (fun an : str * str => Some (lower (fst an), snd an)) (fun _ _ => eq_refl) al [] k) as H.
  unfold aliases_nocase. destruct (dget str_eqb (fold_left _ al []) k) as [v|].
  - destruct H as [([a n] & Hin & [= <- ->])|H]; [eauto|discriminate].
  - intros a n Hin E. apply (proj1 H (a, n) n Hin). cbn [fst snd]. now rewrite E.
Qed.

Section Feature.
  Variable fe : feature.
  Hypothesis Hok : feature_ok fe.

  Lemma decode_spec code v : decode fe code = Ok v <-> named_as fe code v.
  Proof.
    unfold decode, named_as. pose proof (fo_codes fe Hok) as Hc. unfold vals_of in Hc.
    destruct (fe_vals fe) as [vals|]; [|split; congruence].
    pose proof (rvals_get vals code) as H. destruct (dget Z.eqb (rvals vals) code) as [w|].
    - split; [intros [= <-]; exact H|]. intros Hv. f_equal. eapply Hc; eauto.
    - split; [discriminate|]. intros Hv. now apply H in Hv.
  Qed.

  Lemma means_unique v c d : means fe v c -> means fe v d -> c = d.
  Proof.
    unfold means. destruct (fe_vals fe) as [vals|] eqn:Ev.
    2:{ intros [->|(b & -> & ->)] [H|(b' & H & ->)]; congruence. }
    intros (n & Hn & Hs) (m & Hm & Ht).
    pose proof (fo_names fe Hok) as Hnm. pose proof (fo_alias_new fe Hok) as Han.
    pose proof (fo_alias_uniq fe Hok) as Hau. pose proof (fo_alias_type fe Hok) as Hat.
    pose proof (fo_strings fe Hok) as Hst.
    unfold vals_of in *. rewrite Ev in *.
    assert (An : forall s al t k e, In (al, t) (aliases_of fe) -> nocase s al -> In (k, e) vals -> ~ same_name (VStr s) k).
    { intros s al t k e Ha Hsa Hk [<-|(s' & t' & [= <-] & -> & Hst')].
      - eapply Han; eauto using nocase_sym.
      - eapply Han; [exact Ha|exact Hk|]. eauto using nocase_sym, nocase_trans. }
    assert (Bn : forall (b : bool) k e, fe_type fe = FBool -> In (k, e) vals -> ~ same_name (VBool b) k).
    { intros b k e Hb Hk [<-|(s' & t' & [=] & _)]. destruct (Hst (or_introl Hb) _ _ Hk) as (s & [=]). }
    destruct Hs as [Hs|[(s & al & t & -> & -> & Ha & Hsa)|(Hb & b & t & -> & -> & Hbt)]];
    destruct Ht as [Ht|[(s' & al' & t' & Es & -> & Ha' & Hsa')|(Hb' & b' & t' & Es & -> & Hbt')]]; try subst v.
    - eapply Hnm; [exact Hn|exact Hm|]. eapply same_name_trans; [apply same_name_sym|]; eauto.
    - exfalso. exact (An s' al' t' n c Ha' Hsa' Hn Hs).
    - exfalso. exact (Bn b' n c Hb' Hn Hs).
    - exfalso. exact (An s al t m d Ha Hsa Hm Ht).
    - injection Es as <-. assert (t = t').
      { eapply Hau; [exact Ha|exact Ha'|]. eauto using nocase_sym, nocase_trans. }
      subst t'. eapply Hnm; [exact Hn|exact Hm|now left].
    - discriminate.
    - exfalso. exact (Bn b m d Hb Hm Ht).
    - discriminate.
    - injection Es as <-. eapply Hnm; [exact Hn|exact Hm|]. right. exists t, t'.
      eauto using nocase_sym, nocase_trans.
  Qed.

  Lemma normalize_spec v vals : fe_vals fe = Some vals ->
    match normalize_feature_value fe v with
    | Ok w => exists code, w = VInt code /\ means fe v code
    | Exn _ => forall code, ~ means fe v code
    end.
  Proof.
    intros Ev. pose proof means_unique as Hu.
    pose proof (fo_names fe Hok) as Hnm. pose proof (fo_alias_new fe Hok) as Han.
    pose proof (fo_alias_target fe Hok) as Hatg.
    pose proof (fo_alias_uniq fe Hok) as Hau. pose proof (fo_alias_type fe Hok) as Hat.
    pose proof (fo_strings fe Hok) as Hst. pose proof (fo_numbers fe Hok) as Hnu.
    pose proof (fo_vals fe Hok) as Hne.
    unfold vals_of in *. rewrite Ev in *. unfold normalize_feature_value. rewrite Ev.
    destruct vals as [|v0 vt]; [now contradiction Hne|]. set (vals := v0 :: vt) in *. clearbody vals. clear v0 vt.
    (* the part after the alias resolution *)
    set (tail := fun v => _).
    assert (T : forall v, (fe_type fe = FDict -> forall s al t, v = VStr s -> In (al, t) (aliases_of fe) -> ~ nocase s al) ->
       match tail v with
       | Ok w => exists code, w = VInt code /\ means fe v code
       | Exn _ => forall code, ~ means fe v code
       end).
    { clear v. intros v Hna. unfold tail, means. rewrite Ev.
      assert (Hs : forall n, says fe v n <-> same_name v n \/
                (fe_type fe = FBool /\ exists (b : bool) t, v = VBool b /\ n = VStr t /\
                   nocase (s2l (if b then "on" else "off")%string) t)).
      { intros n. split.
        - intros [H|[(s & al & t & -> & -> & Ha & Hsa)|H]]; auto. exfalso.
          assert (fe_aliases fe <> None) by (unfold aliases_of in Ha; destruct (fe_aliases fe); [discriminate|destruct Ha]).
          eapply Hna; eauto.
        - intros [H|H]; [now left|right; now right]. }
      set (v' := if ftype_eqb (fe_type fe) FBool then _ else v).
      assert (Hv' : forall n c, In (n, c) vals -> says fe v n <-> same_name v' n).
      { intros n c Hn. rewrite Hs. unfold v'. destruct (ftype_eqb (fe_type fe) FBool) eqn:Eb.
        - apply ftype_eqb_spec in Eb. destruct (Hst (or_introl Eb) n c Hn) as (sn & ->).
          destruct v as [s|b|z].
          + split; [intros [H|(_ & b & t & [=] & _)]; exact H|auto].
          + split.
            * intros [[H|(s & t & [=] & _)]|(_ & b' & t & [= <-] & [= <-] & Hb)]; [discriminate|].
              right. destruct b; eauto.
            * intros H. right. split; [exact Eb|]. exists b, sn. split; [reflexivity|]. split; [reflexivity|].
              destruct b; (destruct H as [[= <-]|(s & t & [= <-] & [= <-] & H)]; [apply nocase_refl|exact H]).
          + split; [intros [H|(_ & b & t & [=] & _)]; exact H|auto].
        - split; [|auto]. intros [H|(Hb & _)]; [exact H|]. rewrite Hb in Eb. discriminate. }
      clearbody v'.
      destruct (dget fval_eqb vals v') as [c|] eqn:Eg.
      { apply (dget_In _ fval_eqb_spec) in Eg. exists c. split; [reflexivity|]. exists v'. split; [exact Eg|].
        apply (Hv' v' c Eg). now left. }
      assert (Hno : forall c, ~ In (v', c) vals).
      { intros c Hin. apply (dget_None _ fval_eqb_spec) in Eg. apply Eg. apply in_map_iff. now exists (v', c). }
      assert (Hnos : (forall s, v' <> VStr s) -> forall code, ~ (exists n, In (n, code) vals /\ says fe v n)).
      { intros Hx code (n & Hn & Hsn). apply (Hv' n code Hn) in Hsn.
        destruct Hsn as [<-|(s & t & -> & _)]; [now apply (Hno code)|now apply (Hx s)]. }
      destruct (ftype_eqb (fe_type fe) FBool || ftype_eqb (fe_type fe) FDict) eqn:Et.
      - assert (Ht : fe_type fe = FBool \/ fe_type fe = FDict).
        { apply orb_prop in Et. rewrite !ftype_eqb_spec in Et. exact Et. }
        destruct v' as [s|b|z]; try (apply Hnos; discriminate).
        pose proof (vals_nocase_get vals (lower s)) as G.
        destruct (dget str_eqb (vals_nocase vals) (lower s)) as [c|].
        + destruct G as (t & Hin & El). exists c. split; [reflexivity|]. exists (VStr t). split; [exact Hin|].
          apply (Hv' (VStr t) c Hin). right. exists s, t. repeat split. apply nocase_sym. now apply lower_nocase.
        + intros code (n & Hn & Hsn). apply (Hv' n code Hn) in Hsn.
          destruct Hsn as [<-|(s' & t & [= <-] & -> & Hc)]; [now apply (Hno code)|].
          apply (G t code Hn). symmetry. now apply lower_nocase.
      - assert (Ht : fe_type fe = FInt \/ fe_type fe = FFloat) by (destruct (fe_type fe); auto; discriminate).
        intros code (n & Hn & Hsn). destruct (Hnu Ht n code Hn) as (z & ->).
        apply (Hv' (VInt z) code Hn) in Hsn. destruct Hsn as [->|(s & t & _ & [=] & _)]. now apply (Hno code). }
    clearbody tail. unfold resolve_alias. destruct (fe_aliases fe) as [al|] eqn:Ea.
    - assert (Hd : fe_type fe = FDict) by now apply Hat.
      assert (Eal : aliases_of fe = al) by (unfold aliases_of; now rewrite Ea).
      assert (R : forall n s a, In (a, n) al -> nocase s a ->
                match tail (VStr n) with
                | Ok w => exists code, w = VInt code /\ means fe (VStr s) code
                | Exn _ => forall code, ~ means fe (VStr s) code
                end).
      { intros n s a Hin Hsa. rewrite Eal in *. destruct (Hatg a n Hin) as (c & Hc).
        assert (Hm : means fe (VStr n) c).
        { unfold means. rewrite Ev. exists (VStr n). split; [exact Hc|]. left. now left. }
        assert (Hm' : means fe (VStr s) c).
        { unfold means. rewrite Ev. exists (VStr n). split; [exact Hc|]. right. left. exists s, a, n.
          rewrite Eal. auto. }
        specialize (T (VStr n)). destruct (tail (VStr n)) as [w|e].
        - destruct T as (code & -> & Hcode).
          { intros _ s' al' t' [= <-] Hin' Hno. exact (Han al' t' n c Hin' Hc (nocase_sym _ _ Hno)). }
          exists code. split; [reflexivity|]. now rewrite (Hu _ _ _ Hcode Hm).
        - exfalso. refine (T _ c Hm).
          intros _ s' al' t' [= <-] Hin' Hno. exact (Han al' t' n c Hin' Hc (nocase_sym _ _ Hno)). }
      destruct v as [s|b|z].
      + destruct (dget str_eqb al s) as [n|] eqn:E1.
        * apply (dget_In _ str_eqb_spec) in E1. apply (R n s s E1). apply nocase_refl.
        * pose proof (aliases_nocase_get al (lower s)) as G.
          destruct (dget str_eqb (aliases_nocase al) (lower s)) as [n|].
          -- destruct G as (a & Hin & El). apply (R n s a Hin). apply nocase_sym. now apply lower_nocase.
          -- cbn [rbind]. apply T. intros _ s' al' t' [= <-] Hin' Hno. rewrite Eal in Hin'. apply (G al' t' Hin').
             apply lower_nocase. now apply nocase_sym.
      + cbn [rbind]. unfold means. rewrite Ev. intros code (n & Hn & Hsn).
        destruct Hsn as [[<-|(s & t & [=] & _)]|[(s & a & t & [=] & _)|(Hb & _)]]; [|congruence].
        destruct (Hst (or_intror Hd) _ _ Hn) as (s & [=]).
      + cbn [rbind]. unfold means. rewrite Ev. intros code (n & Hn & Hsn).
        destruct Hsn as [[<-|(s & t & [=] & _)]|[(s & a & t & [=] & _)|(Hb & _)]]; [|congruence].
        destruct (Hst (or_intror Hd) _ _ Hn) as (s & [=]).
    - cbn [rbind]. apply T. intros _ s a t _ Hin. unfold aliases_of in Hin. rewrite Ea in Hin. destruct Hin.
  Qed.

  Lemma means_fits v code : means fe v code -> fe_vals fe <> None -> fits (fe_bits fe) code.
  Proof.
    unfold means. intros H Hn. pose proof (fo_fits fe Hok) as F. unfold vals_of in F.
    destruct (fe_vals fe) as [vals|]; [|contradiction]. destruct H as (n & Hin & _). eauto.
  Qed.
End Feature.
