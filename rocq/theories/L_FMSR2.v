(** Lemmas about reading and writing MSR features. *)
From Coq Require Import Ascii String ZifyBool.
From Verif Require Import Base L_Base L_Monad M_CPUInfo S_CPUInfo L_CPUInfo M_Text M_MSR S_MSR L_Bits
  L_MSR L_MSR2 L_MSR3 L_MSR4 M_Osa S_Osa L_Osa M_FMSR S_FMSR L_Text L_FMSR.

Lemma lbind {A B S} (r : res A) (f : A -> M S B) (s s' : S) (y : res B) :
  mbind (lift r) f s = (y, s') ->
  (exists a, r = Ok a /\ f a s = (y, s')) \/ (exists e, r = Exn e /\ y = Exn e /\ s' = s).
Proof.
  unfold mbind, lift. destruct r as [a|e]; intros H; [left; eauto|].
  right. exists e. apply pair_equal_spec in H as [<- <-]. auto.
Qed.

Lemma lbind_ok {A B S} (r : res A) (f : A -> M S B) (s : S) a : r = Ok a -> mbind (lift r) f s = f a s.
Proof. intros ->. reflexivity. Qed.
Lemma lbind_exn {A B S} (r : res A) (f : A -> M S B) (s : S) e : r = Exn e -> mbind (lift r) f s = (Exn e, s).
Proof. intros ->. reflexivity. Qed.

Lemma rmap_forall2 {A B} (l : list A) (f : A -> res B) ys :
  rmap l f = Ok ys -> Forall2 (fun x y => f x = Ok y) l ys.
Proof.
  revert ys. induction l as [|x t IH]; intros ys; cbn [rmap]; [intros [= <-]; constructor|].
  destruct (f x) as [y|] eqn:E; cbn [rbind]; [|discriminate].
  destruct (rmap t f) as [zs|]; cbn [rbind]; [|discriminate]. intros [= <-]. constructor; auto.
Qed.

Lemma rmap_all {A B} (l : list A) (f : A -> res B) (g : A -> B) :
  (forall x, In x l -> f x = Ok (g x)) -> rmap l f = Ok (map g l).
Proof.
  induction l as [|x t IH]; intros H; cbn [rmap map]; [reflexivity|].
  rewrite (H x (or_introl eq_refl)). cbn [rbind]. rewrite IH; [reflexivity|]. intros y Hy. apply H. now right.
Qed.

Lemma dget_map_Z {A} (f : Z -> A) l c : In c l -> dget Z.eqb (map (fun c => (c, f c)) l) c = Some (f c).
Proof.
  induction l as [|x t IH]; [intros []|]. intros H. cbn [map dget].
  destruct (Z.eqb_spec c x) as [->|Hn]; [reflexivity|]. apply IH. destruct H; [congruence|assumption].
Qed.

Lemma Forall2_in_l {A B} (R : A -> B -> Prop) l m : Forall2 R l m -> forall x, In x l -> exists y, In y m /\ R x y.
Proof.
  induction 1 as [|x y l m H F IH]; intros z; [intros []|]. intros [<-|Hz].
  - exists y. split; [now left|exact H].
  - destruct (IH z Hz) as (w & Hw & Hr). exists w. split; [now right|exact Hr].
Qed.
Lemma Forall2_in_r {A B} (R : A -> B -> Prop) l m : Forall2 R l m -> forall y, In y m -> exists x, In x l /\ R x y.
Proof.
  induction 1 as [|x y l m H F IH]; intros z; [intros []|]. intros [<-|Hz].
  - exists x. split; [now left|exact H].
  - destruct (IH z Hz) as (w & Hw & Hr). exists w. split; [now right|exact Hr].
Qed.

Section Reg.
  Variable env : menv.
  Notation dom := (me_dom env).
  Notation ci := (me_ci env).
  Notation online := (ci_online (me_ci env)).

  Lemma normalize_ok_iff cpus :
    (exists l, normalize_cpus ci cpus false = Ok l) <-> forall c, In c (targets env cpus) -> In c online.
  Proof.
    destruct cpus as [l|]; cbn [targets].
    - destruct (normalize_cpus ci (Some l) false) as [r|e] eqn:E.
      + split; [|eauto]. intros _ c Hc. destruct (normalize_cpus_ok_l _ _ _ _ E) as (H1 & H2 & _).
        apply (H2 c). now apply H1.
      + split; [intros (r & [=])|]. intros H. exfalso.
        destruct (proj1 (normalize_cpus_fails_l ci l false) (ex_intro _ e E)) as (x & Hx & Hn).
        apply Hn. now apply H.
    - cbn. split; eauto.
  Qed.

  (** ** Supported CPUs *)
  Section Init.
    Variables (model : Z) (flags : Z -> list str) (off : list Z) (addr : Z) (feats : list (str * feature)) (fr : freg).
    Hypothesis Hinit : init_reg ci model flags off addr feats = Ok fr.
    Hypothesis Hnd : NoDup (map fst feats).

    Lemma init_feats : fr_feats fr = feats /\ fr_addr fr = addr.
    Proof.
      revert Hinit. unfold init_reg. destruct (existsb _ _); [|discriminate]. intros [= <-]. auto.
    Qed.

    Lemma supported_flag fname fe c : In (fname, fe) feats -> In c online ->
      exists d b, dget str_eqb (fr_supp fr) fname = Some d /\ dget Z.eqb d c = Some b /\
        (b = true <-> cpu_supports model flags off fe c).
    Proof.
      intros Hf Hc. revert Hinit. unfold init_reg. destruct (existsb _ _); [|discriminate]. intros [= <-].
      cbn [fr_supp]. rewrite map_map. cbn [fst snd].
      set (g := fun fe => map (fun cb : Z * bool => (fst cb, snd cb && negb (inb (fst cb) off))) (supported_of model flags (get_cpus ci) fe)).
      assert (E : dget str_eqb (map (fun nf : str * feature => (fst nf, g (snd nf))) feats) fname = Some (g fe)).
      { apply (In_dget _ str_eqb_spec).
        - rewrite map_map. cbn [fst]. exact Hnd.
        - apply in_map_iff. exists (fname, fe). auto. }
      exists (g fe). unfold g, supported_of in *. rewrite map_map in *. cbn [fst snd] in *.
      eexists. split; [exact E|]. split.
      - rewrite (dget_map_Z (fun c => _ && negb (inb c off))); [reflexivity|]. now apply zsort_In.
      - unfold cpu_supports. rewrite andb_true_iff, negb_true_iff, inb_false.
        assert (M1 : (match fe_models fe with Some l => negb (inb model l) | None => false end) = false <->
                     forall l, fe_models fe = Some l -> In model l).
        { destruct (fe_models fe) as [l|].
          - rewrite negb_false_iff, inb_In. split; [intros H l' [= <-]; exact H|auto].
          - split; [intros _ l [=]|auto]. }
        assert (M2 : (match fe_flags fe with None => true | Some fl => forallb (fun f => existsb (str_eqb f) (flags c)) fl end) = true <->
                     forall l f, fe_flags fe = Some l -> In f l -> In f (flags c)).
        { destruct (fe_flags fe) as [fl|].
          - rewrite forallb_forall. split.
            + intros H l f [= <-] Hin. specialize (H f Hin). apply existsb_exists in H. destruct H as (y & Hy & Ey).
              apply str_eqb_spec in Ey. now subst.
            + intros H f Hin. apply existsb_exists. exists f. split; [eauto|]. now apply str_eqb_spec.
          - split; [intros _ l f [=]|auto]. }
        destruct (match fe_models fe with Some l => negb (inb model l) | None => false end).
        + split; [intros ([=] & _)|]. intros (H & _). apply M1 in H. discriminate.
        + rewrite M2. intuition.
    Qed.

    Lemma validate_iff fname cpus :
      validate_feature_supported env fr fname cpus = Ok tt <->
      exists fe, In (fname, fe) feats /\ (forall c, In c (targets env cpus) -> In c online) /\
                 (forall c, In c (targets env cpus) -> cpu_supports model flags off fe c).
    Proof.
      unfold validate_feature_supported, get_feature. destruct init_feats as (-> & _).
      destruct (dget str_eqb feats fname) as [fe|] eqn:Ef; cbn [rbind].
      2:{ split; [discriminate|]. intros (fe & Hin & _). exfalso.
          apply (dget_None _ str_eqb_spec) in Ef. apply Ef, in_map_iff. now exists (fname, fe). }
      apply (dget_In _ str_eqb_spec) in Ef.
      assert (U : forall fe', In (fname, fe') feats -> fe' = fe).
      { intros fe' H. apply (In_dget _ str_eqb_spec _ _ _ Hnd) in H. apply (In_dget _ str_eqb_spec _ _ _ Hnd) in Ef. congruence. }
      destruct (normalize_cpus ci cpus false) as [l|e] eqn:El; cbn [rbind].
      2:{ split; [discriminate|]. intros (fe' & _ & H & _). apply normalize_ok_iff in H. destruct H. congruence. }
      assert (Hl : forall c, In c l -> In c online).
      { intros c Hc. apply (proj1 (normalize_ok_iff cpus)); [eauto|]. now apply (normalized_targets env cpus l El). }
      destruct (rmap l _) as [bs|e] eqn:Er; cbn [rbind].
      - apply rmap_forall2 in Er. split.
        + destruct (forallb (fun b => b) bs) eqn:Eb; [|discriminate]. intros _. exists fe. split; [exact Ef|].
          split; [now apply normalize_ok_iff; eauto|]. intros c Hc. apply (normalized_targets env cpus l El) in Hc.
          destruct (Forall2_in_l _ _ _ Er c Hc) as (b & Hb & E).
          destruct (supported_flag fname fe c Ef (Hl c Hc)) as (d & b' & E1 & E2 & E3). rewrite E1, E2 in E.
          injection E as ->. apply E3. rewrite forallb_forall in Eb. now apply Eb.
        + intros (fe' & Hin & _ & Hs). rewrite (U fe' Hin) in Hs.
          replace (forallb (fun b => b) bs) with true; [reflexivity|]. symmetry. apply forallb_forall.
          intros b Hb. destruct (Forall2_in_r _ _ _ Er b Hb) as (c & Hc & E).
          destruct (supported_flag fname fe c Ef (Hl c Hc)) as (d & b' & E1 & E2 & E3). rewrite E1, E2 in E.
          injection E as <-. apply E3, Hs. now apply (normalized_targets env cpus l El).
      - split; [discriminate|]. intros _. exfalso.
        assert (G : forall l, (forall c, In c l -> In c online) -> rmap l (fun c => match dget str_eqb (fr_supp fr) fname with
            | Some d => match dget Z.eqb d c with Some b => Ok b | None => Exn EKey end | None => Exn EKey end) <> Exn e).
        { induction l0 as [|x t IH]; intros Hx; cbn [rmap]; [discriminate|].
          destruct (supported_flag fname fe x Ef (Hx x (or_introl eq_refl))) as (d & b' & E1 & E2 & E3).
          rewrite E1, E2. cbn [rbind]. rewrite E1 in IH. specialize (IH (fun c Hc => Hx c (or_intror Hc))).
          destruct (rmap t _) as [ys|e']; cbn [rbind]; congruence. }
        exact (G l Hl Er).
    Qed.

    Lemma get_feature_iff fname fe : get_feature fr fname = Ok fe <-> In (fname, fe) feats.
    Proof.
      unfold get_feature. destruct init_feats as (-> & _). split.
      - destruct (dget str_eqb feats fname) as [f|] eqn:E; [|discriminate]. intros [= ->].
        now apply (dget_In _ str_eqb_spec) in E.
      - intros H. apply (In_dget _ str_eqb_spec _ _ _ Hnd) in H. now rewrite H.
    Qed.

    Lemma rejected_l fname v cpus s :
      (forall fe, In (fname, fe) feats -> feature_ok fe) ->
      unacceptable env model flags off feats fname v cpus ->
      exists e, write_feature env fr fname v cpus s = (Exn e, s).
    Proof.
      intros Hok Hu. unfold write_feature.
      destruct (validate_feature_supported env fr fname cpus) as [[]|e] eqn:Ev; [|cbn; eauto].
      rewrite (lbind_ok _ _ s tt eq_refl). apply validate_iff in Ev. destruct Ev as (fe & Hin & Hon & Hsup).
      rewrite (lbind_ok _ _ s fe (proj2 (get_feature_iff fname fe) Hin)).
      assert (U : forall fe', In (fname, fe') feats -> fe' = fe).
      { intros fe' H. apply get_feature_iff in H. apply get_feature_iff in Hin. congruence. }
      destruct Hu as [Hu|c Hc Hn|fe' c Hf Hc Hn|fe' Hf Hw|fe' Hf Hv Hm].
      - exfalso. exact (Hu fe Hin).
      - exfalso. auto.
      - rewrite (U fe' Hf) in Hn. exfalso. auto.
      - rewrite (U fe' Hf) in Hw. destruct (normalize_feature_value fe v) as [w|e]; [|cbn; eauto].
        rewrite (lbind_ok _ _ s w eq_refl), Hw. eexists. reflexivity.
      - rewrite (U fe' Hf) in Hv, Hm. destruct (fe_vals fe) as [vals|] eqn:Evals; [|contradiction].
        pose proof (normalize_spec fe (Hok fe Hin) v vals Evals) as N.
        destruct (normalize_feature_value fe v) as [w|e]; [|cbn; eauto].
        destruct N as (code & _ & N). exfalso. exact (Hm code N).
    Qed.

    (** Reads are turned down in the same cases. *)
    Lemma read_rejected_l fname cpus s :
      ((forall fe, ~ In (fname, fe) feats) \/ (exists c, In c (targets env cpus) /\ ~ In c online) \/
       (exists fe c, In (fname, fe) feats /\ In c (targets env cpus) /\ ~ cpu_supports model flags off fe c)) ->
      exists e, read_feature env fr fname cpus s = (Exn e, s).
    Proof.
      intros Hu. unfold read_feature.
      destruct (validate_feature_supported env fr fname cpus) as [[]|e] eqn:Ev; [|cbn; eauto].
      exfalso. apply validate_iff in Ev. destruct Ev as (fe & Hin & Hon & Hsup).
      destruct Hu as [Hu|[(c & Hc & Hn)|(fe' & c & Hf & Hc & Hn)]].
      - exfalso. exact (Hu fe Hin).
      - auto.
      - apply Hn. apply get_feature_iff in Hf. apply get_feature_iff in Hin. replace fe' with fe by congruence. auto.
    Qed.

    Lemma is_supported_l fname cpus b : is_feature_supported env fr fname cpus = Ok b ->
      exists fe, In (fname, fe) feats /\
        (b = true <-> forall c, In c (targets env cpus) -> cpu_supports model flags off fe c).
    Proof.
      unfold is_feature_supported. intros H.
      assert (Hc : forall c, In c (targets env cpus) -> In c online).
      { apply normalize_ok_iff. revert H. unfold validate_feature_supported.
        destruct (get_feature fr fname) as [f|e] eqn:Eg; cbn [rbind].
        2:{ unfold get_feature in Eg. destruct (dget _ _ _); [discriminate|]. injection Eg as <-. discriminate. }
        destruct (normalize_cpus ci cpus false) as [l|e] eqn:E; [eauto|].
        cbn [rbind]. assert (He : e = EError).
        { destruct cpus as [l|]; cbn in E; [|discriminate]. unfold normalize_in in E. destruct (forallb _ _); congruence. }
        subst e. discriminate. }
      assert (Hf : exists fe, In (fname, fe) feats).
      { revert H. unfold validate_feature_supported. destruct (get_feature fr fname) as [fe|e] eqn:E; cbn [rbind].
        - intros _. exists fe. now apply get_feature_iff.
        - unfold get_feature in E. destruct (dget _ _ _); [discriminate|]. injection E as <-. discriminate. }
      destruct Hf as (fe & Hin). exists fe. split; [exact Hin|].
      pose proof (validate_iff fname cpus) as V.
      destruct (validate_feature_supported env fr fname cpus) as [[]|e].
      - injection H as <-. destruct (proj1 V eq_refl) as (fe' & Hin' & _ & Hs).
        apply get_feature_iff in Hin. apply get_feature_iff in Hin'. replace fe with fe' by congruence. tauto.
      - assert (Hb : b = false) by (destruct e; congruence). subst b. split; [discriminate|]. intros Hs.
        destruct V as (_ & V). discriminate V. eauto.
    Qed.
  End Init.

  (** ** Reading *)

  Definition field_val (b : bits_t) (r : Z) : Z := match get_bits r b with Ok x => x | Exn _ => 0 end.

  Lemma field_val_spec b r : field_ok b -> get_bits r b = Ok (field_val b r) /\ is_field b r (field_val b r).
  Proof.
    intros H. unfold field_val. destruct (get_bits r b) as [x|e] eqn:E.
    - split; [reflexivity|]. now apply get_bits_is_field.
    - exfalso. rewrite (get_bits_eq r b H) in E. discriminate.
  Qed.

  Lemma read_bits_eq a b cpus sn s : field_ok b ->
    read_bits env a b cpus sn s =
    let (r, s') := read env a cpus sn s in
    (match r with Ok l => Ok (map (fun cv => (fst cv, field_val b (snd cv))) l) | Exn e => Exn e end, s').
  Proof.
    intros Hb. unfold read_bits, read, mbind, lift. destruct (normalize_cpus ci cpus false) as [l|e]; [|reflexivity].
    unfold read_cpus. revert s. induction l as [|c t IH]; intros s; [reflexivity|].
    cbn [mmap]. unfold mbind. destruct (read_one env a sn c s) as [[[c' v]|e] s1]; [|reflexivity].
    unfold lift. rewrite (proj1 (field_val_spec b v Hb)). cbn [ret].
    fold (@mbind mstate). unfold ret. rewrite IH. destruct (mmap t (read_one env a sn) s1) as [[r|e] s2]; reflexivity.
  Qed.
End Reg.
