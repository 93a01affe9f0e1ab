(** Lemmas about setting frequencies, for any mechanism that can be relied on. *)
From Coq Require Import ZifyBool.
From Verif Require Import Base L_Base L_Monad M_Text M_Sysfs S_Sysfs S_SysView M_CPUFreq M_PStates S_PStates.

(** ** The groups *)
Section Groups.
  Context {K : Type}.

  Definition grp (d : list (Z * list K)) (f : Z) : list K :=
    match dget Z.eqb d f with Some l => l | None => [] end.

  Lemma grp_add (d : list (Z * list K)) (kf : K * Z) f : grp (add_freq d kf) f = grp d f ++ (if f =? snd kf then [fst kf] else []).
  Proof.
    unfold grp, add_freq. destruct kf as [key g]; cbn [fst snd].
    destruct (Z.eqb_spec f g) as [->|Hne].
    - destruct (dget Z.eqb d g) as [l|]; rewrite dget_dset_same by apply Z.eqb_eq; reflexivity.
    - destruct (dget Z.eqb d g) as [l|]; rewrite dget_dset_other by (try apply Z.eqb_eq; congruence);
        now rewrite app_nil_r.
  Qed.

  Lemma grp_fold (l : list (K * Z)) : forall d key f, In key (grp (fold_left add_freq l d) f) <-> In key (grp d f) \/ In (key, f) l.
  Proof.
    induction l as [|[k0 f0] l IH]; intros d key f; cbn [fold_left].
    - cbn. tauto.
    - rewrite IH, grp_add, in_app_iff. cbn [fst snd In]. destruct (Z.eqb_spec f f0) as [->|Hne]; cbn [In].
      + split; [intros [[H|[H|[]]]|H]|intros [H|[H|H]]]; auto; [right; left; congruence|].
        injection H as ->; auto.
      + split; [intros [[H|[]]|H]; auto|intros [H|[H|H]]; auto; congruence].
  Qed.

  Lemma add_freq_nodup (d : list (Z * list K)) (kf : K * Z) : NoDup (map fst d) -> NoDup (map fst (add_freq d kf)).
  Proof.
    unfold add_freq. intros H.
    assert (G : forall l, NoDup (map fst (dset Z.eqb d (snd kf) l))).
    { intros l. revert H. generalize (snd kf) as g. clear. induction d as [|[f l0] d IH]; intros g H; cbn.
      - constructor; [intros []|constructor].
      - inversion H as [|? ? H1 H2]; subst. destruct (Z.eqb_spec g f) as [->|Hne]; cbn; [now constructor|].
        constructor; [|now apply IH]. intros Hin. apply H1. clear - Hin Hne.
        induction d as [|[f1 l1] d IH]; cbn in *.
        + destruct Hin as [E|[]]. congruence.
        + destruct (Z.eqb_spec g f1) as [->|?]; cbn in *; [exact Hin|]. tauto. }
    destruct (dget Z.eqb d (snd kf)); apply G.
  Qed.

  Lemma freq2keys_nodup (l : list (K * Z)) : NoDup (map fst (freq2keys l)).
  Proof.
    unfold freq2keys. assert (G : forall d, NoDup (map fst d) -> NoDup (map fst (fold_left add_freq l d))).
    { induction l as [|x l IH]; intros d H; [exact H|]. cbn. apply IH. now apply add_freq_nodup. }
    apply G. constructor.
  Qed.

  Lemma dget_in_nodup (d : list (Z * list K)) f ks : NoDup (map fst d) -> In (f, ks) d -> dget Z.eqb d f = Some ks.
  Proof.
    induction d as [|[g l] d IH]; cbn; intros H Hin; [destruct Hin|].
    inversion H as [|? ? H1 H2]; subst. destruct Hin as [E|Hin].
    - injection E as -> ->. now rewrite Z.eqb_refl.
    - destruct (Z.eqb_spec f g) as [->|_]; [|now apply IH].
      exfalso. apply H1. change g with (fst (g, ks)). now apply in_map.
  Qed.

  Lemma dget_in (d : list (Z * list K)) f ks : dget Z.eqb d f = Some ks -> In (f, ks) d.
  Proof.
    induction d as [|[g l] d IH]; cbn; [discriminate|]. destruct (Z.eqb_spec f g) as [->|_].
    - intros [= ->]. now left.
    - intros H. right. auto.
  Qed.

  Lemma freq2keys_in (l : list (K * Z)) key f :
    (exists ks, In (f, ks) (freq2keys l) /\ In key ks) <-> In (key, f) l.
  Proof.
    pose proof (grp_fold l [] key f) as G. fold (freq2keys l) in G. unfold grp in G at 2. cbn in G.
    assert (G' : In key (grp (freq2keys l) f) <-> In (key, f) l) by tauto. rewrite <- G'. unfold grp. split.
    - intros (ks & H1 & H2). rewrite (dget_in_nodup _ _ ks (freq2keys_nodup l) H1). exact H2.
    - destruct (dget Z.eqb (freq2keys l) f) as [ks|] eqn:E; [|intros []]. intros H. exists ks. split; [|exact H].
      now apply dget_in.
  Qed.

  Lemma freq2keys_some (l : list (K * Z)) f ks : In (f, ks) (freq2keys l) -> ks <> [].
  Proof.
    unfold freq2keys.
    assert (A : forall (l : list (K * Z)) d, (forall f ks, In (f, ks) d -> ks <> []) -> forall f ks, In (f, ks) (fold_left add_freq l d) -> ks <> []).
    { clear. induction l as [|kf l IH]; intros d H f ks Hin; cbn in Hin; [eauto|].
      eapply IH; [|exact Hin]. clear - H. intros f ks Hin. unfold add_freq in Hin.
      assert (X : forall x d, In (f, ks) (dset Z.eqb d (snd kf) x) -> In (f, ks) d \/ ks = x).
      { clear. intros x. induction d as [|[g y] d IH]; cbn.
        - intros [E|[]]. injection E as _ <-. now right.
        - destruct (Z.eqb_spec (snd kf) g).
          + intros [E|Hin]; [injection E as _ <-; now right|left; now right].
          + intros [E|Hin]; [left; now left|]. destruct (IH Hin) as [Hd|Hx]; [left; now right|now right]. }
      destruct (dget Z.eqb d (snd kf)) as [l0|].
      - destruct (X _ _ Hin) as [Hd|Hx]; [eauto|]. intros En. rewrite En in Hx. now destruct l0.
      - destruct (X _ _ Hin) as [Hd|Hx]; [eauto|]. now rewrite Hx. }
    intros Hin. eapply A; [|exact Hin]. intros ? ? [].
  Qed.
End Groups.

Section Generic.
  Context {W K : Type}.
  Variable v : fview W K.
  Variable io : freq_io W K.
  Variable quiet : W -> W -> Prop.
  Variable good : W -> Prop.
  Variable dom : K -> Prop.
  Variable rnd : K -> Z -> Z.
  Variable live : W -> bool -> Z -> K -> Prop.
  Hypothesis R : relied v io quiet good dom rnd live.

  Let qrefl := r_refl _ _ _ _ _ _ _ R.
  Let qtrans := r_trans _ _ _ _ _ _ _ R.

  (** What a value means after the first key. *)
  Definition means1 (w : W) (val : fval) (key : K) : res Z :=
    match val with
    | VNum f => Ok f
    | VMin => v_limit v w true key
    | VMax => v_limit v w false key
    | VSpecial sp => v_special v w sp key
    end.

  Lemma quiet_limit w w' b key : quiet w w' -> v_limit v w' b key = v_limit v w b key.
  Proof. intros Q. exact (proj1 (r_views _ _ _ _ _ _ _ R w w' Q b key SEff)). Qed.
  Lemma quiet_cur w w' b key : quiet w w' -> v_cur v w' b key = v_cur v w b key.
  Proof. intros Q. exact (proj1 (proj2 (r_views _ _ _ _ _ _ _ R w w' Q b key SEff))). Qed.
  Lemma quiet_special w w' sp key : quiet w w' -> v_special v w' sp key = v_special v w sp key.
  Proof. intros Q. exact (proj2 (proj2 (r_views _ _ _ _ _ _ _ R w w' Q true key sp))). Qed.

  Lemma quiet_means1 w w' val key : quiet w w' -> means1 w' val key = means1 w val key.
  Proof. intros Q. destruct val; cbn; auto using quiet_limit, quiet_special. Qed.

  Lemma quiet_means w w' val keys key : quiet w w' -> means v w' val keys key = means v w val keys key.
  Proof.
    intros Q. destruct val as [f| | |sp]; cbn; auto using quiet_limit.
    destruct sp; auto using quiet_special. destruct keys as [|k0 r]; [auto using quiet_special|].
    rewrite !(quiet_special w w') by exact Q. rewrite (quiet_limit w w') by exact Q. reflexivity.
  Qed.

  Lemma quiet_in_limits w w' key f : quiet w w' -> in_limits v w' key f <-> in_limits v w key f.
  Proof. intros Q. unfold in_limits. now rewrite !(quiet_limit w w') by exact Q. Qed.
  Lemma quiet_in_order w w' b key f : quiet w w' -> in_order v w' b key f <-> in_order v w b key f.
  Proof. intros Q. unfold in_order. now rewrite !(quiet_cur w w') by exact Q. Qed.

  Definition later_res (first : bool) (r : res Z) : res Z :=
    match r with Exn ENotSupported => Exn (if first then ENotSupported else EError) | _ => r end.

  Lemma later_run (m : M W Z) first w r w' : m w = (r, w') -> later first m w = (later_res first r, w').
  Proof. unfold later. intros ->. destruct r as [a|[]]; reflexivity. Qed.

  Lemma later_ok first r a : later_res first r = Ok a <-> r = Ok a.
  Proof. destruct r as [x|[]]; cbn; split; congruence. Qed.

  (** One step of the generator of the new frequencies. *)
  Lemma next_run val first key rest w : good w -> dom key ->
    exists r w', next_freq io val first key w = (r, w') /\ quiet w w' /\ good w' /\
      match r with
      | Ok (f, val') => means1 w val' key = Ok f /\ (first = false -> val' = val) /\
          (first = true -> forall key', means v w val (key :: rest) key' = means1 w val' key')
      | Exn e => if first then forall f, means v w val (key :: rest) key <> Ok f
                 else forall f, means1 w val key <> Ok f
      end.
  Proof.
    intros G D.
    assert (L : forall b, exists w', later first (f_limit io b key) w = (later_res first (v_limit v w b key), w') /\
      quiet w w' /\ good w').
    { intros b. destruct (r_limit _ _ _ _ _ _ _ R w b key G D) as (w' & E & Q & G').
      exists w'. split; [now apply later_run|auto]. }
    assert (S : forall sp, exists w', later first (f_special io sp key) w = (later_res first (v_special v w sp key), w') /\
      quiet w w' /\ good w').
    { intros sp. destruct (r_special _ _ _ _ _ _ _ R w sp key G D) as (w' & E & Q & G').
      exists w'. split; [now apply later_run|auto]. }
    assert (Plain : forall (m : M W Z) x val0, (exists w', m w = (later_res first x, w') /\ quiet w w' /\ good w') ->
      means1 w val0 key = x -> (forall key', means v w val0 (key :: rest) key' = means1 w val0 key') ->
      exists r w', (let! f := m in ret (f, val0)) w = (r, w') /\ quiet w w' /\ good w' /\
      match r with
      | Ok (f, val') => means1 w val' key = Ok f /\ (first = false -> val' = val0) /\
          (first = true -> forall key', means v w val0 (key :: rest) key' = means1 w val' key')
      | Exn e => if first then forall f, means v w val0 (key :: rest) key <> Ok f
                 else forall f, means1 w val0 key <> Ok f
      end).
    { intros m x val0 (w' & E & Q & G') Hx Hm. destruct (later_res first x) as [f|e] eqn:El.
      - exists (Ok (f, val0)), w'. unfold mbind. rewrite E. split; [reflexivity|]. split; [exact Q|].
        split; [exact G'|]. apply later_ok in El. split; [congruence|auto].
      - exists (Exn e), w'. unfold mbind. rewrite E. split; [reflexivity|]. split; [exact Q|].
        split; [exact G'|].
        assert (N : forall f, x <> Ok f).
        { intros f ->. cbn in El. discriminate. }
        rewrite Hm, Hx. destruct first; exact N. }
    destruct val as [f| | |sp].
    - exists (Ok (f, VNum f)), w. split; [reflexivity|]. split; [apply qrefl|]. split; [exact G|].
      split; [reflexivity|]. auto.
    - cbn [next_freq]. apply (Plain _ (v_limit v w true key)); [apply L|reflexivity|reflexivity].
    - cbn [next_freq]. apply (Plain _ (v_limit v w false key)); [apply L|reflexivity|reflexivity].
    - assert (Plains : sp <> SEff -> next_freq io (VSpecial sp) first key =
        (let! f := later first (f_special io sp key) in ret (f, VSpecial sp))) by (destruct sp; congruence || reflexivity).
      assert (Sp : sp <> SEff \/ sp = SEff) by (destruct sp; (now right) || (left; discriminate)).
      destruct Sp as [Sp|Sp].
      { rewrite (Plains Sp). apply (Plain _ (v_special v w sp key)); [apply S|reflexivity|].
        intros key'. destruct sp; congruence || reflexivity. }
      clear Plains. subst sp.
      cbn [next_freq]. destruct (S SEff) as (w1 & E1 & Q1 & G1). rewrite E1.
      destruct (v_special v w SEff key) as [f|e] eqn:Es.
      + cbn [later_res]. exists (Ok (f, VSpecial SEff)), w1. split; [reflexivity|]. split; [exact Q1|].
        split; [exact G1|]. split; [exact Es|]. split; [reflexivity|]. intros _ key'. cbn. now rewrite Es.
      + destruct first.
        * assert (Ee : e <> ENotSupported \/ e = ENotSupported) by (destruct e; (now right) || (left; discriminate)).
          destruct Ee as [Ee|Ee].
          { exists (Exn e), w1. split; [destruct e; try reflexivity; congruence|]. split; [exact Q1|].
            split; [exact G1|]. intros f. cbn. rewrite Es. destruct e; try discriminate; congruence. }
          subst e. cbn [later_res].
          destruct (r_limit _ _ _ _ _ _ _ R w1 true key G1 D) as (w2 & E2 & Q2 & G2).
          apply (later_run _ true) in E2. rewrite (quiet_limit w w1) in E2 by exact Q1.
          unfold mbind. rewrite E2. destruct (later_res true (v_limit v w true key)) as [f|e] eqn:El.
          -- exists (Ok (f, VMin)), w2. split; [reflexivity|]. split; [now apply (qtrans _ w1)|].
             split; [exact G2|]. apply later_ok in El. split; [exact El|]. split; [discriminate|].
             intros _ key'. cbn. now rewrite Es.
          -- exists (Exn e), w2. split; [reflexivity|]. split; [now apply (qtrans _ w1)|]. split; [exact G2|].
             intros f. cbn. rewrite Es. intros N. rewrite N in El. discriminate.
        * assert (Ee : exists e', later_res false (Exn e) = Exn e' /\ e' <> ENotSupported).
          { destruct e; cbn; eexists; split; try reflexivity; discriminate. }
          destruct Ee as (e' & -> & Ne). exists (Exn e'), w1. split; [destruct e'; try reflexivity; congruence|].
          split; [exact Q1|]. split; [exact G1|]. intros f. cbn. rewrite Es. discriminate.
  Qed.

  Definition fits (w : W) (b : bool) (key : K) (f : Z) : Prop := in_limits v w key f /\ in_order v w b key f.

  (** The checks for one key. *)
  Lemma check_run b val' first key f (rest : M W (list (K * Z))) w : good w -> dom key ->
    means1 w val' key = Ok f ->
    exists r w', (let! min_limit := later first (f_limit io true key) in
        let! max_limit := later first (f_limit io false key) in
        let! cur_freq_limit := later first (f_cur io (negb b) key) in
        if (f <? min_limit) || (f >? max_limit) then throw EFreqRange
        else if (if b then f >? cur_freq_limit else f <? cur_freq_limit)
        then throw EFreqOrder
        else rest) w = (r, w') /\
      exists w1, quiet w w1 /\ good w1 /\
      ((fits w b key f /\ rest w1 = (r, w')) \/
       (~ fits w b key f /\ w' = w1 /\ exists e, r = Exn e /\
          (((exists lo, v_limit v w true key = Ok lo) /\ (exists hi, v_limit v w false key = Ok hi) /\
           (exists cur, v_cur v w (negb b) key = Ok cur)) -> (e = EFreqRange /\ ~ in_limits v w key f \/ e = EFreqOrder /\
              in_limits v w key f)))).
  Proof.
    intros G D Hf.
    destruct (r_limit _ _ _ _ _ _ _ R w true key G D) as (w1 & E1 & Q1 & G1).
    apply (later_run _ first) in E1. unfold mbind at 1. rewrite E1.
    destruct (later_res first (v_limit v w true key)) as [lo|e1] eqn:El.
    2:{ exists (Exn e1), w1. split; [reflexivity|]. exists w1. split; [exact Q1|]. split; [exact G1|]. right.
        assert (N : forall x, v_limit v w true key <> Ok x).
        { intros x Hx. rewrite Hx in El. discriminate. }
        split; [intros [(lo & hi & H & _) _]; now apply N in H|]. split; [reflexivity|]. exists e1.
        split; [reflexivity|]. intros ((lo & H) & _). now apply N in H. }
    apply later_ok in El.
    destruct (r_limit _ _ _ _ _ _ _ R w1 false key G1 D) as (w2 & E2 & Q2 & G2).
    apply (later_run _ first) in E2. rewrite (quiet_limit w w1) in E2 by exact Q1. unfold mbind at 1. rewrite E2.
    assert (Q02 : quiet w w2) by now apply (qtrans _ w1).
    destruct (later_res first (v_limit v w false key)) as [hi|e1] eqn:Eh.
    2:{ exists (Exn e1), w2. split; [reflexivity|]. exists w2. split; [exact Q02|]. split; [exact G2|]. right.
        assert (N : forall x, v_limit v w false key <> Ok x).
        { intros x Hx. rewrite Hx in Eh. discriminate. }
        split; [intros [(lo' & hi & _ & H & _) _]; now apply N in H|]. split; [reflexivity|]. exists e1.
        split; [reflexivity|]. intros (_ & (hi & H) & _). now apply N in H. }
    apply later_ok in Eh.
    destruct (r_cur _ _ _ _ _ _ _ R w2 (negb b) key G2 D) as (w3 & E3 & Q3 & G3).
    apply (later_run _ first) in E3. rewrite (quiet_cur w w2) in E3 by exact Q02. unfold mbind at 1. rewrite E3.
    assert (Q03 : quiet w w3) by now apply (qtrans _ w2).
    destruct (later_res first (v_cur v w (negb b) key)) as [cur|e1] eqn:Ec.
    2:{ exists (Exn e1), w3. split; [reflexivity|]. exists w3. split; [exact Q03|]. split; [exact G3|]. right.
        assert (N : forall x, v_cur v w (negb b) key <> Ok x).
        { intros x Hx. rewrite Hx in Ec. discriminate. }
        split; [intros [_ (cur & H & _)]; now apply N in H|]. split; [reflexivity|]. exists e1.
        split; [reflexivity|]. intros (_ & _ & (cur & H)). now apply N in H. }
    apply later_ok in Ec.
    destruct ((f <? lo) || (f >? hi)) eqn:Er.
    { exists (Exn EFreqRange), w3. split; [reflexivity|]. exists w3. split; [exact Q03|]. split; [exact G3|]. right.
      assert (N : ~ in_limits v w key f).
      { intros (lo' & hi' & H1 & H2 & H3). rewrite El in H1. rewrite Eh in H2. injection H1 as <-. injection H2 as <-. lia. }
      split; [intros [H _]; auto|]. split; [reflexivity|]. exists EFreqRange. auto. }
    assert (I : in_limits v w key f) by (exists lo, hi; repeat split; auto; lia).
    destruct (if b then f >? cur else f <? cur) eqn:Eo.
    { exists (Exn EFreqOrder), w3. split; [reflexivity|]. exists w3. split; [exact Q03|]. split; [exact G3|]. right.
      split. { intros [_ (cur' & H1 & H2)]. rewrite Ec in H1. injection H1 as <-. destruct b; lia. }
      split; [reflexivity|]. exists EFreqOrder. auto. }
    destruct (rest w3) as [r w4] eqn:E4. exists r, w4. split; [reflexivity|]. exists w3. split; [exact Q03|]. split; [exact G3|]. left. split; [|exact E4].
    split; [exact I|]. exists cur. split; [exact Ec|]. destruct b; lia.
  Qed.

  (** The loop, after the first key. *)
  Lemma validate_rest b val keys : forall w, good w -> Forall dom keys ->
    exists r w', validate_freq io b val false keys w = (r, w') /\ quiet w w' /\ good w' /\
      match r with
      | Ok l => map fst l = keys /\ Forall (fun kf => means1 w val (fst kf) = Ok (snd kf) /\ fits w b (fst kf) (snd kf)) l
      | Exn e => exists key, In key keys /\ (forall f, means1 w val key = Ok f -> ~ fits w b key f) /\
          (((exists f, means1 w val key = Ok f) /\ (exists lo, v_limit v w true key = Ok lo) /\
            (exists hi, v_limit v w false key = Ok hi) /\ (exists cur, v_cur v w (negb b) key = Ok cur)) ->
           (e = EFreqRange /\ (forall f, means1 w val key = Ok f -> ~ in_limits v w key f)) \/
           (e = EFreqOrder /\ (forall f, means1 w val key = Ok f -> in_limits v w key f)))
      end.
  Proof.
    induction keys as [|key rest IH]; intros w G D.
    - exists (Ok []), w. split; [reflexivity|]. split; [apply qrefl|]. split; [exact G|]. split; [reflexivity|constructor].
    - inversion D as [|? ? D1 D2]; subst. cbn [validate_freq].
      destruct (next_run val false key rest w G D1) as (r1 & w1 & E1 & Q1 & G1 & H1).
      unfold mbind at 1. rewrite E1. destruct r1 as [[f val']|e].
      2:{ exists (Exn e), w1. split; [reflexivity|]. split; [exact Q1|]. split; [exact G1|]. exists key.
          split; [now left|]. split; [intros f Hf; now apply H1 in Hf|]. intros ((f & Hf) & _). now apply H1 in Hf. }
      destruct H1 as (Hf & Hv & _). rewrite (Hv eq_refl) in Hf |- *. clear Hv.
      pose proof Hf as Hf1. rewrite <- (quiet_means1 w w1) in Hf1 by exact Q1.
      destruct (check_run b val false key f (let! l := validate_freq io b val false rest in ret ((key, f) :: l)) w1 G1 D1 Hf1)
        as (r & w' & E & w2 & Q2 & G2 & H).
      exists r, w'. split; [exact E|].
      assert (Q02 : quiet w w2) by now apply (qtrans _ w1).
      destruct H as [[Hfit Hrest]|(Hn & -> & e & -> & He)].
      + destruct (IH w2 G2 D2) as (r3 & w3 & E3 & Q3 & G3 & H3).
        unfold mbind in Hrest. rewrite E3 in Hrest.
        assert (Q03 : quiet w w3) by now apply (qtrans _ w2).
        assert (Fw : fits w b key f).
        { destruct Hfit as [A B]. apply (quiet_in_limits w w1) in A; [|exact Q1].
          apply (quiet_in_order w w1) in B; [|exact Q1]. now split. }
        destruct r3 as [l|e].
        * cbn in Hrest. apply pair_equal_spec in Hrest as [<- <-]. split; [exact Q03|]. split; [exact G3|].
          destruct H3 as [H3 H4]. split; [cbn; now rewrite H3|]. constructor; [cbn; auto|].
          eapply Forall_impl; [|exact H4]. intros [k0 f0]. cbn. intros [A [B C]].
          rewrite (quiet_means1 w w2) in A by exact Q02. split; [exact A|].
          apply (quiet_in_limits w w2) in B; [|exact Q02]. apply (quiet_in_order w w2) in C; [|exact Q02]. now split.
        * apply pair_equal_spec in Hrest as [<- <-]. split; [exact Q03|]. split; [exact G3|].
          destruct H3 as (k0 & Hk & N & B). exists k0. split; [now right|]. rewrite (quiet_means1 w w2) in N, B by exact Q02.
          rewrite !(quiet_limit w w2), (quiet_cur w w2) in B by exact Q02.
          split.
          -- intros f0 Hf0 [A C]. apply (N f0 Hf0). split; [now apply (quiet_in_limits w w2)|now apply (quiet_in_order w w2)].
          -- intros P. destruct (B P) as [[-> X]|[-> X]]; [left|right]; (split; [reflexivity|]); intros f0 Hf0.
             ++ intros A. apply (X f0 Hf0). now apply (quiet_in_limits w w2).
             ++ apply (quiet_in_limits w w2); [exact Q02|]. now apply X.
      + split; [exact Q02|]. split; [exact G2|]. exists key. split; [now left|]. 
        rewrite !(quiet_limit w w1), (quiet_cur w w1) in He by exact Q1. split.
        * intros f0 Hf0 [A C]. assert (f0 = f) by congruence. subst f0. apply Hn.
          split; [now apply (quiet_in_limits w w1)|now apply (quiet_in_order w w1)].
        * intros (_ & P). destruct (He P) as [[-> X]|[-> X]]; [left|right]; (split; [reflexivity|]); intros f0 Hf0;
            (assert (f0 = f) by congruence; subst f0).
          -- intros A. apply X. now apply (quiet_in_limits w w1).
          -- apply (quiet_in_limits w w1); [exact Q1|exact X].
  Qed.

  (** The whole loop. *)
  Lemma validate_run b val keys w : good w -> Forall dom keys ->
    exists r w', validate_freq io b val true keys w = (r, w') /\ quiet w w' /\ good w' /\
      match r with
      | Ok l => map fst l = keys /\
          Forall (fun kf => means v w val keys (fst kf) = Ok (snd kf) /\ fits w b (fst kf) (snd kf)) l
      | Exn e => ~ acceptable v w b val keys /\
          (readable v w b val keys -> e = EFreqRange \/ e = EFreqOrder) /\
          (readable v w b val keys -> (forall key f, In key keys -> means v w val keys key = Ok f -> in_limits v w key f) ->
             e = EFreqOrder)
      end.
  Proof.
    intros G D. destruct keys as [|key rest].
    - exists (Ok []), w. split; [reflexivity|]. split; [apply qrefl|]. split; [exact G|]. split; [reflexivity|constructor].
    - inversion D as [|? ? D1 D2]; subst. cbn [validate_freq].
      destruct (next_run val true key rest w G D1) as (r1 & w1 & E1 & Q1 & G1 & H1).
      unfold mbind at 1. rewrite E1. destruct r1 as [[f val']|e].
      2:{ exists (Exn e), w1. split; [reflexivity|]. split; [exact Q1|]. split; [exact G1|].
          split; [|split].
          - intros A. destruct (A key (or_introl eq_refl)) as (f & Hf & _). now apply H1 in Hf.
          - intros A. destruct (A key (or_introl eq_refl)) as ((f & Hf) & _). now apply H1 in Hf.
          - intros A. destruct (A key (or_introl eq_refl)) as ((f & Hf) & _). now apply H1 in Hf. }
      destruct H1 as (Hf & _ & Hm). specialize (Hm eq_refl).
      pose proof Hf as Hf1. rewrite <- (quiet_means1 w w1) in Hf1 by exact Q1.
      destruct (check_run b val' true key f (let! l := validate_freq io b val' false rest in ret ((key, f) :: l)) w1 G1 D1 Hf1)
        as (r & w' & E & w2 & Q2 & G2 & H).
      exists r, w'. split; [exact E|].
      assert (Q02 : quiet w w2) by now apply (qtrans _ w1).
      destruct H as [[Hfit Hrest]|(Hn & -> & e & -> & He)].
      + destruct (validate_rest b val' rest w2 G2 D2) as (r3 & w3 & E3 & Q3 & G3 & H3).
        unfold mbind in Hrest. rewrite E3 in Hrest.
        assert (Q03 : quiet w w3) by now apply (qtrans _ w2).
        assert (Fw : fits w b key f).
        { destruct Hfit as [A B]. apply (quiet_in_limits w w1) in A; [|exact Q1].
          apply (quiet_in_order w w1) in B; [|exact Q1]. now split. }
        destruct r3 as [l|e].
        * cbn in Hrest. apply pair_equal_spec in Hrest as [<- <-]. split; [exact Q03|]. split; [exact G3|].
          destruct H3 as [H3 H4]. split; [cbn; now rewrite H3|]. constructor; [cbn [fst snd]; rewrite Hm; auto|].
          eapply Forall_impl; [|exact H4]. intros [k0 f0]. cbn [fst snd]. intros [A [B C]].
          rewrite (quiet_means1 w w2) in A by exact Q02. split; [now rewrite Hm|].
          apply (quiet_in_limits w w2) in B; [|exact Q02]. apply (quiet_in_order w w2) in C; [|exact Q02]. now split.
        * apply pair_equal_spec in Hrest as [<- <-]. split; [exact Q03|]. split; [exact G3|].
          destruct H3 as (k0 & Hk & N & B). rewrite (quiet_means1 w w2) in N, B by exact Q02.
          rewrite !(quiet_limit w w2), (quiet_cur w w2) in B by exact Q02.
          assert (B' : readable v w b val (key :: rest) -> 
            e = EFreqRange /\ (forall f0, means1 w val' k0 = Ok f0 -> ~ in_limits v w k0 f0) \/ e = EFreqOrder).
          { intros P. destruct (P k0 (or_intror Hk)) as (P1 & P2). rewrite Hm in P1.
            destruct (B (conj P1 P2)) as [[-> X]|[-> X]]; [left|right; reflexivity]. split; [reflexivity|].
            intros f0 Hf0 A. apply (X f0 Hf0). now apply (quiet_in_limits w w2). }
          split; [|split].
          -- intros A. destruct (A k0 (or_intror Hk)) as (f0 & Hf0 & I & O). rewrite Hm in Hf0.
             apply (N f0 Hf0). split; [now apply (quiet_in_limits w w2)|now apply (quiet_in_order w w2)].
          -- intros P. destruct (B' P) as [[-> _]| ->]; auto.
          -- intros P I. destruct (B' P) as [[-> X]| ->]; [exfalso|reflexivity].
             destruct (P k0 (or_intror Hk)) as ((f0 & Hf0) & _). pose proof Hf0 as Hf0'. rewrite Hm in Hf0'.
             apply (X f0 Hf0'). apply I; [now right|exact Hf0].
      + split; [exact Q02|]. split; [exact G2|]. 
        rewrite !(quiet_limit w w1), (quiet_cur w w1) in He by exact Q1.
        assert (Ex : forall f0, means v w val (key :: rest) key = Ok f0 -> f0 = f) by (intros f0; rewrite Hm; congruence).
        split; [|split].
        * intros A. destruct (A key (or_introl eq_refl)) as (f0 & Hf0 & I & O). apply Ex in Hf0. subst f0. apply Hn.
          split; [now apply (quiet_in_limits w w1)|now apply (quiet_in_order w w1)].
        * intros P. destruct (P key (or_introl eq_refl)) as (_ & P2). destruct (He P2) as [[-> _]|[-> _]]; auto.
        * intros P I. destruct (P key (or_introl eq_refl)) as ((f0 & Hf0) & P2).
          destruct (He P2) as [[-> X]|[-> _]]; [exfalso|reflexivity]. apply X. apply (quiet_in_limits w w1); [exact Q1|].
          specialize (I key f0 (or_introl eq_refl) Hf0). apply Ex in Hf0. now subst f0.
  Qed.

  (** ** Setting the groups *)
  Lemma groups_run b (l : list (K * Z)) w w' : good w -> Forall dom (map fst l) ->
    (forall key f f', In (key, f) l -> In (key, f') l -> f = f') ->
    mfor (freq2keys l) (fun fk => f_set io b (fst fk) (snd fk)) w = (Ok tt, w') ->
    good w' /\
    (forall key f, In (key, f) l -> v_cur v w' b key = Ok (rnd key f)) /\
    (forall b' key, dom key -> ~ (b' = b /\ In key (map fst l)) -> v_cur v w' b' key = v_cur v w b' key) /\
    (forall b' key, dom key -> v_limit v w' b' key = v_limit v w b' key) /\
    (forall sp key, dom key -> v_special v w' sp key = v_special v w sp key) /\
    (forall b' f' key, dom key -> live w b' f' key -> live w' b' f' key).
  Proof.
    intros G D Fn.
    assert (Dg : forall f ks, In (f, ks) (freq2keys l) -> forall key, In key ks -> In (key, f) l).
    { intros f ks H key Hk. apply freq2keys_in. eauto. }
    assert (Dl : forall key f, In (key, f) l -> dom key).
    { intros key f H. rewrite Forall_forall in D. apply D. change key with (fst (key, f)). now apply in_map. }
    intros E.
    assert (P : post (mfor (freq2keys l) (fun fk => f_set io b (fst fk) (snd fk))) w
      (fun _ w' => good w' /\
        (forall f ks key, In (f, ks) (freq2keys l) -> In key ks -> v_cur v w' b key = Ok (rnd key f)) /\
        (forall b' key, dom key -> ~ (b' = b /\ exists f ks, In (f, ks) (freq2keys l) /\ In key ks) -> v_cur v w' b' key = v_cur v w b' key) /\
        (forall b' key, dom key -> v_limit v w' b' key = v_limit v w b' key) /\
        (forall sp key, dom key -> v_special v w' sp key = v_special v w sp key) /\
        (forall b' f' key, dom key -> live w b' f' key -> live w' b' f' key)) (fun _ _ => True)).
    { apply (post_mfor _ (fun pre w' => good w' /\
        (forall f ks key, In (f, ks) pre -> In key ks -> v_cur v w' b key = Ok (rnd key f)) /\
        (forall b' key, dom key -> ~ (b' = b /\ exists f ks, In (f, ks) pre /\ In key ks) -> v_cur v w' b' key = v_cur v w b' key) /\
        (forall b' key, dom key -> v_limit v w' b' key = v_limit v w b' key) /\
        (forall sp key, dom key -> v_special v w' sp key = v_special v w sp key) /\
        (forall b' f' key, dom key -> live w b' f' key -> live w' b' f' key))).
      2:{ split; [exact G|]. split; [intros f ks key []|]. auto. }
      intros pre [f ks] suf Ep w1 (G1 & C1 & F1 & L1 & S1 & V1). cbn [fst snd].
      unfold post. destruct (f_set io b f ks w1) as [[[]|e] w2] eqn:E2; [|exact I].
      assert (Hin : In (f, ks) (freq2keys l)) by (rewrite Ep; apply in_or_app; right; now left).
      assert (Dk : Forall dom ks) by (apply Forall_forall; intros key Hk; eapply Dl, Dg; eassumption).
      destruct (r_set _ _ _ _ _ _ _ R w1 w2 b f ks G1 Dk E2) as (G2 & C2 & F2 & L2 & S2 & V2).
      split; [exact G2|]. split; [|split; [|split; [|split]]].
      - intros f0 ks0 key H0 Hk. apply in_app_or in H0 as [H0|[H0|[]]].
        + assert (Hin0 : In (f0, ks0) (freq2keys l)) by (rewrite Ep; apply in_or_app; now left).
          pose proof (Dg _ _ Hin0 key Hk) as X0.
          assert (Dec : In key ks \/ ~ In key ks).
          { destruct (Z.eq_dec f f0) as [->|Hne].
            - left. pose proof (dget_in_nodup _ _ _ (freq2keys_nodup l) Hin).
              pose proof (dget_in_nodup _ _ _ (freq2keys_nodup l) Hin0). congruence.
            - right. intros Hk2. apply Hne. symmetry. eapply Fn; [exact X0|]. now apply (Dg f ks). }
          destruct Dec as [Hk2|Hk2].
          * rewrite C2 by exact Hk2. f_equal. f_equal. eapply Fn; [|exact X0]. now apply (Dg f ks).
          * rewrite F2; [now apply (C1 f0 ks0)| |tauto]. now apply (Dl key f0).
        + injection H0 as <- <-. now apply C2.
      - intros b' key Dkey N. rewrite F2; [|exact Dkey|].
        + apply F1; [exact Dkey|]. intros [-> (f0 & ks0 & H0 & Hk)]. apply N. split; [reflexivity|]. exists f0, ks0.
          split; [apply in_or_app; now left|exact Hk].
        + intros [-> Hk]. apply N. split; [reflexivity|]. exists f, ks. split; [apply in_or_app; right; now left|exact Hk].
      - intros b' key Dkey. rewrite L2 by exact Dkey. now apply L1.
      - intros sp key Dkey. rewrite S2 by exact Dkey. now apply S1.
      - intros b' f' key Dkey Hl. apply V2; [exact Dkey|]. now apply V1. }
    unfold post in P. rewrite E in P. destruct P as (P1 & P2 & P3 & P4 & P5).
    split; [exact P1|]. split; [|split; [|split; assumption]].
    - intros key f H. apply freq2keys_in in H as (ks & H1 & H2). now apply (P2 f ks).
    - intros b' key Dkey N. apply P3; [exact Dkey|]. intros [-> (f & ks & H1 & H2)]. apply N. split; [reflexivity|].
      change key with (fst (key, f)). apply in_map. now apply (Dg f ks).
  Qed.

  Lemma groups_live b (l : list (K * Z)) : forall w, good w -> Forall dom (map fst l) ->
    (forall key f, In (key, f) l -> live w b f key) ->
    exists w', mfor (freq2keys l) (fun fk => f_set io b (fst fk) (snd fk)) w = (Ok tt, w').
  Proof.
    intros w G D Hl.
    assert (Dg : forall f ks, In (f, ks) (freq2keys l) -> forall key, In key ks -> In (key, f) l).
    { intros f ks H key Hk. apply freq2keys_in. eauto. }
    assert (Dl : forall key f, In (key, f) l -> dom key).
    { intros key f H. rewrite Forall_forall in D. apply D. change key with (fst (key, f)). now apply in_map. }
    assert (X : forall d, incl d (freq2keys l) -> forall w, good w -> (forall key f, In (key, f) l -> live w b f key) ->
      exists w', mfor d (fun fk => f_set io b (fst fk) (snd fk)) w = (Ok tt, w')).
    { clear w G Hl. induction d as [|[f ks] d IH]; intros Hi w G Hl; [eexists; reflexivity|].
      assert (Hin : In (f, ks) (freq2keys l)) by (apply Hi; now left).
      assert (Dk : Forall dom ks) by (apply Forall_forall; intros key Hk; eapply Dl, Dg; eassumption).
      destruct (r_accept _ _ _ _ _ _ _ R w b f ks G Dk) as (w1 & E1).
      { exact (freq2keys_some l f ks Hin). }
      { intros key Hk. apply Hl. now apply (Dg f ks). }
      destruct (r_set _ _ _ _ _ _ _ R w w1 b f ks G Dk E1) as (G1 & _ & _ & _ & _ & V1).
      destruct (IH (fun x Hx => Hi x (or_intror Hx)) w1 G1) as (w2 & E2).
      { intros key f0 H0. apply V1; [now apply (Dl key f0)|]. now apply Hl. }
      exists w2. cbn [mfor fst snd]. unfold mbind. now rewrite E1. }
    apply X; auto. apply incl_refl.
  Qed.

  (** ** Setting one frequency *)
  Lemma set_freq_run b val keys w : good w -> Forall dom keys ->
    exists r w', set_freq io b val keys w = (r, w') /\
      ((acceptable v w b val keys /\
        (r = Ok tt -> good w' /\ exactly_set v dom rnd b val keys w w' /\
           (forall sp key, dom key -> v_special v w' sp key = v_special v w sp key) /\
           (forall b' f' key, dom key -> live w b' f' key -> live w' b' f' key)) /\
        ((forall key f, In key keys -> means v w val keys key = Ok f -> live w b f key) -> r = Ok tt)) \/
       (~ acceptable v w b val keys /\ quiet w w' /\ good w' /\ exists e, r = Exn e /\
          (readable v w b val keys -> e = EFreqRange \/ e = EFreqOrder) /\
          (readable v w b val keys -> (forall key f, In key keys -> means v w val keys key = Ok f -> in_limits v w key f) ->
             e = EFreqOrder))).
  Proof.
    intros G D. unfold set_freq. destruct (validate_run b val keys w G D) as (r1 & w1 & E1 & Q1 & G1 & H1).
    unfold mbind. rewrite E1. destruct r1 as [l|e].
    2:{ exists (Exn e), w1. split; [reflexivity|]. right. destruct H1 as (H1 & H2 & H3). split; [exact H1|].
        split; [exact Q1|]. split; [exact G1|]. exists e. auto. }
    destruct H1 as [Hk Hl]. rewrite Forall_forall in Hl.
    assert (Fn : forall key f f', In (key, f) l -> In (key, f') l -> f = f').
    { intros key f f' H H'. apply Hl in H as [H _]. apply Hl in H' as [H' _]. cbn in *. congruence. }
    assert (Hkey : forall key, In key keys -> exists f, In (key, f) l).
    { intros key H. rewrite <- Hk in H. apply in_map_iff in H as ([k0 f] & <- & H). eauto. }
    assert (Acc : acceptable v w b val keys).
    { intros key H. destruct (Hkey key H) as (f & Hf). destruct (Hl _ Hf) as [A [B C]]. cbn in *. exists f. auto. }
    destruct (mfor (freq2keys l) (fun fk => f_set io b (fst fk) (snd fk)) w1) as [r w2] eqn:E2.
    exists r, w2. split; [reflexivity|]. left. split; [exact Acc|]. split.
    - intros ->. assert (D' : Forall dom (map fst l)) by now rewrite Hk.
      destruct (groups_run b l w1 w2 G1 D' Fn E2) as (G2 & C2 & F2 & L2 & S2 & V2).
      split; [exact G2|]. split; [split; [|split]|split].
      + intros key H. destruct (Hkey key H) as (f & Hf). exists f. split; [now apply (Hl (key, f))|]. now apply C2.
      + intros b' key Dk N. rewrite F2; [now apply quiet_cur|exact Dk|]. now rewrite Hk.
      + intros b' key Dk. rewrite L2 by exact Dk. now apply quiet_limit.
      + intros sp key Dk. rewrite S2 by exact Dk. now apply quiet_special.
      + intros b' f' key Dk H. apply V2; [exact Dk|]. exact (r_live _ _ _ _ _ _ _ R w w1 Q1 b' f' key H).
    - intros HL. destruct (groups_live b l w1 G1) as (w3 & E3).
      + now rewrite Hk.
      + intros key f Hf. apply (r_live _ _ _ _ _ _ _ R w w1 Q1). apply HL; [|now apply (Hl (key, f))].
        rewrite <- Hk. change key with (fst (key, f)). now apply in_map.
      + congruence.
  Qed.
End Generic.
