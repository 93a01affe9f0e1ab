(** Lemmas about restoring a saved file. *)
From Coq Require Import Ascii String ZifyBool Permutation Sorted.
From Verif Require Import Base M_CPUInfo S_CPUInfo M_Text S_Text M_Human M_CPUIdle S_CPUIdle M_CSave S_CSave
  L_Base L_Monad L_CPUInfo L_Text L_FMSR2 L_OpTarget L_CPUIdle3 L_CPUIdle4 L_CPUIdle5 L_CPUIdle6 L_CPUIdle7 L_CSave L_CSave2.

Section Restore.
  Variable mc : machine.
  Variable nst : Z -> Z.
  Hypothesis Hok : idle_ok mc nst.
  Variable pnames : list str.
  Hypothesis Hplain : plain_names mc nst pnames.
  Notation online := (ci_online (mc_ci mc)).
  Notation Inv := (Inv mc nst).
  Notation evolve := (evolve mc).

  Section File.
    Variable flags : Z -> Z -> str.
    Variable T : list Z.
    Hypothesis HT : incl T online.
    Variable d : ydict.
    Hypothesis Hd : file_ok mc nst flags T d.
    Hypothesis Hfo : flags_ok mc nst flags.

    Definition aimed (c i : Z) : Prop := In c T /\ 0 <= i < nst c.

    Lemma cs_post n its s : In (n, its) d -> Inv false s ->
      post (mfor its (restore_item mc n)) s
        (fun _ s' => Inv false s' /\ evolve (touched mc nst T n) s s' /\ (forall c i, touched mc nst T n c i -> id_flags s' c i = flags c i) /\
           exists off, forall c, In c T -> In n (own_names mc nst c) -> has_set mc nst flags c n off)
        (fun _ s' => Inv false s' /\ evolve (touched mc nst T n) s s' /\
           ~ (can mc nst s /\ uniform mc nst flags T)).
    Proof.
      intros Hn HI. destruct Hd as (_ & _ & D3). destruct (D3 n its Hn) as ((c0 & i0 & Hc0 & Hi0 & En) & v & l & k & -> & Hk & Hall & Hg).
      destruct (Hg v l) as (L1 & L2 & off & -> & L4); [now left|]. destruct (Hplain c0 i0 (HT c0 Hc0) Hi0) as (P1 & P2 & _). cbn [mfor].
      assert (Hlo : incl l online) by (intros c Hc; apply HT; now apply L4).
      assert (Hweak : forall c i, touched mc nst l n c i -> touched mc nst T n c i) by (intros c i (A & B & C); split; [now apply L4|now split]).
      assert (Hown : forall c, In c l -> In n (own_names mc nst c)).
      { intros c Hc. apply L4 in Hc as (_ & i & Hi & E & _). apply own_In. now exists i. }
      apply post_bind. rewrite En in *. eapply post_conseq; [apply (item_post mc nst Hok c0 i0 off l s HI Hlo L2 P1 P2)| |]; cbn beta.
      2: { intros e s' (J1 & J2 & J3). split; [exact J1|]. split; [now apply (evolve_weak mc _ _ s s' Hweak)|]. intros (Hcan & _). apply J3. now split. }
      intros _ s1 (J1 & J2 & J3). assert (J2' := evolve_weak mc _ _ s s1 Hweak J2). rewrite <- En in *.
      destruct k as [|(w, m) k].
      - (* one group: all the CPUs with this C-state are in it *)
        cbn [map mfor]. apply post_ret. split; [exact J1|]. split; [exact J2'|].
        assert (Hone : forall c off', In c T -> has_set mc nst flags c n off' -> off' = off).
        { intros c off' Hc Hs. destruct (Hall c off' Hc Hs) as (m & [[= E _]|[]]). destruct off, off'; try reflexivity; discriminate E. }
        split.
        + intros c i (Hc & Hi & E). destruct (Hfo c i (HT c Hc) Hi) as (off' & Eo).
          assert (Hs : has_set mc nst flags c n off') by (now exists i). rewrite Eo. rewrite <- (Hone c off' Hc Hs) in *.
          apply J3. split; [apply L4; now split|now split].
        + exists off. intros c Hc Ho. apply own_In in Ho as (i & Hi & E). destruct (Hfo c i (HT c Hc) Hi) as (off' & Eo).
          assert (Hs : has_set mc nst flags c n off') by (now exists i). now rewrite <- (Hone c off' Hc Hs).
      - cbn [map mfor]. apply post_bind. destruct (Hg w m) as (M1 & M2 & off' & -> & M4); [right; now left|].
        unfold post. assert (Hraw := raw_item mc n (if off' then 1 else 0) (rangify m) s1). cbn [fst snd]. unfold bval.
        destruct (restore_item mc n (s2l "value"%string, CInt (if off' then 1 else 0), rangify m) s1) as ([[]|e], s2); cbn [fst snd] in Hraw; [exfalso; now apply (proj1 Hraw)|].
        destruct Hraw as (_ & ->). split; [exact J1|]. split; [exact J2'|]. intros (_ & Hu).
        inversion Hk as [|? ? Hk1 _]; subst. apply Hk1. left. cbn [fst].
        destruct l as [|c1 l]; [contradiction|]. destruct m as [|c2 m]; [contradiction|].
        assert (H1 : In c1 (c1 :: l)) by now left. assert (H2 : In c2 (c2 :: m)) by now left.
        apply L4 in H1 as (T1 & i1 & I1 & E1 & F1). apply M4 in H2 as (T2 & i2 & I2 & E2 & F2).
        rewrite (Hu c1 c2 i1 i2 T1 T2 I1 I2) in F1 by congruence. rewrite F1 in F2. apply flag_inj in F2. now subst.
    Qed.

    (** All the C-states of the file. *)
    Definition one_setting (n : str) : Prop := exists off, forall c, In c T -> In n (own_names mc nst c) -> has_set mc nst flags c n off.

    Lemma all_post s : Inv false s ->
      post (restore_cstates mc d) s
        (fun _ s' => Inv false s' /\ evolve aimed s s' /\ (forall c i, aimed c i -> id_flags s' c i = flags c i) /\ uniform mc nst flags T)
        (fun _ s' => Inv false s' /\ evolve aimed s s' /\ ~ (can mc nst s /\ uniform mc nst flags T)).
    Proof.
      intros HI. unfold restore_cstates.
      eapply post_conseq; [apply (post_mfor _ (fun p s' => Inv false s' /\ evolve aimed s s' /\
          (forall c i, aimed c i -> In (cs_name mc c i) (map fst p) -> id_flags s' c i = flags c i) /\ forall n, In n (map fst p) -> one_setting n)
        (fun _ s' => Inv false s' /\ evolve aimed s s' /\ ~ (can mc nst s /\ uniform mc nst flags T)))| |auto].
      - intros p (n, its) q E s1 (J1 & J2 & J3 & J4). cbn [fst snd].
        assert (Hin : In (n, its) d) by (rewrite E; apply in_or_app; right; now left).
        assert (Hni : ~ In n (map fst p)).
        { destruct Hd as (D1 & _). rewrite E, map_app in D1. cbn [map fst] in D1. apply NoDup_remove_2 in D1. intros H. apply D1. apply in_or_app. now left. }
        assert (Hweak : forall c i, touched mc nst T n c i -> aimed c i) by (intros c i (A & B & _); now split).
        eapply post_conseq; [apply (cs_post n its s1 Hin J1)| |]; cbn beta.
        + intros _ s2 (K1 & K2 & K3 & K4). split; [exact K1|]. split; [apply (evolve_trans mc _ s s1 s2 J2); now apply (evolve_weak mc _ _ s1 s2 Hweak)|]. split.
          * intros c i Ha. rewrite map_app, in_app_iff. cbn [map fst In]. destruct (str_dec n (cs_name mc c i)) as [En|Hne].
            -- intros _. apply K3. destruct Ha as (A1 & A2). split; [exact A1|now split].
            -- intros [H|[H|[]]]; [|contradiction]. rewrite (proj1 K2); [now apply J3|]. intros (_ & _ & H'). contradiction.
          * intros m. rewrite map_app, in_app_iff. cbn [map fst In]. intros [H|[<-|[]]]; [now apply J4|exact K4].
        + intros e s2 (K1 & K2 & K3). split; [exact K1|]. split; [apply (evolve_trans mc _ s s1 s2 J2); now apply (evolve_weak mc _ _ s1 s2 Hweak)|].
          intros (Hcan & Hu). apply K3. split; [now apply (can_evolve mc nst aimed s s1)|exact Hu].
      - split; [exact HI|]. split; [apply evolve_refl|]. split; [intros c i _ []|intros n []].
      - cbn beta. intros _ s' (J1 & J2 & J3 & J4). split; [exact J1|]. split; [exact J2|]. destruct Hd as (_ & D2 & _). split.
        + intros c i (A1 & A2). apply J3; [now split|]. now apply D2.
        + intros c c' i i' Hc Hc' Hi Hi' En. destruct (J4 (cs_name mc c i) (D2 c i Hc Hi)) as (off & Ho).
          destruct (Ho c Hc) as (j & Hj & Ej & Fj); [apply own_In; now exists i|].
          destruct (Ho c' Hc') as (j' & Hj' & Ej' & Fj'); [apply own_In; now exists i'|].
          destruct (cpu_facts mc nst Hok c (HT c Hc)) as (_ & _ & _ & _ & Hinj & _). destruct (cpu_facts mc nst Hok c' (HT c' Hc')) as (_ & _ & _ & _ & Hinj' & _).
          apply Hinj in Ej; [|exact Hi|exact Hj]. rewrite En in Ej'. apply Hinj' in Ej'; [|exact Hi'|exact Hj']. subst j j'. congruence.
    Qed.

    Lemma file_values n its : In (n, its) d -> forall it, In it its -> fst (fst it) = s2l "value"%string.
    Proof.
      intros H it Hit. destruct Hd as (_ & _ & D3). destruct (D3 n its H) as (_ & v & l & k & -> & _). destruct Hit as [<-|Hit]; [reflexivity|].
      apply in_map_iff in Hit as (x & <- & _). reflexivity.
    Qed.

    Lemma restore_post s : Inv false s ->
      post (restore mc pnames d) s
        (fun _ s' => Inv false s' /\ evolve aimed s s' /\ (forall c i, aimed c i -> id_flags s' c i = flags c i) /\ uniform mc nst flags T)
        (fun _ s' => Inv false s' /\ evolve aimed s s' /\ ~ (can mc nst s /\ uniform mc nst flags T /\ same_names mc nst online)).
    Proof.
      intros HI. unfold restore. apply post_bind. unfold post at 1.
      assert (H := info_post mc nst Hok (fun _ _ => False) false None (CsText (s2l "all"%string)) s HI). unfold post in H.
      assert (HN := info_nens mc nst Hok None (CsText (s2l "all"%string)) s (proj1 (proj2 (proj2 HI)))).
      destruct (get_cstates_info mc None (CsText (s2l "all"%string)) s) as ([r|e], s1).
      2: { specialize (HN e s1 eq_refl). destruct H as (J1 & J2 & J3).
           assert (Hbad : ~ (can mc nst s /\ uniform mc nst flags T /\ same_names mc nst online)).
           { intros ((_ & Hr & _) & _ & Hs). apply J3; [exact Hr|intros l; discriminate|]. intros c0 c n H0 Hc Ha. apply (Hs c0 c); assumption. }
           assert (J2' : evolve aimed s s1) by (now apply (evolve_weak mc (fun _ _ => False) _ s s1)).
           destruct e; try (split; [exact J1|split; [exact J2'|exact Hbad]]). contradiction. }
      destruct H as (J1 & J2 & _ & l & ns & Hl & Hr & Hns & Hown & Hsh).
      assert (J2' : evolve aimed s s1) by (now apply (evolve_weak mc (fun _ _ => False) _ s s1)).
      set (csn := flat_map (fun it : Z * csinfo => map fst (snd it)) r). apply post_bind. apply post_lift.
      - intros u Hv. 
        assert (Hin : forall nv, In nv d -> existsb (str_eqb (fst nv)) csn = true).
        { intros (n, its) Hnv. cbn [fst]. unfold validate in Hv. destruct (rmap d _) as [x|e] eqn:Ev; cbn [rbind] in Hv; [|discriminate].
          assert (Hp := rmap_forall2 _ _ _ Ev). destruct (Forall2_In_l _ _ _ _ Hp Hnv) as (y & _ & Ey). cbn [fst snd] in Ey.
          match type of Ey with (if ?b then _ else _) = _ => destruct b eqn:Ek; [|discriminate] end. apply inkeys in Ek. apply inkeys. apply in_app_iff in Ek as [Hpn|Hc]; [|exact Hc].
          exfalso. destruct Hd as (_ & _ & D3). destruct (D3 n its Hnv) as ((c0 & i0 & Hc0 & Hi0 & ->) & _). destruct (Hplain c0 i0 (HT c0 Hc0) Hi0) as (_ & _ & P3). contradiction. }
        assert (Efil : filter (fun nv => existsb (str_eqb (fst nv)) csn) d = d).
        { clear - Hin. induction d as [|nv t IH]; cbn [filter]; [reflexivity|]. rewrite Hin by now left. f_equal. apply IH. intros x Hx. apply Hin. now right. }
        match goal with |- post (restore_cstates mc ?x) _ _ _ => replace x with d by (symmetry; exact Efil) end. eapply post_conseq; [apply (all_post s1 J1)| |]; cbn beta.
        + intros _ s2 (K1 & K2 & K3 & K4). split; [exact K1|]. split; [now apply (evolve_trans mc _ s s1 s2)|]. now split.
        + intros e s2 (K1 & K2 & K3). split; [exact K1|]. split; [now apply (evolve_trans mc _ s s1 s2)|]. intros (Hcan & Hu & _). apply K3.
          split; [now apply (can_evolve mc nst aimed s s1)|exact Hu].
      - intros e Hv. split; [exact J1|]. split; [exact J2'|]. intros (_ & _ & Hs).
        assert (Hcsn : forall n, In n (map fst d) -> In n csn).
        { intros n Hn. apply in_map_iff in Hn as ((n', its) & E & Hn). cbn [fst] in E. subst n'. destruct Hd as (_ & _ & D3).
          destruct (D3 n its Hn) as ((c0 & i0 & Hc0 & Hi0 & ->) & _).
          destruct (norm_cpus mc nst Hok None l Hl) as (_ & _ & N3). cbn [cs_targets] in N3. assert (Hcl : In c0 l) by (apply N3; now apply HT).
          rewrite <- Hr in Hcl. apply in_map_iff in Hcl as ((c0', info) & E & Hi). cbn [fst] in E. subst c0'. destruct (Hsh c0 info Hi) as (_ & S2 & _).
          destruct (S2 i0 Hi0) as (cs & Hcs).
          - assert (Hcl : In c0 l) by (apply N3; now apply HT). destruct (hd_of l c0 Hcl) as (c1 & H1 & H1l). apply (Hns c1 H1). cbn [asked].
            change (str_eqb (s2l "all"%string) (s2l "all"%string)) with true. cbn iota. apply (Hs c0 c1); [now apply HT|now apply N3|]. apply own_In. now exists i0.
          - unfold csn. apply in_flat_map. exists (c0, info). split; [exact Hi|]. cbn [snd]. apply in_map_iff. now exists (cs_name mc c0 i0, cs). }
        unfold validate in Hv. destruct (rmap d _) as [x|e'] eqn:Ev; cbn [rbind] in Hv; [discriminate|].
        apply rmap_exn in Ev as ((n, its) & Hnv & Ev). cbn [fst snd] in Ev.
        assert (Ek : existsb (str_eqb n) (pnames ++ csn) = true).
        { apply inkeys, in_or_app. right. apply Hcsn. apply in_map_iff. now exists (n, its). }
        match type of Ev with (if ?b then _ else _) = _ => replace b with true in Ev by (symmetry; exact Ek) end. destruct (rmap its _) as [x|e''] eqn:Ei; cbn [rbind] in Ev; [discriminate|].
        apply rmap_exn in Ei as (it & Hit & Ei). rewrite (file_values n its Hnv it Hit) in Ei. discriminate.
    Qed.
  End File.
End Restore.

(** C32 *)
Lemma save_restore : forall mc nst pnames, idle_ok mc nst -> plain_names mc nst pnames ->
  forall flags gov tick wf ops cpus d s1, flags_ok mc nst flags ->
  let s := irun mc ops (idle_init flags gov tick [] wf) in
  save_cstates mc cpus s = (Ok d, s1) -> same_names mc nst (cs_targets mc cpus) ->
  forall flags' gov' tick' rf' wf' ops' s2, flags_ok mc nst flags' ->
  let s' := irun mc ops' (idle_init flags' gov' tick' rf' wf') in
  restore mc pnames d s' = (Ok tt, s2) ->
  forall c i, (In c (cs_targets mc cpus) -> 0 <= i < nst c -> id_flags s2 c i = id_flags s c i) /\
    (~ (In c (cs_targets mc cpus) /\ 0 <= i < nst c) -> id_flags s2 c i = id_flags s' c i).
Proof.
  intros mc nst pnames Hok Hp flags gov tick wf ops cpus d s1 Hf s E1 Hs flags' gov' tick' rf' wf' ops' s2 Hf' s' E2 c i.
  destruct (reach mc nst true flags gov tick [] wf ops Hok Hf ltac:(reflexivity)) as (HI & _). fold s in HI.
  destruct (reach mc nst false flags' gov' tick' rf' wf' ops' Hok Hf' ltac:(discriminate)) as (HI' & _). fold s' in HI'.
  assert (H := post_run _ _ _ _ _ _ (save_post mc nst Hok true cpus s HI) E1). cbn beta iota in H. destruct H as (_ & _ & Ht & Hfile). specialize (Hfile eq_refl Hs).
  assert (H := post_run _ _ _ _ _ _ (restore_post mc nst Hok pnames Hp (id_flags s) _ Ht d Hfile (proj1 HI) s' HI') E2). cbn beta iota in H.
  destruct H as (_ & Hev & Hfl & _). split; [intros Hc Hi; apply Hfl; now split|]. intros Hn. apply Hev. exact Hn.
Qed.

Lemma save_frame : forall mc nst, idle_ok mc nst -> forall flags gov tick rf wf ops cpus, flags_ok mc nst flags ->
  let s := irun mc ops (idle_init flags gov tick rf wf) in
  (forall c i, id_flags (snd (save_cstates mc cpus s)) c i = id_flags s c i) /\ id_gov (snd (save_cstates mc cpus s)) = id_gov s.
Proof.
  intros mc nst Hok flags gov tick rf wf ops cpus Hf s.
  destruct (reach mc nst false flags gov tick rf wf ops Hok Hf ltac:(discriminate)) as (HI & _). fold s in HI.
  assert (H := save_post mc nst Hok false cpus s HI). unfold post in H.
  destruct (save_cstates mc cpus s) as ([d|e], s1); cbn [snd]; destruct H as (_ & (A & B & _) & _); (split; [intros c i; apply A; tauto|exact B]).
Qed.

Lemma save_succeeds : forall mc nst, idle_ok mc nst -> forall flags gov tick wf ops cpus, flags_ok mc nst flags ->
  incl (cs_targets mc cpus) (ci_online (mc_ci mc)) -> same_names mc nst (cs_targets mc cpus) ->
  exists d, fst (save_cstates mc cpus (irun mc ops (idle_init flags gov tick [] wf))) = Ok d.
Proof.
  intros mc nst Hok flags gov tick wf ops cpus Hf Hi Hs. set (s := irun mc ops _).
  destruct (reach mc nst true flags gov tick [] wf ops Hok Hf ltac:(reflexivity)) as (HI & _). fold s in HI.
  assert (H := save_post mc nst Hok true cpus s HI). unfold post in H.
  destruct (save_cstates mc cpus s) as ([d|e], s1); [now exists d|]. exfalso. destruct H as (_ & _ & H). apply H; [now apply HI|exact Hi|exact Hs].
Qed.

Lemma restore_succeeds : forall mc nst pnames, idle_ok mc nst -> obeys mc nst -> plain_names mc nst pnames -> same_names mc nst (ci_online (mc_ci mc)) ->
  forall flags gov tick wf ops cpus d s1, flags_ok mc nst flags ->
  let s := irun mc ops (idle_init flags gov tick [] wf) in
  save_cstates mc cpus s = (Ok d, s1) -> uniform mc nst (id_flags s) (cs_targets mc cpus) ->
  forall flags' gov' tick' rf' wf' ops', flags_ok mc nst flags' ->
  let s' := irun mc ops' (idle_init flags' gov' tick' rf' wf') in
  id_rf s' = [] -> id_wf s' = [] -> fst (restore mc pnames d s') = Ok tt.
Proof.
  intros mc nst pnames Hok Hob Hp Hso flags gov tick wf ops cpus d s1 Hf s E1 Hu flags' gov' tick' rf' wf' ops' Hf' s' Hr Hw.
  destruct (reach mc nst true flags gov tick [] wf ops Hok Hf ltac:(reflexivity)) as (HI & _). fold s in HI.
  destruct (reach mc nst false flags' gov' tick' rf' wf' ops' Hok Hf' ltac:(discriminate)) as (HI' & _). fold s' in HI'.
  assert (H := post_run _ _ _ _ _ _ (save_post mc nst Hok true cpus s HI) E1). cbn beta iota in H. destruct H as (_ & _ & Ht & Hfile).
  assert (Hs : same_names mc nst (cs_targets mc cpus)) by (intros c c' n Hc Hc'; apply Hso; now apply Ht). specialize (Hfile eq_refl Hs).
  assert (H := restore_post mc nst Hok pnames Hp (id_flags s) _ Ht d Hfile (proj1 HI) s' HI'). unfold post in H.
  destruct (restore mc pnames d s') as ([[]|e], s2); [reflexivity|]. exfalso. destruct H as (_ & _ & H). apply H. split; [split; [exact Hob|now split]|]. now split.
Qed.

Lemma restore_frame : forall mc nst pnames, idle_ok mc nst -> plain_names mc nst pnames ->
  forall flags gov tick wf ops cpus d s1, flags_ok mc nst flags ->
  let s := irun mc ops (idle_init flags gov tick [] wf) in
  save_cstates mc cpus s = (Ok d, s1) -> same_names mc nst (cs_targets mc cpus) ->
  forall flags' gov' tick' rf' wf' ops', flags_ok mc nst flags' ->
  let s' := irun mc ops' (idle_init flags' gov' tick' rf' wf') in
  let s2 := snd (restore mc pnames d s') in
  (forall c i, ~ (In c (cs_targets mc cpus) /\ 0 <= i < nst c) -> id_flags s2 c i = id_flags s' c i) /\
  (forall c i, In c (ci_online (mc_ci mc)) -> 0 <= i < nst c -> exists off, id_flags s2 c i = flag_text off) /\
  id_gov s2 = id_gov s'.
Proof.
  intros mc nst pnames Hok Hp flags gov tick wf ops cpus d s1 Hf s E1 Hs flags' gov' tick' rf' wf' ops' Hf' s' s2.
  destruct (reach mc nst true flags gov tick [] wf ops Hok Hf ltac:(reflexivity)) as (HI & _). fold s in HI.
  destruct (reach mc nst false flags' gov' tick' rf' wf' ops' Hok Hf' ltac:(discriminate)) as (HI' & _). fold s' in HI'.
  assert (H := post_run _ _ _ _ _ _ (save_post mc nst Hok true cpus s HI) E1). cbn beta iota in H. destruct H as (_ & _ & Ht & Hfile). specialize (Hfile eq_refl Hs).
  assert (H := restore_post mc nst Hok pnames Hp (id_flags s) _ Ht d Hfile (proj1 HI) s' HI'). unfold post in H. unfold s2.
  destruct (restore mc pnames d s') as ([u|e], s3); cbn [snd]; destruct H as ((F & _) & (A & B & _) & _); (split; [exact A|split; [exact F|exact B]]).
Qed.

Lemma mixed_fails : forall mc nst pnames, idle_ok mc nst -> plain_names mc nst pnames ->
  forall flags gov tick wf ops cpus d s1, flags_ok mc nst flags ->
  let s := irun mc ops (idle_init flags gov tick [] wf) in
  save_cstates mc cpus s = (Ok d, s1) -> same_names mc nst (cs_targets mc cpus) ->
  ~ uniform mc nst (id_flags s) (cs_targets mc cpus) ->
  forall flags' gov' tick' rf' wf' ops', flags_ok mc nst flags' ->
  fst (restore mc pnames d (irun mc ops' (idle_init flags' gov' tick' rf' wf'))) <> Ok tt.
Proof.
  intros mc nst pnames Hok Hp flags gov tick wf ops cpus d s1 Hf s E1 Hs Hu flags' gov' tick' rf' wf' ops' Hf'. set (s' := irun mc ops' _).
  destruct (reach mc nst true flags gov tick [] wf ops Hok Hf ltac:(reflexivity)) as (HI & _). fold s in HI.
  destruct (reach mc nst false flags' gov' tick' rf' wf' ops' Hok Hf' ltac:(discriminate)) as (HI' & _). fold s' in HI'.
  assert (H := post_run _ _ _ _ _ _ (save_post mc nst Hok true cpus s HI) E1). cbn beta iota in H. destruct H as (_ & _ & Ht & Hfile). specialize (Hfile eq_refl Hs).
  assert (H := restore_post mc nst Hok pnames Hp (id_flags s) _ Ht d Hfile (proj1 HI) s' HI'). unfold post in H.
  destruct (restore mc pnames d s') as ([[]|e], s2); cbn [fst]; [|discriminate]. exfalso. apply Hu, H.
Qed.

(** C33 for C-states: what is printed. *)
Lemma printed_exact : forall mc nst, idle_ok mc nst -> forall flags, flags_ok mc nst flags ->
  forall ops gov tick wf csnames cpus skip_ro a s',
  aggr_cstates mc csnames cpus skip_ro (irun mc ops (idle_init flags gov tick [] wf)) = (Ok (Some a), s') ->
  (is_all csnames -> same_names mc nst (cs_targets mc cpus)) ->
  forall n off c,
  (exists l, says_cs a n (s2l "disable"%string) (CInt (if off : bool then 1 else 0)) l /\ In c l) <->
  (In c (cs_targets mc cpus) /\ asked csnames (own_names mc nst c) n /\
   exists i, 0 <= i < nst c /\ n = cs_name mc c i /\ id_flags s' c i = flag_text off).
Proof.
  intros mc nst Hok flags Hf ops gov tick wf csnames cpus skip_ro a s' E Hs n off c.
  unfold aggr_cstates in E. destruct (get_cstates_info mc cpus csnames _) as ([r|e], s1) eqn:Eg; [|destruct e; discriminate].
  assert (Ea : build_aggr_rcsinfo r (print_keys skip_ro) = a) by congruence. assert (E2 : s1 = s') by congruence. subst s1. clear E.
  destruct (info_exact mc nst Hok flags Hf ops gov tick wf cpus csnames r s' Eg Hs) as (R1 & R2 & R3).
  destruct (reach mc nst true flags gov tick [] wf ops Hok Hf ltac:(reflexivity)) as (HI & _).
  assert (H := post_run _ _ _ _ _ _ (info_post mc nst Hok (fun _ _ => False) true cpus csnames _ HI) Eg). cbn beta iota in H.
  destruct H as (_ & _ & Hk & l & _ & Hl & Hr & _). destruct (norm_cpus mc nst Hok cpus l Hl) as (_ & N2 & N3).
  assert (Hd : dict_items r).
  { split; [exact R1|]. intros c1 info H. destruct (R3 c1 info H) as (T1 & _ & T3). split; [exact T1|]. intros m cs Hcs.
    destruct (T3 m cs Hcs) as (i & o & _ & _ & _ & (D & _) & _). exact D. }
  destruct (rcs_partition r (print_keys skip_ro) Hd) as (P1 & P2 & _). rewrite Ea in *.
  assert (Hkey : In (s2l "disable"%string) (print_keys skip_ro)) by (destruct skip_ro; now left).
  split.
  - intros (m & Hm & Hc). destruct (P1 _ _ _ _ Hm) as (_ & _ & _ & P4). apply P4 in Hc as (info & cs & H1 & H2 & H3).
    destruct (R3 c info H1) as (T1 & _ & T3). destruct (T3 n cs H2) as (i & o & Hi & -> & Ha & (D & _) & So & Fo).
    split; [apply R2, in_map_iff; now exists (c, info)|]. split; [exact Ha|]. exists i. split; [exact Hi|]. split; [reflexivity|]. rewrite Fo. f_equal.
    unfold shows_off in So. rewrite (In_dget _ str_eqb_spec _ _ _ D H3) in So. destruct off, o; try reflexivity; discriminate So.
  - intros (Hc & Ha & i & Hi & -> & Fo). apply R2 in Hc as Hc'. apply in_map_iff in Hc' as ((c', info) & E & H1). cbn [fst] in E. subst c'.
    destruct (R3 c info H1) as (T1 & T2 & T3). destruct (T2 i Hi Ha) as (cs & H2).
    destruct (T3 _ cs H2) as (j & o & Hj & Ej & _ & _ & So & Fj).
    destruct (cpu_facts mc nst Hok c) as (_ & _ & _ & _ & Hinj & _); [apply N2; now apply N3|].
    apply Hinj in Ej; [|exact Hi|exact Hj]. subst j. rewrite Fo in Fj. apply flag_inj in Fj. subst o.
    destruct (P2 c (cs_name mc c i) (s2l "disable"%string) (CInt (if off then 1 else 0))) as (m & Hm & Hcm); [|exact Hkey|now exists m].
    exists info, cs. split; [exact H1|]. split; [exact H2|]. now apply (dget_In _ str_eqb_spec).
Qed.
