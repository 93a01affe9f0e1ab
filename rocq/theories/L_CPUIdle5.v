(** The operations on C-states. *)
From Coq Require Import Ascii String ZifyBool Permutation Sorted.
From Verif Require Import Base L_Base L_Monad M_CPUInfo S_CPUInfo L_CPUInfo M_Text S_Text L_Text M_Human L_Human M_CPUIdle S_CPUIdle L_CPUIdle L_CPUIdle2 L_CPUIdle3 L_CPUIdle4.

Section Ops2.
  Variable mc : machine.
  Variable nst : Z -> Z.
  Hypothesis Hok : idle_ok mc nst.
  Notation online := (ci_online (mc_ci mc)).
  Notation Inv := (Inv mc nst).
  Notation evolve := (evolve mc).
  Notation fits := (fits mc nst).

  Lemma add0_run f s : add0 mc f s = (Ok tt, f s).
  Proof.
    unfold add0. rewrite (cache_on mc nst Hok). unfold mbind, lift. rewrite (norm_one mc); [reflexivity|]. apply Hok.
  Qed.

  Lemma driver_post P b s : Inv b s ->
    post (get_idle_driver mc) s
      (fun d s' => d <> [] /\ Inv b s' /\ evolve P s s' /\ id_cs s' = id_cs s)
      (fun _ s' => Inv b s' /\ evolve P s s' /\ id_cs s' = id_cs s /\ id_rf s <> []).
  Proof.
    intros HI. unfold get_idle_driver. unfold post at 1. rewrite (cache_on mc nst Hok).
    destruct (id_cdrv s) as [d|] eqn:Ed.
    - split; [now apply HI|]. split; [exact HI|]. split; [apply evolve_refl|reflexivity].
    - match goal with |- match ?m s with _ => _ end => change (post m s
        (fun d s' => d <> [] /\ Inv b s' /\ evolve P s s' /\ id_cs s' = id_cs s)
        (fun _ s' => Inv b s' /\ evolve P s s' /\ id_cs s' = id_cs s /\ id_rf s <> [])) end.
      apply post_bind. eapply post_conseq; [apply rd_io_post| |].
      + cbn beta. intros u s1 Q. destruct Hok as (_ & _ & _ & (t & Et & Hn) & _). rewrite Et. cbn zeta.
        apply post_bind. unfold post at 1. rewrite add0_run. apply post_ret. split; [exact Hn|].
        assert (HI1 := quiet_Inv mc nst b _ _ Q HI). assert (HE := quiet_evolve mc P _ _ Q). split; [|split].
        * destruct HI1 as (I1 & I2 & I3 & I4). split; [exact I1|]. split; [exact I2|]. split; [|exact I4].
          intros d [= <-]. exact Hn.
        * exact HE.
        * cbn. apply Q.
      + cbn beta. intros e s1 (Q & Hr). split; [now apply (quiet_Inv mc nst b s)|]. split; [now apply quiet_evolve|]. split; [apply Q|exact Hr].
  Qed.

  (** What [with_cstates] does. *)
  Lemma with_post {B} P b csnames cpus (body : Z -> csinfo -> M idle B) s Q E : Inv b s -> incl cpus online -> NoDup cpus ->
    (forall s1 ns, Inv b s1 -> evolve P s s1 -> (forall c, In c cpus -> dget Z.eqb (id_cs s1) c <> None) ->
       (forall c0, hd_error cpus = Some c0 -> forall n, In n ns <-> asked csnames (own_names mc nst c0) n) ->
       post (mmap cpus (one mc ns body)) s1 Q E) ->
    (forall e s1, Inv b s1 -> evolve P s s1 -> id_rf s <> [] -> E e s1) ->
    post (with_cstates mc (normalize_csnames csnames) cpus body) s Q E.
  Proof.
    intros HI Hin Hnd HQ HE.
    assert (Hw : post (mbind (fill mc cpus) (fun _ => each_cpu mc (normalize_csnames csnames) cpus body)) s Q E).
    { apply post_bind. eapply post_conseq; [apply (fill_post mc nst Hok P b cpus s); assumption| |]; cbn beta.
      - intros _ s1 (J1 & J2 & J3). destruct (each_resolved mc nst Hok (normalize_csnames csnames) cpus body s1 J3) as (ns & Hr & Eq).
        unfold post. rewrite Eq. apply HQ; [assumption..|]. now apply (resolved_asked mc nst b s1).
      - intros e s1 (J1 & J2 & J3). now apply HE. }
    exact Hw.
  Qed.

  (** C-states that were asked for, of one CPU. *)
  Definition shown (b : bool) (flags : Z -> Z -> str) (c : Z) (want : str -> Prop) (info : csinfo) : Prop :=
    NoDup (map fst info) /\
    (forall i, 0 <= i < nst c -> want (cs_name mc c i) -> exists cs, In (cs_name mc c i, cs) info) /\
    forall n cs, In (n, cs) info -> exists i, 0 <= i < nst c /\ n = cs_name mc c i /\ want n /\ describes mc c i cs /\
      (b = true -> exists off, shows_off cs off /\ flags c i = flag_text off).

  Lemma picked b flags c info ns r : fits b flags c info -> pick ns info [] = Ok r ->
    shown b flags c (fun n => In n ns) r /\ forall n, In n ns -> In n (own_names mc nst c).
  Proof.
    intros HF Hp. assert (HF' := HF). destruct HF' as (F1 & F2 & F3).
    apply pick_ok in Hp as (P1 & P2 & P3); [|exact F1|constructor|intros n cs []].
    split.
    - split; [exact P1|]. split.
      + intros i Hi Hw. destruct (F2 i Hi) as (cs & H). exists cs. apply P3. right. now split.
      + intros n cs H. apply P3 in H as [[]|(Hn & H)]. destruct (F3 n cs H) as (i & Hi & E & D). now exists i.
    - intros n Hn. rewrite own_In. apply (fits_In mc nst b flags c info n HF). now apply P2.
  Qed.

  Definition has_names (csnames : csarg) (cpus : nums_t) : Prop :=
    forall c0 c n, In c0 (cs_targets mc cpus) -> In c (cs_targets mc cpus) -> asked csnames (own_names mc nst c0) n -> In n (own_names mc nst c).

  Lemma pick_refused csnames cpus l ns b flags c info e : fits b flags c info -> pick ns info [] = Exn e ->
    (forall c, In c l -> In c (cs_targets mc cpus)) -> In c l ->
    (forall c0, hd_error l = Some c0 -> forall n, In n ns <-> asked csnames (own_names mc nst c0) n) ->
    ~ has_names csnames cpus.
  Proof.
    intros HF Hp Hl Hc Hns HN. apply pick_exn in Hp as (_ & n & Hn & Hno). apply Hno. apply (fits_In mc nst b flags c info n HF), own_In.
    destruct l as [|c0 t]; [destruct Hc|]. apply (HN c0 c n); [apply Hl; now left|now apply Hl|]. now apply Hns.
  Qed.

  Definition cpus_known (cpus : nums_t) : Prop := forall l, cpus = Some l -> incl l online.

  Lemma norm_exn cpus e : normalize_cpus (mc_ci mc) cpus false = Exn e -> ~ cpus_known cpus.
  Proof. intros H K. destruct (norm_cpus_live mc cpus K) as (l & E). congruence. Qed.

  Lemma known_norm cpus l : normalize_cpus (mc_ci mc) cpus false = Ok l -> cpus_known cpus.
  Proof.
    intros H k E c Hc. subst cpus. unfold normalize_cpus in H. apply normalize_in_ok in H as (_ & Ha). now apply Ha.
  Qed.

  Lemma info_post P b cpus csnames s : Inv b s ->
    post (get_cstates_info mc cpus csnames) s
      (fun r s' => Inv b s' /\ evolve P s s' /\ cpus_known cpus /\ exists l ns, normalize_cpus (mc_ci mc) cpus false = Ok l /\ map fst r = l /\
         (forall c0, hd_error l = Some c0 -> forall n, In n ns <-> asked csnames (own_names mc nst c0) n) /\
         (forall c n, In c l -> In n ns -> In n (own_names mc nst c)) /\
         forall c info, In (c, info) r -> shown b (id_flags s') c (fun n => In n ns) info)
      (fun _ s' => Inv b s' /\ evolve P s s' /\ (id_rf s = [] -> cpus_known cpus -> ~ has_names csnames cpus)).
  Proof.
    intros HI. unfold get_cstates_info. apply post_bind, post_lift.
    2: { intros e He. split; [exact HI|]. split; [apply evolve_refl|]. intros _ K. now apply norm_exn in He. }
    intros l Hl. assert (Hl' := Hl). apply (norm_cpus mc nst Hok) in Hl' as (Hnd & Hin & Ht).
    apply post_bind. eapply post_conseq; [apply (driver_post P b s HI)| |]; cbn beta.
    2: { intros e s' (J1 & J2 & _ & J3). split; [exact J1|]. split; [exact J2|]. contradiction. }
    intros d s1 (Hd & J1 & J2 & _). destruct d as [|dc d]; [contradiction|]. clear Hd dc d.
    apply (with_post P b); [assumption..| |].
    2: { intros e s2 K1 K2 K3. split; [exact K1|]. split; [now apply (evolve_trans mc P s s1)|]. intros H0. exfalso. apply K3. now apply J2. }
    intros s2 ns K1 K2 K3 Hns. assert (J := evolve_trans mc P _ _ _ J2 K2).
    eapply post_conseq; [apply (post_mmap _ (fun p q s' => s' = s2 /\ map fst q = p /\ (forall c n, In c p -> In n ns -> In n (own_names mc nst c)) /\
        forall c info, In (c, info) q -> shown b (id_flags s2) c (fun n => In n ns) info)
      (fun _ s' => s' = s2 /\ ~ has_names csnames cpus))| |]; cbn beta.
    - intros p c r E q s3 (-> & Hq & Ho & Hsh). assert (Hc : In c l) by (rewrite E; apply in_or_app; right; now left).
      destruct (dget Z.eqb (id_cs s2) c) as [info|] eqn:Ei; [|exfalso; now apply (K3 c)].
      destruct K1 as (_ & I2 & _). destruct (I2 c info Ei) as (_ & HF).
      unfold one. apply post_bind. unfold post at 1. rewrite (cs_get_run mc nst Hok c info s2 Ei).
      apply post_bind, post_lift.
      + intros r' Hp. apply post_ret. destruct (picked b _ _ _ _ _ HF Hp) as (S1 & S2). split; [reflexivity|]. split; [|split].
        * rewrite map_app, Hq. reflexivity.
        * intros x n Hx Hn. apply in_app_or in Hx as [Hx|[<-|[]]]; [now apply Ho|now apply S2].
        * intros x inf Hx. apply in_app_or in Hx as [Hx|[Hx|[]]]; [now apply Hsh|]. injection Hx as <- <-. exact S1.
      + intros e Hp. split; [reflexivity|]. apply (pick_refused csnames cpus l ns b (id_flags s2) c info e HF Hp); [intros x; apply Ht|exact Hc|exact Hns].
    - split; [reflexivity|]. split; [reflexivity|]. split; [intros c n []|intros c info []].
    - intros r s' (-> & Hq & Ho & Hsh). split; [exact K1|]. split; [exact J|]. split; [now apply (known_norm cpus l)|]. exists l, ns.
      split; [exact Hl|]. split; [exact Hq|]. split; [exact Hns|]. split; [exact Ho|exact Hsh].
    - intros e s' (-> & H). split; [exact K1|]. split; [exact J|]. intros _ _. exact H.
  Qed.

  Lemma fits_ext b flags flags' c info : (forall i, flags' c i = flags c i) -> fits b flags c info -> fits b flags' c info.
  Proof.
    intros E (F1 & F2 & F3). split; [exact F1|]. split; [exact F2|]. intros n cs H. destruct (F3 n cs H) as (i & A & B & C & D).
    exists i. split; [exact A|]. split; [exact B|]. split; [exact C|]. intros Hb. destruct (D Hb) as (off & S & T). exists off. now rewrite E.
  Qed.

  Lemma fits_false b flags flags' c info : fits b flags c info -> fits false flags' c info.
  Proof.
    intros (F1 & F2 & F3). split; [exact F1|]. split; [exact F2|]. intros n cs H. destruct (F3 n cs H) as (i & A & B & C & D).
    exists i. split; [exact A|]. split; [exact B|]. split; [exact C|]. discriminate.
  Qed.

  Lemma toggle_text (en : bool) : (if en then s2l "0"%string else s2l "1"%string) ++ [newline] = flag_text (negb en).
  Proof. now destruct en. Qed.

  Lemma strip_flag off : strip (flag_text off) = (if off then s2l "1"%string else s2l "0"%string).
  Proof. destruct off; reflexivity. Qed.

  Definition upd (f : Z -> Z -> str) (c i : Z) (v : str) : Z -> Z -> str := fun x j => if (x =? c) && (j =? i) then v else f x j.

  Lemma upd_same f c i v : upd f c i v c i = v.
  Proof. unfold upd. now rewrite !Z.eqb_refl. Qed.

  Lemma upd_other f c i v x j : (x, j) <> (c, i) -> upd f c i v x j = f x j.
  Proof. intros H. unfold upd. destruct (Z.eqb_spec x c), (Z.eqb_spec j i); try reflexivity. subst. congruence. Qed.

  Lemma toggle_one_post P b c i en s : Inv b s -> In c online -> 0 <= i < nst c -> (P c i : Prop) ->
    post (toggle_cstate mc c i en) s
      (fun _ s' => evolve P s s' /\ id_cs s' = id_cs s /\ id_cdrv s' = id_cdrv s /\
                   (forall x j, id_flags s' x j = upd (id_flags s) c i (flag_text (negb en)) x j))
      (fun _ s' => evolve P s s' /\ Inv b s' /\ ~ (obeys mc nst /\ id_rf s = [] /\ id_wf s = [])).
  Proof.
    intros HI Hc Hi HP. unfold toggle_cstate. cbn zeta. apply post_bind. eapply post_conseq; [apply wr_io_post| |]; cbn beta.
    2: { intros e s1 (Q & Hw). split; [now apply quietw_evolve|]. split; [now apply (quietw_Inv mc nst b s)|]. tauto. }
    intros u s1 Q1. assert (HE1 := quietw_evolve mc P _ _ Q1). assert (HI1 := quietw_Inv mc nst b _ _ Q1 HI).
    apply post_bind, post_gets. rewrite toggle_text.
    destruct (cpu_facts mc nst Hok c Hc) as (_ & _ & _ & _ & _ & Hst).
    destruct (mc_store mc c i (id_flags s1 c i) (flag_text (negb en))) as [new|] eqn:Est.
    2: { apply post_throw. split; [exact HE1|]. split; [exact HI1|]. intros (Ho & _). rewrite Ho in Est by assumption. discriminate. }
    assert (Hnew := Hst i _ _ _ Hi Est). apply post_bind, post_modify. fold (upd (id_flags s1) c i new).
    set (s2 := id_set_flags _ s1).
    assert (HE2 : evolve P s1 s2).
    { unfold s2, L_CPUIdle4.evolve. cbn. split; [|split; [reflexivity|]; split; [|split; [|split]]; auto].
      intros x j Hn. apply upd_other. intros E. injection E as -> ->. contradiction. }
    assert (HE := evolve_trans mc P _ _ _ HE1 HE2).
    assert (Hsame : forall x, id_flags s2 x = upd (id_flags s1) c i new x) by reflexivity.
    assert (F1 : id_flags s1 = id_flags s) by apply Q1.
    assert (F2 : id_cs s2 = id_cs s) by (unfold s2; cbn; apply Q1).
    assert (F3 : id_cdrv s2 = id_cdrv s) by (unfold s2; cbn; apply Q1).
    assert (F4 : id_rf s2 = id_rf s) by (unfold s2; cbn; apply Q1).
    assert (HIf : (b = true -> forall x j, id_flags s2 x j = id_flags s x j) -> Inv b s2).
    { intros Hb. destruct HI as (I1 & I2 & I3 & I4). split; [|split; [|split]].
      - intros x j Hx Hj. rewrite Hsame. destruct (Z.eqb_spec x c) as [->|Hxc], (Z.eqb_spec j i) as [->|Hji].
        + rewrite upd_same. destruct Hnew as [->| ->]; [now exists (negb en)|]. rewrite F1. now apply I1.
        + rewrite upd_other by congruence. rewrite F1. now apply I1.
        + rewrite upd_other by congruence. rewrite F1. now apply I1.
        + rewrite upd_other by congruence. rewrite F1. now apply I1.
      - rewrite F2. intros x info Hx. destruct (I2 x info Hx) as (Ho & HF). split; [exact Ho|]. destruct b.
        + apply (fits_ext true (id_flags s)); [intros j; now apply Hb|exact HF].
        + now apply (fits_false false (id_flags s)).
      - intros d. rewrite F3. apply I3.
      - rewrite F4. exact I4. }
    apply post_bind. eapply post_conseq; [apply rd_io_post| |]; cbn beta.
    2: { intros e s3 (Q3 & Hr). split; [eapply evolve_trans; [exact HE|now apply quiet_evolve]|]. split.
         - apply (quiet_Inv mc nst b s2); [exact Q3|]. apply HIf. intros ->. exfalso. apply Hr. rewrite F4. now apply HI.
         - rewrite F4 in Hr. tauto. }
    intros u3 s3 Q3. assert (G : id_flags s3 = id_flags s2) by apply Q3. apply post_bind, post_gets. rewrite G, Hsame, upd_same.
    destruct (str_eqb _ (strip new)) eqn:Ev.
    - apply post_ret. assert (new = flag_text (negb en)) as ->.
      { destruct Hnew as [->| ->]; [reflexivity|]. apply str_eqb_eq in Ev. destruct HI as (I1 & _).
        destruct (I1 c i Hc Hi) as (off & Eo). rewrite F1, Eo in Ev |- *. rewrite strip_flag in Ev. destruct en, off; try discriminate; reflexivity. }
      split; [eapply evolve_trans; [exact HE|now apply quiet_evolve]|]. split; [destruct Q3 as (_ & _ & _ & -> & _); exact F2|].
      split; [destruct Q3 as (_ & _ & _ & _ & -> & _); exact F3|].
      intros x j. rewrite G, Hsame, F1. reflexivity.
    - apply post_throw. split; [eapply evolve_trans; [exact HE|now apply quiet_evolve]|].
      assert (Hold : new = flag_text (negb en) -> False).
      { intros ->. rewrite strip_flag in Ev. destruct en; discriminate. }
      split.
      + apply (quiet_Inv mc nst b s2); [exact Q3|]. apply HIf. intros _ x j. rewrite Hsame, F1.
        destruct Hnew as [H| ->]; [contradiction|]. unfold upd. destruct (Z.eqb_spec x c) as [->|], (Z.eqb_spec j i) as [->|]; try reflexivity. cbn. now rewrite F1.
      + intros (Ho & _). rewrite Ho in Est by assumption. injection Est as <-. now apply Hold.
  Qed.

  (** One CPU. *)
  Lemma toggle_cpu_post (P : Z -> Z -> Prop) b c en info r ns s : Inv b s -> In c online -> dget Z.eqb (id_cs s) c = Some info ->
    pick ns info [] = Ok r -> (forall i, 0 <= i < nst c -> In (cs_name mc c i) ns -> P c i) ->
    post (toggle_cpu mc en c r) s
      (fun t s' => evolve P s s' /\ Inv b s' /\ t = (c, map fst r) /\
                   forall i, 0 <= i < nst c -> In (cs_name mc c i) ns -> id_flags s' c i = flag_text (negb en))
      (fun _ s' => evolve P s s' /\ Inv b s' /\ ~ (obeys mc nst /\ id_rf s = [] /\ id_wf s = [])).
  Proof.
    intros HI Hc Hg Hp HP. unfold toggle_cpu.
    assert (HF : fits b (id_flags s) c info) by (now apply HI).
    destruct (picked b (id_flags s) c info ns r HF Hp) as ((S1 & S2 & S3) & _).
    destruct (cpu_facts mc nst Hok c Hc) as (_ & _ & _ & _ & Hinj & _).
    apply post_bind. eapply post_conseq; [apply (post_mfor _ (fun p s' => evolve P s s' /\ Inv b s' /\
        forall i, 0 <= i < nst c -> In (cs_name mc c i) (map fst p) -> id_flags s' c i = flag_text (negb en))
      (fun _ s' => evolve P s s' /\ Inv b s' /\ ~ (obeys mc nst /\ id_rf s = [] /\ id_wf s = [])))| |]; cbn beta.
    - intros p (n, cs) q E s1 (J1 & J2 & J3). cbn [fst snd].
      assert (Hr : In (n, cs) r) by (rewrite E; apply in_or_app; right; now left).
      destruct (S3 n cs Hr) as (i & Hi & -> & Hw & (_ & Di & _) & _).
      apply post_bind, post_lift; [|intros e He; unfold cs_index in He; rewrite Di in He; discriminate].
      intros i' Hi'. unfold cs_index in Hi'. rewrite Di in Hi'. injection Hi' as <-.
      apply post_bind. eapply post_conseq; [apply (toggle_one_post P b c i en s1); [exact J2|exact Hc|exact Hi|now apply HP]| |]; cbn beta.
      2: { intros e s2 (K1 & K2 & K3). split; [now apply (evolve_trans mc P s s1)|]. split; [exact K2|].
           intros (A1 & A2 & A3). apply K3. split; [exact A1|]. split; [now apply J1|now apply J1]. }
      intros u2 s2 (K1 & K2 & K3 & K4).
      destruct (dget Z.eqb (id_cs s1) c) as [fl|] eqn:Ef.
      2: { exfalso. destruct J1 as (_ & _ & _ & _ & _ & J1). apply (J1 c); [congruence|exact Ef]. }
      assert (HF1 : fits b (id_flags s1) c fl) by (now apply J2). assert (HF1' := HF1). destruct HF1' as (G1 & G2 & G3).
      apply post_bind. unfold post at 1. rewrite (cs_get_run mc nst Hok c fl s2) by (now rewrite K2).
      destruct (dget str_eqb fl (cs_name mc c i)) as [cs1|] eqn:Ec.
      2: { exfalso. apply (dget_None _ str_eqb_spec) in Ec. apply Ec. apply (fits_In mc nst b (id_flags s1) c fl _ HF1). now exists i. }
      unfold post. rewrite (cs_add_run mc nst Hok c _ s2 Hc).
      set (cs2 := dset str_eqb cs1 (s2l "disable"%string) (CInt (if en then 0 else 1))).
      assert (Hcs1 := dget_In _ str_eqb_spec _ _ _ Ec).
      assert (HF2 : fits b (id_flags s2) c (dset str_eqb fl (cs_name mc c i) cs2)).
      { split; [apply dset_NoDup; [apply str_eqb_spec|exact G1]|]. split.
        - intros j Hj. destruct (Z.eq_dec j i) as [->|Hji].
          + exists cs2. apply (dget_In _ str_eqb_spec), (dget_dset_same _ str_eqb_spec).
          + destruct (G2 j Hj) as (x & Hx). exists x. apply (dget_In _ str_eqb_spec). rewrite (dget_dset_other _ str_eqb_spec).
            * now apply (In_dget _ str_eqb_spec).
            * intros Eq. apply Hji. now apply Hinj.
        - intros m x Hx. apply (In_dget _ str_eqb_spec) in Hx; [|apply dset_NoDup; [apply str_eqb_spec|exact G1]].
          destruct (str_dec m (cs_name mc c i)) as [->|Hm].
          + rewrite (dget_dset_same _ str_eqb_spec) in Hx. injection Hx as <-. exists i. split; [exact Hi|]. split; [reflexivity|].
            destruct (G3 _ _ Hcs1) as (i0 & Hi0 & En & (D0 & D1 & D2 & D3) & _). apply Hinj in En; [|exact Hi|exact Hi0]. subst i0. split.
            * unfold cs2. split; [apply dset_NoDup; [apply str_eqb_spec|exact D0]|]. split; [|split].
              -- rewrite (dget_dset_other _ str_eqb_spec) by discriminate. exact D1.
              -- rewrite (dget_dset_other _ str_eqb_spec) by discriminate. exact D2.
              -- intros f Hf. destruct (D3 f Hf) as (t & Et). exists t. rewrite (dget_dset_other _ str_eqb_spec); [exact Et|].
                 intros ->. cbn [map In] in Hf. repeat (destruct Hf as [Hf|Hf]; [discriminate|]). contradiction.
            * intros _. exists (negb en). split; [|rewrite K4; apply upd_same].
              unfold shows_off, cs2. rewrite (dget_dset_same _ str_eqb_spec). now destruct en.
          + rewrite (dget_dset_other _ str_eqb_spec) in Hx by congruence. apply (dget_In _ str_eqb_spec) in Hx.
            destruct (G3 m x Hx) as (j & Hj & -> & Dj & Bj). exists j. split; [exact Hj|]. split; [reflexivity|]. split; [exact Dj|].
            intros Hb. destruct (Bj Hb) as (off & O1 & O2). exists off. split; [exact O1|]. rewrite K4, upd_other by congruence. exact O2. }
      assert (HI2 : Inv b (id_set_cs (dset Z.eqb (id_cs s2) c (dset str_eqb fl (cs_name mc c i) cs2)) s2)).
      { destruct J2 as (I1 & I2 & I3 & I4). split; [|split; [|split]]; cbn [id_flags id_cs id_set_cs].
        - intros x j Hx Hj. rewrite K4. unfold upd. destruct ((x =? c) && (j =? i)); [now exists (negb en)|now apply I1].
        - intros x inf. destruct (Z.eq_dec x c) as [->|Hxc].
          + rewrite (dget_dset_same _ Zeqb_spec). intros [= <-]. now split.
          + rewrite (dget_dset_other _ Zeqb_spec) by congruence. rewrite K2. intros Hx. destruct (I2 x inf Hx) as (O1 & O2). split; [exact O1|].
            apply (fits_ext b (id_flags s1)); [|exact O2]. intros j. rewrite K4. apply upd_other. congruence.
        - intros d. cbn [id_cdrv id_set_cs]. rewrite K3. apply I3.
        - cbn [id_rf id_set_cs]. intros Hb. apply K1. now apply I4. }
      split; [|split; [exact HI2|]].
      + apply (evolve_trans mc P s s1); [exact J1|]. apply (evolve_trans mc P s1 s2); [exact K1|]. apply add_evolve.
      + intros j Hj Hin. cbn [id_flags id_set_cs]. rewrite K4. destruct (Z.eq_dec j i) as [->|Hji]; [apply upd_same|].
        rewrite upd_other by congruence. apply J3; [exact Hj|]. rewrite map_app in Hin. apply in_app_or in Hin as [Hin|[Hin|[]]]; [exact Hin|].
        cbn [fst] in Hin. apply Hinj in Hin; [|exact Hi|exact Hj]. congruence.
    - split; [apply evolve_refl|]. split; [exact HI|]. intros i _ [].
    - intros u s' (J1 & J2 & J3). apply post_ret. split; [exact J1|]. split; [exact J2|]. split; [reflexivity|].
      intros i Hi Hn. apply J3; [exact Hi|]. destruct (S2 i Hi Hn) as (cs & H). apply in_map_iff. now exists (cs_name mc c i, cs).
    - intros e s' H. exact H.
  Qed.
End Ops2.
