(** Lemmas about the HWP request registers: what the operations do. *)
From Coq Require Import Ascii String ZifyBool.
From Verif Require Import Base L_Base L_Monad M_CPUInfo S_CPUInfo L_CPUInfo L_CPUInfo2
  M_Text M_MSR S_MSR L_Bits L_MSR L_MSR2 L_MSR3 L_MSR4 L_MSR5 M_FMSR S_FMSR L_Text L_FMSR L_FMSR2 L_FMSR3 L_FMSR4 X_FMSR
  M_HWP S_HWP L_Quiet L_OpTarget L_HWP L_HWP2 L_HWP3.

Lemma ens_dec (e : exc) : e = ENotSupported \/ e <> ENotSupported.
Proof. destruct e; auto; right; discriminate. Qed.

Section Post.
  Variable env : menv.
  Notation dom := (me_dom env).
  Notation ci := (me_ci env).
  Notation online := (ci_online (me_ci env)).
  Variable rep : Z -> Z -> Z.
  Variable sc : Z -> scope.
  Notation Coh := (Coh env rep sc).
  Notation view := (view env).
  Notation keeps := (keeps env rep sc).
  Hypothesis Hwf : wf_ci ci.
  Hypothesis Hsc : forall a, scope_right env a (sc a).
  Hypothesis Hfaith : faithful env.
  Variable x : hwp.
  Hypothesis Hx : hwp_ok env sc x.
  Notation Inv := (Inv env rep sc).
  Notation same_view := (same_view env rep sc).
  Notation same_trans := (same_trans env rep sc).
  Notation same_refl := (same_refl env rep sc).
  Notation reg s c := (view s REQ (dom REQ c)).

  Definition tidy (k : hset) (meant : Z -> Prop) (s s' : mstate) : Prop :=
    keeps s s' /\ Inv s' /\ (forall a d, a <> REQ -> view s' a d = view s a d) /\
    forall c, In c online -> evolves k (meant c) (reg s c) (reg s' c).

  Lemma tidy_same k P s s' : Inv s' -> same_view s s' -> tidy k P s s'.
  Proof.
    intros I' (V & K). split; [exact K|]. split; [exact I'|]. split; [intros; apply V|].
    intros c _. rewrite V. apply evolves_refl.
  Qed.
  Lemma tidy_refl k P s : Inv s -> tidy k P s s.
  Proof. intros HI. apply tidy_same; [exact HI|]. now apply same_refl. Qed.
  Lemma tidy_trans k P a b c : tidy k P a b -> tidy k P b c -> tidy k P a c.
  Proof.
    intros (K1 & I1 & F1 & E1) (K2 & I2 & F2 & E2). split; [eapply keeps_trans; eauto|]. split; [exact I2|].
    split; [intros; rewrite F2, F1; auto|]. intros d Hd. eapply evolves_trans; eauto.
  Qed.
  Lemma tidy_mono k (P Q : Z -> Prop) a b : (forall c, P c -> Q c) -> tidy k P a b -> tidy k Q a b.
  Proof. intros PQ (K & I & F & E). repeat (split; [assumption|]). intros c Hc. eapply evolves_mono; [|eauto]. apply PQ. Qed.

  (** ** The bus clock *)
  Lemma fsb_positive hi lo codes khz code : In (hi, lo, codes) fsb_tables -> In (khz, code) codes -> 0 < khz.
  Proof.
    unfold fsb_tables. cbn [In]. intros H. repeat (destruct H as [E|H]; [injection E as <- <- <-; cbn [In];
      intros H; repeat (destruct H as [E|H]; [injection E as <- <-; lia|]); destruct H|]). destruct H.
  Qed.

  Lemma bus_clock_positive L c b : bus_clock env x L c b -> 0 < b.
  Proof.
    unfold bus_clock. destruct (hw_fsb x) as [fsb|e] eqn:Ef; [|intros (_ & ->); lia].
    intros (fe & khz & code & Hg & _ & Hin & ->). destruct (ho_fsb _ _ _ Hx fsb Ef) as (_ & hi & lo & codes & Ht & Hfe).
    rewrite Hfe in Hg. cbn in Hg. injection Hg as <-. cbn [vals_of ffsb fe_vals] in Hin. apply in_map_iff in Hin.
    destruct Hin as ([kk cc] & E & Hin). cbn in E. injection E as <- <-. pose proof (fsb_positive _ _ _ _ _ Ht Hin). lia.
  Qed.

  Lemma bus_clock_fun L c b b' : bus_clock env x L c b -> bus_clock env x L c b' -> b = b'.
  Proof.
    unfold bus_clock. destruct (hw_fsb x) as [fsb|e] eqn:Ef; [|intros (_ & ->) (_ & ->); reflexivity].
    intros (fe & k1 & c1 & Hg & Hf & Hin & ->) (fe' & k2 & c2 & Hg' & Hf' & Hin' & ->).
    destruct (ho_fsb _ _ _ Hx fsb Ef) as (_ & hi & lo & codes & Ht & Hfe).
    rewrite Hfe in Hg, Hg'. cbn in Hg, Hg'. injection Hg as <-. injection Hg' as <-.
    pose proof (fsb_feature_ok (Some (sc FSB)) _ _ _ Ht) as Hok.
    pose proof (is_field_functional _ _ _ _ (fo_field _ Hok) Hf Hf') as <-.
    pose proof (fo_codes _ Hok _ _ _ Hin Hin') as E. injection E as ->. reflexivity.
  Qed.

  Lemma bus_clock_view L L' c b : (forall d, L' FSB d = L FSB d) -> bus_clock env x L c b -> bus_clock env x L' c b.
  Proof.
    unfold bus_clock. intros H. destruct (hw_fsb x); [|auto]. intros (fe & khz & code & A & B & C). exists fe, khz, code. now rewrite H.
  Qed.

  Lemma get_bclk_post c s : Inv s ->
    post (get_bclk env x c) s
      (fun b s' => same_view s s' /\ Inv s' /\ bus_clock env x (view s) c b)
      (fun _ s' => same_view s s' /\ Inv s').
  Proof.
    intros HI. unfold get_bclk. destruct (hw_fsb x) as [fsb|e] eqn:Ef.
    - destruct (ho_fsb _ _ _ Hx fsb Ef) as (Ha & hi & lo & codes & Ht & Hfe).
      assert (Hg : get_feature fsb (s2l "fsb"%string) = Ok (ffsb hi lo (Some (sc FSB)) codes)).
      { unfold get_feature. rewrite Hfe. reflexivity. }
      apply post_bind. eapply post_conseq; [apply (read_num_post env rep sc Hwf Hsc fsb _ _ c s Hg (fsb_feature_ok _ _ _ _ Ht))| |].
      + cbn [ffsb fe_ios]. now rewrite Ha.
      + exact HI.
      + intros khz s1 (S1 & I1 & _ & _ & code & Hf & Hn). apply post_ret. split; [exact S1|]. split; [exact I1|].
        unfold bus_clock. rewrite Ef. exists (ffsb hi lo (Some (sc FSB)) codes), khz, code.
        split; [rewrite Hfe; reflexivity|]. split; [now rewrite Ha in Hf|]. split; [exact Hn|reflexivity].
      + auto.
    - assert (R : same_view s s /\ Inv s) by (split; [now apply same_refl|exact HI]).
      destruct e; try (apply post_throw; exact R). destruct (hw_intel x) eqn:Ei; [|apply post_throw; exact R].
      apply post_ret. destruct R. split; [assumption|]. split; [assumption|]. unfold bus_clock. rewrite Ef. auto.
  Qed.

  Section WithReq.
  Variable fr : freg.
  Hypothesis Hfr : hw_req x = Ok fr.
  Notation fr_addr_eq := (fr_addr_eq env sc x Hx fr Hfr).
  Notation write_post := (write_post env rep sc Hwf Hsc Hfaith x Hx fr Hfr).

  Lemma pkg_decides_fr L k c : pkg_decides env x L k c =
    has fr (s2l "pkg_control"%string) c && Z.testbit (L REQ (dom REQ c)) pkg_bit && negb (Z.testbit (L REQ (dom REQ c)) (valid_bit k)).
  Proof. unfold pkg_decides. rewrite (has_pkg_eq x fr Hfr). reflexivity. Qed.

  Lemma valid_decides L k c : Z.testbit (L REQ (dom REQ c)) (valid_bit k) = true -> pkg_decides env x L k c = false.
  Proof. intros H. rewrite pkg_decides_fr, H. cbn. now rewrite andb_false_r. Qed.

  Lemma perf_post k c s : Inv s ->
    post (read_num env fr (hname k) c) s
      (fun v s' => same_view s s' /\ Inv s' /\ In c online /\ has fr (hname k) c = true /\ is_field (hbits k) (reg s c) v)
      (fun _ s' => same_view s s' /\ Inv s').
  Proof.
    intros HI. eapply post_conseq; [apply (read_num_post env rep sc Hwf Hsc fr _ _ c s
        (fr_get env sc x Hx fr Hfr _ _ (hname_get k)) (hbits_feature_ok k) (scpu env sc x Hx fr Hfr (hbits_feature k) ltac:(destruct k; reflexivity)) HI)| |]; [|auto].
    intros v s1 (S1 & I1 & Ho & Hh & code & Hf & Hn). repeat (split; [assumption|]).
    rewrite fr_addr_eq, hbits_of in Hf. unfold named_as in Hn. destruct k; cbn in Hn; injection Hn as <-; exact Hf.
  Qed.

  (** Writing a field. *)
  Lemma write_num_post k p cpus s : 0 <= p -> Inv s ->
    post (write_feature env fr (hname k) (VInt p) (Some cpus)) s
      (fun _ s' => tidy k (fun c => In c cpus) s s' /\ (forall c, In c online -> ~ In c cpus -> reg s' c = reg s c) /\ forall c, In c cpus -> In c online /\ has fr (hname k) c = true /\ is_field (hbits k) (reg s' c) p)
      (fun e s' => tidy k (fun c => In c cpus) s s' /\ (forall c, In c online -> ~ In c cpus -> reg s' c = reg s c) /\
         (forall c, In c online -> (forall v, is_field (hbits k) (reg s c) v -> is_field (hbits k) (reg s' c) v) \/ (In c cpus /\ is_field (hbits k) (reg s' c) p)) /\
         (e = ENotSupported -> s' = s /\ exists c, In c cpus /\ has fr (hname k) c = false)).
  Proof.
    intros Hp HI.
    assert (M : forall code, means (hbits_feature k) (VInt p) code -> code = p) by (intros code; destruct k; apply means_int).
    eapply post_conseq; [apply (write_post _ _ cpus (VInt p) s (hname_get k) (hbits_feature_ok k)); [destruct k; reflexivity|intros _; exact Hp|exact HI]| |].
    - intros u s' (K & I' & (F1 & F2) & H). rewrite hbits_of in H.
      assert (H' : forall c, In c cpus -> In c online /\ has fr (hname k) c = true /\ fits (hbits k) p /\ is_set (hbits k) p (reg s c) (reg s' c)).
      { intros c Hc. destruct (H c Hc) as (Ho & Hh & code & Hm & Hf & Hs). apply M in Hm. subst code. auto. }
      split; [|split].
      + split; [exact K|]. split; [exact I'|]. split; [exact F1|]. intros c Ho. destruct (in_dec Z.eq_dec c cpus) as [Hc|Hc].
        * eapply set_field_evolves; [exact Hc|]. apply (H' c Hc).
        * rewrite F2 by auto. apply evolves_refl.
      + exact F2.
      + intros c Hc. destruct (H' c Hc) as (Ho & Hh & Hf & Hs). split; [exact Ho|]. split; [exact Hh|].
        eapply is_set_field; eauto. apply hbits_ok.
    - intros e s' (K & I' & (F1 & F2) & Mix & Hns). rewrite hbits_of in Mix.
      assert (H' : forall c, In c online -> reg s' c = reg s c \/ (In c cpus /\ fits (hbits k) p /\ is_set (hbits k) p (reg s c) (reg s' c))).
      { intros c Hc. destruct (Mix c Hc) as [E|(Hin & code & Hm & Hf & Hs)]; [now left|]. apply M in Hm. subst code. auto. }
      split; [|split; [exact F2|split; [|exact Hns]]].
      + split; [exact K|]. split; [exact I'|]. split; [exact F1|]. intros c Ho. destruct (H' c Ho) as [->|(Hc & _ & Hs)]; [apply evolves_refl|].
        eapply set_field_evolves; eauto.
      + intros c Ho. destruct (H' c Ho) as [->|(Hc & Hf & Hs)]; [left; auto|]. right. split; [exact Hc|].
        eapply is_set_field; eauto. apply hbits_ok.
  Qed.

  (** Setting "valid" bits of CPUs with package control. *)
  Lemma write_valid_post k cpus s P : Inv s -> (forall c, In c cpus -> Z.testbit (reg s c) pkg_bit = true) ->
    post (write_feature env fr (hvalid k) (VStr (s2l "on"%string)) (Some cpus)) s
      (fun _ s' => tidy k P s s' /\ (forall c, In c online -> ~ In c cpus -> reg s' c = reg s c) /\
         forall c, In c cpus -> In c online /\ Z.testbit (reg s' c) (valid_bit k) = true)
      (fun e s' => tidy k P s s' /\ (forall c, In c online -> ~ In c cpus -> reg s' c = reg s c) /\
         (e = ENotSupported -> s' = s /\ exists c, In c cpus /\ has fr (hvalid k) c = false)).
  Proof.
    intros HI Hpkg.
    eapply post_conseq; [apply (write_post _ _ cpus (VStr (s2l "on"%string)) s (hvalid_get k) (hvalid_feature_ok k)); [reflexivity|intros _; exact I|exact HI]| |].
    - intros u s' (K & I' & (F1 & F2) & H). unfold hvalid_feature in H. cbn [fbool fe_bits] in H.
      assert (H' : forall c, In c cpus -> In c online /\ is_set (valid_bit k, valid_bit k) 1 (reg s c) (reg s' c)).
      { intros c Hc. destruct (H c Hc) as (Ho & _ & code & Hm & Hf & Hs). apply means_on in Hm. subst code. auto. }
      split; [|split].
      + split; [exact K|]. split; [exact I'|]. split; [exact F1|]. intros c Ho. destruct (in_dec Z.eq_dec c cpus) as [Hc|Hc].
        * eapply set_valid_evolves; [apply (H' c Hc)|auto].
        * rewrite F2 by auto. apply evolves_refl.
      + intros c Ho Hc. now apply F2.
      + intros c Hc. destruct (H' c Hc) as (Ho & Hs). split; [exact Ho|]. eapply is_set_bit; eauto. apply valid_bit_range.
    - intros e s' (K & I' & (F1 & F2) & Mix & Hns). unfold hvalid_feature in Mix. cbn [fbool fe_bits] in Mix.
      split; [|split; [intros c Ho Hc; now apply F2|exact Hns]].
      split; [exact K|]. split; [exact I'|]. split; [exact F1|]. intros c Ho.
      destruct (Mix c Ho) as [->|(Hin & code & Hm & Hf & Hs)]; [apply evolves_refl|]. apply means_on in Hm. subst code.
      eapply set_valid_evolves; eauto.
  Qed.

  (** Package control of one CPU is disabled. *)
  Lemma disable_post k c s : Inv s ->
    post (disable_pkg_control env fr k c) s
      (fun _ s' => tidy k (fun _ => False) s s' /\ (forall c', In c' online -> c' <> c -> reg s' c' = reg s c') /\ In c online /\ pkg_decides env x (view s') k c = false)
      (fun e s' => tidy k (fun _ => False) s s' /\ (forall c', In c' online -> c' <> c -> reg s' c' = reg s c') /\
         (e = ENotSupported -> has fr (hvalid k) c = false)).
  Proof.
    intros HI. pose proof (cpu_enabled_post env rep sc Hwf Hsc x Hx fr Hfr _ pkg_bit c s pkgctl_is_bit HI) as P.
    unfold post, disable_pkg_control in *. destruct (is_cpu_enabled env fr (s2l "pkg_control"%string) c s) as [[b|e] s1].
    - destruct P as (S1 & I1 & Ho & Hh & Hb). pose proof (proj1 S1) as V1. destruct b.
      + pose proof (write_valid_post k [c] s1 (fun _ => False) I1) as W.
        assert (Hp : forall c0, In c0 [c] -> Z.testbit (reg s1 c0) pkg_bit = true) by (intros c0 [<-|[]]; rewrite V1; now symmetry).
        specialize (W Hp). unfold post in W.
        assert (T1 : tidy k (fun _ => False) s s1) by (apply tidy_same; auto).
        destruct (write_feature env fr (hvalid k) (VStr (s2l "on"%string)) (Some [c]) s1) as [[u|e] s2].
        * destruct W as (T2 & F2 & H2). split; [eapply tidy_trans; eauto|]. split.
          { intros c' Hc' Hn. rewrite F2, V1; auto. intros [E|[]]; congruence. }
          split; [exact Ho|]. apply valid_decides. apply H2. now left.
        * destruct W as (T2 & F2 & H2). split; [eapply tidy_trans; eauto|]. split.
          { intros c' Hc' Hn. rewrite F2, V1; auto. intros [E|[]]; congruence. }
          intros E. destruct (H2 E) as (_ & c0 & [<-|[]] & Hv). exact Hv.
      + split; [apply tidy_same; auto|]. split; [intros; apply V1|]. split; [exact Ho|].
        rewrite pkg_decides_fr, V1, <- Hb, andb_false_r. reflexivity.
    - destruct P as (S1 & I1 & Hn). pose proof (proj1 S1) as V1. destruct (ens_dec e) as [->|Ne].
      + destruct (Hn eq_refl) as (Ho & Hh). split; [apply tidy_same; auto|]. split; [intros; apply V1|]. split; [exact Ho|].
        rewrite pkg_decides_fr, Hh. reflexivity.
      + destruct e; try congruence; (split; [apply tidy_same; auto|split; [intros; apply V1|congruence]]).
  Qed.

  (** Package control is disabled everywhere. *)
  Lemma disable_all_post k s : Inv s ->
    post (disable_all_pkg_control env fr k) s
      (fun _ s' => tidy k (fun _ => False) s s' /\
         (k <> HEpp -> uniform env x -> forall c, In c online -> pkg_decides env x (view s') k c = false))
      (fun e s' => tidy k (fun _ => False) s s' /\ e <> ENotSupported).
  Proof.
    intros HI. pose proof (enabled_post env rep sc Hwf Hsc x Hx fr Hfr _ pkg_bit None s pkgctl_is_bit HI) as P.
    unfold post, disable_all_pkg_control, mbind in *.
    destruct (is_feature_enabled env fr (s2l "pkg_control"%string) None s) as [[l|e] s1].
    - destruct P as (S1 & I1 & Ht & Hl). pose proof (proj1 S1) as V1. cbn [targets] in Ht, Hl.
      set (pc := map fst (filter (fun ce => snd ce) l)).
      assert (Hpc : forall c, In c pc <-> In c online /\ Z.testbit (reg s c) pkg_bit = true).
      { intros c. unfold pc. rewrite in_map_iff. split.
        - intros ([c0 b] & <- & Hin). apply filter_In in Hin. cbn [fst snd] in *. destruct Hin as (Hin & ->).
          apply Hl in Hin. split; [apply Hin|]. symmetry. apply Hin.
        - intros (Hc & Hb). exists (c, true). split; [reflexivity|]. apply filter_In. split; [|reflexivity]. apply Hl. auto. }
      pose proof (write_valid_post k pc s1 (fun _ => False) I1) as W.
      assert (Hp : forall c, In c pc -> Z.testbit (reg s1 c) pkg_bit = true) by (intros c Hc; rewrite V1; now apply Hpc).
      specialize (W Hp). unfold post in W.
      assert (T1 : tidy k (fun _ => False) s s1) by (apply tidy_same; auto).
      destruct (write_feature env fr (hvalid k) (VStr (s2l "on"%string)) (Some pc) s1) as [[[]|e] s2].
      + destruct W as (T2 & F2 & H2). split; [eapply tidy_trans; eauto|]. intros _ _ c Hc.
        destruct (in_dec Z.eq_dec c pc) as [Hin|Hin]; [apply valid_decides; now apply H2|].
        rewrite pkg_decides_fr, F2, V1 by auto. destruct (Z.testbit (reg s c) pkg_bit) eqn:Eb; [elim Hin; apply Hpc; auto|].
        now rewrite andb_false_r.
      + destruct W as (T2 & F2 & H2). destruct (ens_dec e) as [->|Ne].
        * split; [eapply tidy_trans; eauto|]. intros Hk _. exfalso. destruct (H2 eq_refl) as (_ & c & Hc & Hv).
          destruct (ho_req _ _ _ Hx fr Hfr) as (_ & _ & _ & Hr). rewrite (Hr k c Hk) in Hv; [discriminate|].
          apply Ht. now apply Hpc.
        * destruct e; try congruence; (split; [eapply tidy_trans; eauto|congruence]).
    - destruct P as (S1 & I1 & Hn). pose proof (proj1 S1) as V1. destruct (ens_dec e) as [->|Ne].
      + split; [apply tidy_same; auto|]. intros _ Hu c Hc. destruct (Hn eq_refl) as (c0 & _ & Hc0 & Hh).
        rewrite pkg_decides_fr. specialize (Hu c c0 Hc Hc0). rewrite !(has_pkg_eq x fr Hfr) in Hu. now rewrite Hu, Hh.
      + destruct e; try congruence; (split; [apply tidy_same; auto|congruence]).
  Qed.
  End WithReq.
End Post.
