(** Lemmas for C31 and C49: systems without an idle driver. *)
From Coq Require Import Ascii String.
From Verif Require Import Base M_CPUInfo M_Text M_CPUIdle S_CPUIdle.

Section NoDriver.
  Variable mc : machine.

  Definition same (s s' : idle) : Prop := id_flags s' = id_flags s /\ id_gov s' = id_gov s /\ id_cdrv s' = id_cdrv s.
  Lemma same_refl s : same s s.
  Proof. repeat split. Qed.
  Lemma same_trans a b c : same a b -> same b c -> same a c.
  Proof. unfold same. intros (? & ? & ?) (? & ? & ?). repeat split; congruence. Qed.

  Lemma rd_io_case s : (exists s', rd_io s = (Exn EError, s') /\ same s s' /\ id_rf s <> []) \/ (exists s', rd_io s = (Ok tt, s') /\ same s s').
  Proof.
    unfold rd_io. destruct (id_rf s) as [|[|] t]; [right|left|right]; eexists; (split; [reflexivity|]); repeat split; discriminate.
  Qed.

  Hypothesis Hnone : mc_driver mc = None.

  Lemma driver_fails s : id_cdrv s = None ->
    exists e s', get_idle_driver mc s = (Exn e, s') /\ same s s' /\ (id_rf s = [] -> e = ENotSupported).
  Proof.
    intros Hc. unfold get_idle_driver. rewrite Hc, Hnone. destruct (mc_cache mc); unfold mbind;
      destruct (rd_io_case s) as [(s' & E & Hs & Hr)|(s' & E & Hs)]; rewrite E; do 2 eexists; (split; [reflexivity|]);
      (split; [exact Hs|]); intros H; [congruence|reflexivity|congruence|reflexivity].
  Qed.

  Lemma after_driver {A} (k : str -> M idle A) s : id_cdrv s = None ->
    exists e s', mbind (get_idle_driver mc) k s = (Exn e, s') /\ same s s' /\ (id_rf s = [] -> e = ENotSupported).
  Proof. intros Hc. destruct (driver_fails s Hc) as (e & s' & E & H). unfold mbind. rewrite E. eauto. Qed.

  Lemma after_driver2 {A} (k : str -> M idle A) s : id_cdrv s = None -> exists e s', mbind (get_idle_driver mc) k s = (Exn e, s') /\ same s s'.
  Proof. intros Hc. destruct (after_driver k s Hc) as (e & s' & E & Hs & _). eauto. Qed.
  Lemma after_driver3 {A} (k : str -> M idle A) s : id_cdrv s = None ->
    exists e s', mbind (get_idle_driver mc) k s = (Exn e, s') /\ (id_rf s = [] -> e = ENotSupported).
  Proof. intros Hc. destruct (after_driver k s Hc) as (e & s' & E & _ & Hs). eauto. Qed.

  Lemma info_fails s cpus cs : id_cdrv s = None -> exists e s', get_cstates_info mc cpus cs s = (Exn e, s') /\ same s s'.
  Proof.
    intros Hc. unfold get_cstates_info. unfold mbind at 1, lift. destruct (normalize_cpus (mc_ci mc) cpus false) as [l|e].
    - now apply after_driver2.
    - exists e, s. split; [reflexivity|apply same_refl].
  Qed.

  Lemma governors_fail s : id_cdrv s = None -> exists e s', get_available_governors mc s = (Exn e, s') /\ same s s'.
  Proof. intros Hc. unfold get_available_governors. now apply after_driver2. Qed.

  Lemma governor_fails s : id_cdrv s = None -> exists e s', get_current_governor mc s = (Exn e, s') /\ same s s'.
  Proof. intros Hc. unfold get_current_governor. now apply after_driver2. Qed.

  Lemma toggle_fails s cs cpus en : id_cdrv s = None -> exists e s', toggle_cstates mc cs cpus en s = (Exn e, s') /\ same s s'.
  Proof. intros Hc. unfold toggle_cstates. now apply after_driver2. Qed.

  Lemma set_fails s g : id_cdrv s = None -> exists e s', set_current_governor mc g s = (Exn e, s') /\ same s s'.
  Proof.
    intros Hc. unfold set_current_governor. unfold mbind at 1.
    assert (Ha : exists r s1, add0 mc (id_set_cgov None) s = (r, s1) /\ same s s1).
    { unfold add0. destruct (mc_cache mc); [|do 2 eexists; split; [reflexivity|apply same_refl]]. unfold mbind, lift, modify.
      destruct (normalize_cpus (mc_ci mc) (Some [0]) false); do 2 eexists; (split; [reflexivity|]); repeat split. }
    destruct Ha as ([[]|e] & s1 & E & Hs); rewrite E; [|exists e, s1; split; [reflexivity|exact Hs]].
    destruct (governors_fail s1) as (e & s' & E' & Hs'); [destruct Hs as (_ & _ & ->); exact Hc|].
    unfold mbind at 1. rewrite E'. exists e, s'. split; [reflexivity|]. exact (same_trans _ _ _ Hs Hs').
  Qed.

  Lemma istep_same s o : id_cdrv s = None -> same s (istep mc o s).
  Proof.
    intros Hc. destruct o as [cpus cs|cs cpus en| | | |g]; cbn [istep].
    - destruct (info_fails s cpus cs Hc) as (e & s' & E & Hs). now rewrite E.
    - destruct (toggle_fails s cs cpus en Hc) as (e & s' & E & Hs). now rewrite E.
    - destruct (driver_fails s Hc) as (e & s' & E & Hs & _). now rewrite E.
    - destruct (governor_fails s Hc) as (e & s' & E & Hs). now rewrite E.
    - destruct (governors_fail s Hc) as (e & s' & E & Hs). now rewrite E.
    - destruct (set_fails s g Hc) as (e & s' & E & Hs). now rewrite E.
  Qed.

  Lemma irun_same ops : forall s, id_cdrv s = None -> same s (irun mc ops s).
  Proof.
    induction ops as [|o ops IH]; intros s Hc; [apply same_refl|]. cbn [irun fold_left]. pose proof (istep_same s o Hc) as H1.
    eapply same_trans; [exact H1|]. apply IH. destruct H1 as (_ & _ & ->). exact Hc.
  Qed.

  Lemma no_driver_l flags gov ops tick rf wf csnames cpus en g :
    let s := irun mc ops (idle_init flags gov tick rf wf) in
    (forall r, fst (get_idle_driver mc s) <> Ok r) /\ (forall r, fst (get_cstates_info mc cpus csnames s) <> Ok r) /\
    (forall r, fst (toggle_cstates mc csnames cpus en s) <> Ok r) /\ (forall r, fst (get_current_governor mc s) <> Ok r) /\
    (forall r, fst (set_current_governor mc g s) <> Ok r) /\
    (id_rf s = [] -> fst (get_idle_driver mc s) = Exn ENotSupported /\ fst (toggle_cstates mc csnames cpus en s) = Exn ENotSupported) /\
    (forall c i, id_flags s c i = flags c i) /\ id_gov s = gov.
  Proof.
    cbn zeta. pose proof (irun_same ops (idle_init flags gov tick rf wf) eq_refl) as (Hf & Hg & Hc). set (s := irun mc ops _) in *.
    cbn in Hc. destruct (driver_fails s Hc) as (e1 & s1 & E1 & _ & R1).
    destruct (info_fails s cpus csnames Hc) as (e2 & s2 & E2 & _).
    assert (T : exists e s', toggle_cstates mc csnames cpus en s = (Exn e, s') /\ (id_rf s = [] -> e = ENotSupported)).
    { unfold toggle_cstates. now apply after_driver3. }
    destruct T as (e3 & s3 & E3 & R3).
    destruct (governor_fails s Hc) as (e4 & s4 & E4 & _). destruct (set_fails s g Hc) as (e5 & s5 & E5 & _).
    rewrite E1, E2, E3, E4, E5. cbn [fst].
    split; [discriminate|]. split; [discriminate|]. split; [discriminate|]. split; [discriminate|]. split; [discriminate|].
    split; [intros Hr; now rewrite R1, R3|]. split; [|exact Hg]. intros c i. now rewrite Hf.
  Qed.
End NoDriver.

Section BlankDriver.
  Variable mc : machine.
  Hypothesis Hblank : exists d, mc_driver mc = Some d /\ strip d = [].

  Definition blank (s : idle) : Prop := id_cdrv s = None \/ id_cdrv s = Some [].
  Definition kept (s s' : idle) : Prop := id_flags s' = id_flags s /\ (blank s -> blank s').
  Lemma kept_refl s : kept s s.
  Proof. split; auto. Qed.
  Lemma kept_trans a b c : kept a b -> kept b c -> kept a c.
  Proof. unfold kept. intros (? & ?) (? & ?). split; [congruence|auto]. Qed.
  Lemma same_kept s s' : same s s' -> kept s s'.
  Proof. intros (Hf & _ & Hc). split; [exact Hf|]. unfold blank. now rewrite Hc. Qed.

  Lemma driver_blank s : blank s -> exists r s', get_idle_driver mc s = (r, s') /\ kept s s' /\ (forall d, r = Ok d -> d = []).
  Proof.
    intros Hb. destruct Hblank as (d & Ed & Hd). unfold get_idle_driver. rewrite Ed.
    assert (R : exists r s', (rd_io ;; let d := strip d in add0 mc (id_set_cdrv (Some d)) ;; ret d) s = (r, s') /\ kept s s' /\ (forall d, r = Ok d -> d = [])).
    { unfold mbind at 1. destruct (rd_io_case s) as [(s' & E & Hs & _)|(s' & E & Hs)]; rewrite E.
      - do 2 eexists. split; [reflexivity|]. split; [now apply same_kept|discriminate].
      - cbn zeta. rewrite Hd. unfold add0, mbind, lift, modify, ret. destruct (mc_cache mc).
        + destruct (normalize_cpus (mc_ci mc) (Some [0]) false); do 2 eexists; (split; [reflexivity|]).
          * split; [|now intros d' [= <-]]. eapply kept_trans; [apply same_kept, Hs|]. split; [reflexivity|]. intros _. now right.
          * split; [now apply same_kept|discriminate].
        + do 2 eexists. split; [reflexivity|]. split; [now apply same_kept|now intros d' [= <-]]. }
    destruct (mc_cache mc); [|exact R]. destruct Hb as [Hb|Hb]; rewrite Hb; [exact R|].
    do 2 eexists. split; [reflexivity|]. split; [apply kept_refl|now intros d' [= <-]].
  Qed.

  Lemma blank_fails {A} (k : str -> M idle A) s : blank s -> (forall s, exists e, k [] s = (Exn e, s)) ->
    exists e s', mbind (get_idle_driver mc) k s = (Exn e, s') /\ kept s s'.
  Proof.
    intros Hb Hk. destruct (driver_blank s Hb) as (r & s' & E & Hs & Hr). unfold mbind. rewrite E. destruct r as [d|e].
    - rewrite (Hr d eq_refl). destruct (Hk s') as (e & Ee). rewrite Ee. eauto.
    - eauto.
  Qed.

  Lemma toggle_blank s cs cpus en : blank s -> exists e s', toggle_cstates mc cs cpus en s = (Exn e, s') /\ kept s s'.
  Proof. intros Hb. unfold toggle_cstates. apply blank_fails; [exact Hb|]. intros s'. now exists ENotSupported. Qed.

  Lemma info_blank s cs cpus : blank s -> exists e s', get_cstates_info mc cpus cs s = (Exn e, s') /\ kept s s'.
  Proof.
    intros Hb. unfold get_cstates_info. unfold mbind at 1, lift. destruct (normalize_cpus (mc_ci mc) cpus false) as [l|e].
    - apply blank_fails; [exact Hb|]. intros s'. now exists ENotSupported.
    - exists e, s. split; [reflexivity|apply kept_refl].
  Qed.

  (** What the calls about the governor do keeps the flags and the cached driver *)
  Definition quietm {A} (m : M idle A) : Prop := forall s, blank s -> kept s (snd (m s)).
  Lemma quiet_bind {A B} (m : M idle A) (k : A -> M idle B) : quietm m -> (forall x, quietm (k x)) -> quietm (mbind m k).
  Proof.
    intros Hm Hk s Hb. unfold mbind. specialize (Hm s Hb). destruct (m s) as ([x|e], s'); cbn [snd] in *; [|exact Hm].
    eapply kept_trans; [exact Hm|]. apply Hk. now apply Hm.
  Qed.
  Lemma quiet_ret {A} (x : A) : quietm (ret x).
  Proof. intros s _. apply kept_refl. Qed.
  Lemma quiet_throw {A} e : quietm (A := A) (throw e).
  Proof. intros s _. apply kept_refl. Qed.
  Lemma quiet_gets {A} (f : idle -> A) : quietm (gets f).
  Proof. intros s _. apply kept_refl. Qed.
  Lemma quiet_rd : quietm rd_io.
  Proof. intros s _. apply same_kept. destruct (rd_io_case s) as [(s' & E & Hs & _)|(s' & E & Hs)]; rewrite E; exact Hs. Qed.
  Lemma quiet_wr : quietm wr_io.
  Proof. intros s _. unfold wr_io. destruct (id_wf s) as [|[|] t]; apply same_kept; repeat split. Qed.
  Lemma quiet_modify f : (forall s, id_flags (f s) = id_flags s /\ id_cdrv (f s) = id_cdrv s) -> quietm (modify f).
  Proof. intros H s _. destruct (H s) as (H1 & H2). split; [exact H1|]. unfold blank. cbn. now rewrite H2. Qed.
  Lemma quiet_add0 f : (forall s, id_flags (f s) = id_flags s /\ id_cdrv (f s) = id_cdrv s) -> quietm (add0 mc f).
  Proof.
    intros H. unfold add0. destruct (mc_cache mc); [|apply quiet_ret]. apply quiet_bind; [|intros _; now apply quiet_modify].
    intros s _. apply kept_refl.
  Qed.
  Lemma quiet_driver : quietm (get_idle_driver mc).
  Proof. intros s Hb. destruct (driver_blank s Hb) as (r & s' & E & Hs & _). now rewrite E. Qed.
  Lemma quiet_if {A B} (c : idle -> option B) (f : B -> A) (m : M idle A) : quietm m -> quietm (fun s => match c s with Some g => (Ok (f g), s) | None => m s end).
  Proof. intros Hm s Hb. destruct (c s); [apply kept_refl|now apply Hm]. Qed.

  Lemma quiet_governors : quietm (get_available_governors mc).
  Proof.
    unfold get_available_governors. apply quiet_bind; [apply quiet_driver|]. intros _.
    apply (quiet_if (fun s => if mc_cache mc then id_cavail s else None) (fun g => g)). apply quiet_bind; [apply quiet_rd|]. intros _.
    destruct (mc_avail mc); [|apply quiet_throw]. cbn zeta. apply quiet_bind; [apply quiet_add0; split; reflexivity|]. intros _. apply quiet_ret.
  Qed.

  Lemma quiet_governor : quietm (get_current_governor mc).
  Proof.
    unfold get_current_governor. apply quiet_bind; [apply quiet_driver|]. intros _.
    apply (quiet_if (fun s => if mc_cache mc then id_cgov s else None) (fun g => g)). apply quiet_bind; [apply quiet_rd|]. intros _.
    destruct (mc_hasgov mc); [|apply quiet_throw]. apply quiet_bind; [apply quiet_gets|]. intros g.
    apply quiet_bind; [apply quiet_add0; split; reflexivity|]. intros _. apply quiet_ret.
  Qed.

  Lemma quiet_set g : quietm (set_current_governor mc g).
  Proof.
    unfold set_current_governor. apply quiet_bind; [apply quiet_add0; split; reflexivity|]. intros _.
    apply quiet_bind; [apply quiet_governors|]. intros [|x l]; [apply quiet_throw|]. destruct (negb _); [apply quiet_throw|].
    apply quiet_bind; [apply quiet_wr|]. intros _. apply quiet_bind; [apply quiet_gets|]. intros cur.
    destruct (if mc_hasgov mc then _ else _); [|apply quiet_throw].
    apply quiet_bind; [apply quiet_modify; split; reflexivity|]. intros _. apply quiet_add0; split; reflexivity.
  Qed.

  Lemma istep_kept s o : blank s -> kept s (istep mc o s).
  Proof.
    intros Hb. destruct o as [cpus cs|cs cpus en| | | |g]; cbn [istep].
    - destruct (info_blank s cs cpus Hb) as (e & s' & E & Hs). now rewrite E.
    - destruct (toggle_blank s cs cpus en Hb) as (e & s' & E & Hs). now rewrite E.
    - now apply quiet_driver.
    - now apply quiet_governor.
    - now apply quiet_governors.
    - now apply quiet_set.
  Qed.

  Lemma irun_kept ops : forall s, blank s -> kept s (irun mc ops s).
  Proof.
    induction ops as [|o ops IH]; intros s Hb; [apply kept_refl|]. cbn [irun fold_left]. pose proof (istep_kept s o Hb) as H1.
    eapply kept_trans; [exact H1|]. apply IH. now apply H1.
  Qed.

  Lemma blank_driver_l flags gov ops tick rf wf csnames cpus en :
    let s := irun mc ops (idle_init flags gov tick rf wf) in
    (forall r, fst (get_cstates_info mc cpus csnames s) <> Ok r) /\ (forall r, fst (toggle_cstates mc csnames cpus en s) <> Ok r) /\
    (forall c i, id_flags s c i = flags c i).
  Proof.
    cbn zeta. pose proof (irun_kept ops (idle_init flags gov tick rf wf) (or_introl eq_refl)) as (Hf & Hb). specialize (Hb (or_introl eq_refl)).
    set (s := irun mc ops _) in *. destruct (info_blank s csnames cpus Hb) as (e1 & s1 & E1 & _). destruct (toggle_blank s csnames cpus en Hb) as (e2 & s2 & E2 & _).
    rewrite E1, E2. split; [discriminate|]. split; [discriminate|]. intros c i. now rewrite Hf.
  Qed.
End BlankDriver.
