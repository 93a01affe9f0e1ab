(** Lemmas about what reading sysfs files gives after reads and writes, with or without a cache. *)
From Verif Require Import Base L_Base L_Monad M_Text S_Text L_Text M_Sysfs S_Sysfs L_Sysfs S_SysView.
From Coq Require Import ZifyBool.

Section View.
  Variable k : senv.

  Lemma seen_eq s p :
    seen k s p = match (if se_cache k then dgs (ss_cache s) p else None) with
                 | Some v => Ok v
                 | None => on_disk k s p
                 end.
  Proof.
    unfold seen, s_read, cache_get, mbind, gets. destruct (se_cache k) eqn:Hc.
    - destruct (dgs (ss_cache s) p); [reflexivity|]. unfold on_disk.
      destruct (ss_fs s p); [|reflexivity]. destruct (k_unreadable k p); [reflexivity|].
      unfold cache_add. rewrite Hc. reflexivity.
    - unfold on_disk. destruct (ss_fs s p); [|reflexivity]. destruct (k_unreadable k p); [reflexivity|].
      unfold cache_add. rewrite Hc. reflexivity.
  Qed.

  Lemma seen_int_eq s p :
    seen_int k s p = match seen k s p with
                     | Ok v => match str_to_int v with Ok n => Ok n | Exn _ => Exn EError end
                     | Exn e => Exn e
                     end.
  Proof.
    unfold seen_int, seen, s_read_int, mbind. destruct (s_read k p s) as [[v|e] s']; cbn; [|reflexivity].
    destruct (str_to_int v); reflexivity.
  Qed.

  (** File [p] and its cache entry are as they were. *)
  Definition at_same (s s' : sstate) (p : str) : Prop :=
    ss_fs s' p = ss_fs s p /\ dgs (ss_cache s') p = dgs (ss_cache s) p.

  Lemma at_same_untouched s s' p : at_same s s' p -> untouched k s s' p.
  Proof.
    intros [H1 H2]. split; [exact H1|]. rewrite !seen_eq, H2. unfold on_disk. now rewrite H1.
  Qed.

  Lemma untouched_refl s p : untouched k s s p.
  Proof. now split. Qed.

  Lemma untouched_trans a b c p : untouched k a b p -> untouched k b c p -> untouched k a c p.
  Proof. intros [H1 H2] [H3 H4]. split; congruence. Qed.

  (** Nothing visible changed. *)
  Definition unseen (s s' : sstate) : Prop :=
    (forall p, seen k s' p = seen k s p) /\ ss_fs s' = ss_fs s /\ ss_buf s' = ss_buf s /\
    ss_intr s' = ss_intr s /\ ss_log s' = ss_log s.

  Lemma unseen_refl s : unseen s s.
  Proof. repeat split. Qed.

  Lemma unseen_trans a b c : unseen a b -> unseen b c -> unseen a c.
  Proof.
    intros (H1 & H2 & H3 & H4 & H5) (G1 & G2 & G3 & G4 & G5). repeat split; try congruence.
  Qed.

  Lemma unseen_untouched s s' p : unseen s s' -> untouched k s s' p.
  Proof. intros (H1 & H2 & _). split; [now rewrite H2|apply H1]. Qed.

  Lemma unseen_int s s' p : unseen s s' -> seen_int k s' p = seen_int k s p.
  Proof. intros H. rewrite !seen_int_eq. now rewrite (proj1 H). Qed.

  Lemma untouched_int s s' p : untouched k s s' p -> seen_int k s' p = seen_int k s p.
  Proof. intros H. rewrite !seen_int_eq. now rewrite (proj2 H). Qed.

  Lemma s_read_run p s : exists s', s_read k p s = (seen k s p, s') /\ unseen s s'.
  Proof.
    rewrite (seen_eq s p). unfold s_read, cache_get, mbind, gets, on_disk.
    destruct (se_cache k) eqn:Hc.
    - destruct (dgs (ss_cache s) p) as [v|] eqn:Ec; [exists s; split; [reflexivity|apply unseen_refl]|].
      destruct (ss_fs s p) as [raw|] eqn:Ef; [|exists s; split; [reflexivity|apply unseen_refl]].
      destruct (k_unreadable k p) eqn:Eu; [exists s; split; [reflexivity|apply unseen_refl]|].
      unfold cache_add. rewrite Hc. eexists. split; [reflexivity|].
      split; [|repeat split]. intros q. rewrite !seen_eq, Hc. cbn.
      destruct (str_dec q p) as [->|Hne].
      + rewrite dget_dset_same by apply str_eqb_eq. rewrite Ec. unfold on_disk. now rewrite Ef, Eu.
      + rewrite dget_dset_other by (try apply str_eqb_eq; exact Hne). reflexivity.
    - exists s. split; [|apply unseen_refl]. destruct (ss_fs s p) as [raw|]; [|reflexivity].
      destruct (k_unreadable k p); [reflexivity|]. unfold cache_add. now rewrite Hc.
  Qed.

  Lemma s_read_int_run p s : exists s', s_read_int k p s = (seen_int k s p, s') /\ unseen s s'.
  Proof.
    destruct (s_read_run p s) as (s' & E & H). exists s'. split; [|exact H].
    rewrite seen_int_eq. unfold s_read_int, mbind. rewrite E.
    destruct (seen k s p) as [v|e]; [|reflexivity]. destruct (str_to_int v); reflexivity.
  Qed.

  (** ** Writing *)
  Lemma cache_remove_run p s : exists s', cache_remove k p s = (Ok tt, s') /\
    (forall q, q <> p -> at_same s s' q) /\ ss_fs s' = ss_fs s /\ ss_buf s' = ss_buf s /\
    ss_intr s' = ss_intr s /\ ss_log s' = ss_log s /\
    (se_cache k = true -> dgs (ss_cache s') p = None).
  Proof.
    unfold cache_remove. destruct (se_cache k) eqn:Hc.
    - eexists. split; [reflexivity|]. cbn. repeat split; auto.
      + cbn. apply dget_ddel_other; [apply str_eqb_eq|assumption].
      + intros _. apply dget_ddel_same.
    - exists s. repeat split; auto. discriminate.
  Qed.

  Lemma cache_add_run p v s : exists s', cache_add k p v s = (Ok v, s') /\
    (forall q, q <> p -> at_same s s' q) /\ ss_fs s' = ss_fs s /\ ss_buf s' = ss_buf s /\
    ss_intr s' = ss_intr s /\ ss_log s' = ss_log s /\
    (se_cache k = true -> dgs (ss_cache s') p = Some v).
  Proof.
    unfold cache_add. destruct (se_cache k) eqn:Hc.
    - eexists. split; [reflexivity|]. cbn. repeat split; auto.
      + cbn. apply dget_dset_other; [apply str_eqb_eq|assumption].
      + intros _. apply dget_dset_same, str_eqb_eq.
    - exists s. repeat split; auto. discriminate.
  Qed.

  (** [s'] differs from [s] at file [p] only. *)
  Definition only_at (p : str) (s s' : sstate) : Prop :=
    (forall q, q <> p -> at_same s s' q) /\ ss_intr s' = ss_intr s.

  Lemma only_at_refl p s : only_at p s s.
  Proof. now repeat split. Qed.

  Lemma only_at_trans p a b c : only_at p a b -> only_at p b c -> only_at p a c.
  Proof.
    intros [H1 H2] [G1 G2]. split; [|congruence]. intros q Hq.
    destruct (H1 q Hq), (G1 q Hq). split; congruence.
  Qed.

  Lemma verify_run n p v : forall s,
    post (verify_loop k n p v) s
      (fun _ s' => only_at p s s' /\ on_disk k s' p = Ok v /\ ss_buf s' = ss_buf s /\
                   ss_log s' = ss_log s)
      (fun e s' => only_at p s s' /\ ss_buf s' = ss_buf s /\ ss_log s' = ss_log s /\
                   (e = EVerify \/ e = EError \/ e = ENotSupported)).
  Proof.
    assert (First : forall s, exists s1 s2, cache_remove k p s = (Ok tt, s1) /\
      s_read k p s1 = (on_disk k s p, s2) /\ only_at p s s2 /\ ss_fs s2 = ss_fs s /\
      ss_buf s2 = ss_buf s /\ ss_log s2 = ss_log s).
    { intros s. destruct (cache_remove_run p s) as (s1 & E1 & A1 & F1 & B1 & I1 & L1 & C1).
      exists s1. assert (Ed : seen k s1 p = on_disk k s p).
      { rewrite seen_eq. destruct (se_cache k); [rewrite C1 by reflexivity|];
          unfold on_disk; now rewrite F1. }
      assert (R : exists s2, s_read k p s1 = (on_disk k s p, s2) /\ only_at p s1 s2 /\
        ss_fs s2 = ss_fs s /\ ss_buf s2 = ss_buf s1 /\ ss_log s2 = ss_log s1).
      { clear Ed. unfold s_read, cache_get, mbind, gets.
        assert (C : (if se_cache k then dgs (ss_cache s1) p else None) = None).
        { destruct (se_cache k); [now apply C1|reflexivity]. }
        rewrite C. unfold on_disk. rewrite F1. destruct (ss_fs s p) as [raw|].
        - destruct (k_unreadable k p); [exists s1; repeat split; exact F1|].
          destruct (cache_add_run p (strip raw) s1) as (s2 & E2 & A2 & F2 & B2 & I2 & L2 & C2).
          exists s2. split; [exact E2|]. split; [now split|]. split; [congruence|]. auto.
        - exists s1. repeat split. exact F1. }
      destruct R as (s2 & E2 & A2 & F2 & B2 & L2). exists s2. split; [exact E1|]. split; [exact E2|].
      split; [eapply only_at_trans; [|exact A2]; now split|]. repeat split; congruence. }
    assert (Dk : forall s s', ss_fs s' = ss_fs s -> on_disk k s' p = on_disk k s p).
    { intros s s' H. unfold on_disk. now rewrite H. }
    assert (De : forall s e, on_disk k s p = Exn e -> e = EVerify \/ e = EError \/ e = ENotSupported).
    { intros s e. unfold on_disk. destruct (ss_fs s p); [destruct (k_unreadable k p)|];
        intros [= <-] || discriminate; auto. }
    induction n as [|n IH]; intros s; destruct (First s) as (s1 & s2 & E1 & E2 & A & F & B & L);
      cbn [verify_loop]; unfold post, mbind; rewrite E1, E2;
      (destruct (on_disk k s p) as [new|e] eqn:Ed; [|split; [exact A|]; eauto]);
      (destruct (str_eqb v new) eqn:Ev;
        [apply str_eqb_eq in Ev; subst new; cbn; split; [exact A|];
         split; [rewrite (Dk s s2 F); exact Ed|now split]|]).
    - cbn. auto.
    - unfold modify. set (s3 := s_fs s2 _).
      assert (A3 : only_at p s2 s3).
      { split; [|reflexivity]. intros q Hq. subst s3. split; [|reflexivity]. cbn.
        destruct (ss_fs s2 p); [now rewrite fs_upd_other|reflexivity]. }
      pose proof (IH s3) as P. unfold post in P. unfold mbind in P.
      destruct (verify_loop k n p v s3) as [[[]|e] s4].
      + destruct P as (P1 & P2 & P3 & P4). split.
        * eapply only_at_trans; [exact A|]. eapply only_at_trans; eassumption.
        * split; [exact P2|]. subst s3; cbn in P3, P4. split; congruence.
      + destruct P as (P1 & P2 & P3 & P4). split.
        * eapply only_at_trans; [exact A|]. eapply only_at_trans; eassumption.
        * subst s3; cbn in P2, P3. split; [congruence|]. split; [congruence|exact P4].
  Qed.

  (** A verified write. *)
  Lemma write_verify_post p v w r sl s :
    post (s_write_verify k p v w r sl) s
      (fun _ s' => only_at p s s' /\ seen k s' p = Ok v /\
         (ss_intr s = false -> on_disk k s' p = Ok v /\ ss_buf s' = ss_buf s /\
                               ss_log s' = ss_log s ++ [(p, v)]) /\
         (ss_intr s = true -> ss_fs s' = ss_fs s /\ ss_log s' = ss_log s /\
            ss_buf s' = dset str_eqb (ss_buf s) p (STI v w true r sl)))
      (fun e s' => only_at p s s' /\ ss_buf s' = ss_buf s /\
         (ss_intr s = true -> ss_fs s' = ss_fs s) /\
         (ss_log s' = ss_log s /\ ss_fs s' = ss_fs s \/ ss_log s' = ss_log s ++ [(p, v)]) /\
         (e = EVerify \/ e = EError \/ e = ENotSupported)).
  Proof.
    unfold s_write_verify, post, mbind.
    destruct (cache_remove_run p s) as (s1 & E1 & A1 & F1 & B1 & I1 & L1 & C1). rewrite E1.
    unfold gets. assert (O1 : only_at p s s1) by now split.
    assert (Sn : forall a b, on_disk k a p = Ok v -> ss_fs b = ss_fs a ->
                 (se_cache k = true -> dgs (ss_cache b) p = Some v) -> seen k b p = Ok v).
    { intros a b H1 H2 H3. rewrite seen_eq. destruct (se_cache k); [now rewrite H3|].
      unfold on_disk in *. now rewrite H2. }
    destruct (ss_intr s1) eqn:It.
    - unfold add_for_transaction. destruct (se_cache k) eqn:Hc.
      2:{ cbn. split; [exact O1|]. split; [exact B1|]. split; [auto|]. split; [left; auto|auto]. }
      cbn [negb]. unfold mbind, gets.
      assert (Good : forall s2, s2 = s_buf s1 (dset str_eqb (ss_buf s1) p (STI v w true r sl)) ->
        match cache_add k p v s2 with
        | (Ok _, s') => only_at p s s' /\ seen k s' p = Ok v /\
           (ss_intr s = false -> on_disk k s' p = Ok v /\ ss_buf s' = ss_buf s /\
                               ss_log s' = ss_log s ++ [(p, v)]) /\
           (ss_intr s = true -> ss_fs s' = ss_fs s /\ ss_log s' = ss_log s /\
              ss_buf s' = dset str_eqb (ss_buf s) p (STI v w true r sl))
        | (Exn e, s') => False
        end).
      { intros s2 ->. destruct (cache_add_run p v (s_buf s1 (dset str_eqb (ss_buf s1) p (STI v w true r sl))))
          as (s3 & E3 & A3 & F3 & B3 & I3 & L3 & C3). rewrite E3. cbn in F3, B3, I3, L3.
        split; [split; [|congruence]|].
        { intros q Hq. destruct (A1 q Hq), (A3 q Hq) as [G1 G2]. cbn in G1, G2. split; congruence. }
        split; [rewrite seen_eq, Hc, C3 by exact Hc; reflexivity|]. split; [congruence|].
        intros _. split; [congruence|]. split; [congruence|]. now rewrite B3, B1. }
      assert (Bad : only_at p s s1 /\ ss_buf s1 = ss_buf s /\
         (ss_intr s = true -> ss_fs s1 = ss_fs s) /\
         (ss_log s1 = ss_log s /\ ss_fs s1 = ss_fs s \/ ss_log s1 = ss_log s ++ [(p, v)]) /\
         (EError = EVerify \/ EError = EError \/ EError = ENotSupported)).
      { split; [exact O1|]. split; [exact B1|]. split; [auto|]. split; [left; auto|auto]. }
      destruct (dgs (ss_buf s1) p) as [ti|] eqn:Ed.
      + destruct (negb (what_eqb _ _)); [exact Bad|].
        destruct (negb (Bool.eqb _ _)); [exact Bad|].
        destruct (negb (_ =? r)); [exact Bad|]. destruct (negb (_ =? sl)); [exact Bad|].
        unfold modify. specialize (Good _ eq_refl).
        destruct (cache_add k p v _) as [[a|e] s']; [exact Good|destruct Good].
      + unfold modify. specialize (Good _ eq_refl).
        destruct (cache_add k p v _) as [[a|e] s']; [exact Good|destruct Good].
    - unfold raw_write, mbind, gets. destruct (ss_fs s1 p) as [old|] eqn:Ef.
      2:{ cbn. split; [exact O1|]. split; [exact B1|]. split; [congruence|]. split; [left; auto|auto]. }
      destruct (k_write k p old v) as [c|] eqn:Ew.
      2:{ cbn. split; [exact O1|]. split; [exact B1|]. split; [congruence|]. split; [left; auto|auto]. }
      unfold modify. set (s2 := s_log _ _).
      assert (O2 : only_at p s s2).
      { eapply only_at_trans; [exact O1|]. split; [|reflexivity]. intros q Hq. subst s2. split; [|reflexivity].
        cbn. now rewrite fs_upd_other. }
      pose proof (verify_run (Z.to_nat r) p v s2) as P. unfold post, s_verify in *.
      destruct (verify_loop k (Z.to_nat r) p v s2) as [[[]|e] s3].
      + destruct P as (P1 & P2 & P3 & P4).
        destruct (cache_add_run p v s3) as (s4 & E4 & A4 & F4 & B4 & I4 & L4 & C4). rewrite E4. cbn.
        assert (D4 : on_disk k s4 p = Ok v) by (unfold on_disk in *; now rewrite F4).
        split; [eapply only_at_trans; [exact O2|]; eapply only_at_trans; [exact P1|]; now split|].
        split; [now apply (Sn s3 s4)|]. split; [|congruence].
        intros _. split; [exact D4|]. subst s2; cbn in P3, P4. split; congruence.
      + destruct P as (P1 & P2 & P3 & P4). split; [eapply only_at_trans; eassumption|].
        subst s2; cbn in P2, P3. split; [congruence|]. split; [congruence|]. split; [|exact P4].
        right. congruence.
  Qed.

  (** When it succeeds. *)
  Lemma write_verify_live p v w r sl s : ss_intr s = false -> takes k s p v ->
    exists s', s_write_verify k p v w r sl s = (Ok tt, s').
  Proof.
    intros Hi (Hf & Hu & Hk). unfold s_write_verify, mbind.
    destruct (cache_remove_run p s) as (s1 & E1 & A1 & F1 & B1 & I1 & L1 & C1). rewrite E1.
    unfold gets. rewrite I1, Hi. unfold raw_write, mbind, gets. rewrite F1.
    destruct (ss_fs s p) as [old|] eqn:Ef; [|congruence].
    destruct (Hk old) as (c & Ew & Ec). rewrite Ew. unfold modify. set (s2 := s_log _ _).
    assert (D2 : ss_fs s2 p = Some c) by (subst s2; cbn; apply fs_upd_same).
    assert (V : exists s3, s_verify k p v r s2 = (Ok tt, s3)).
    { clearbody s2. unfold s_verify.
      assert (G : forall n, exists s3, verify_loop k n p v s2 = (Ok tt, s3)).
      { intros n. destruct (cache_remove_run p s2) as (s3 & E3 & A3 & F3 & B3 & I3 & L3 & C3).
        assert (R : exists s4, s_read k p s3 = (Ok v, s4)).
        { destruct (s_read_run p s3) as (s4 & E4 & _). exists s4. rewrite E4. f_equal.
          rewrite seen_eq. assert (C : (if se_cache k then dgs (ss_cache s3) p else None) = None).
          { destruct (se_cache k); [now apply C3|reflexivity]. }
          rewrite C. unfold on_disk. now rewrite F3, D2, Hu, Ec. }
        destruct R as (s4 & E4). exists s4.
        destruct n; cbn [verify_loop]; unfold mbind; rewrite E3, E4, str_eqb_refl; reflexivity. }
      apply G. }
    destruct V as (s3 & ->).
    destruct (cache_add_run p v s3) as (s4 & E4 & _). rewrite E4. eexists. reflexivity.
  Qed.

  (** In a transaction nothing can go wrong unless the file has a pending write of another kind. *)
  Lemma write_verify_tr p v w r sl s : ss_intr s = true -> se_cache k = true ->
    (forall ti, dgs (ss_buf s) p = Some ti ->
       st_what ti = w /\ st_verify ti = true /\ st_retries ti = r /\ st_sleep ti = sl) ->
    exists s', s_write_verify k p v w r sl s = (Ok tt, s').
  Proof.
    intros Hi Hc Hb. unfold s_write_verify, mbind.
    destruct (cache_remove_run p s) as (s1 & E1 & A1 & F1 & B1 & I1 & L1 & C1). rewrite E1.
    unfold gets. rewrite I1, Hi. unfold add_for_transaction. rewrite Hc. cbn [negb].
    unfold mbind, gets. rewrite B1. destruct (dgs (ss_buf s) p) as [ti|].
    - destruct (Hb ti eq_refl) as (<- & -> & <- & <-).
      assert (W : what_eqb (st_what ti) (st_what ti) = true)
        by (destruct (st_what ti); cbn; [apply str_eqb_refl|reflexivity]).
      rewrite W, !Z.eqb_refl. cbn [negb Bool.eqb]. unfold modify.
      match goal with |- context [cache_add k p v ?x] =>
        destruct (cache_add_run p v x) as (s4 & E4 & _); rewrite E4 end.
      eexists. reflexivity.
    - unfold modify. match goal with |- context [cache_add k p v ?x] =>
        destruct (cache_add_run p v x) as (s4 & E4 & _); rewrite E4 end.
      eexists. reflexivity.
  Qed.

  (** A plain write.  Without a cache the kernel must store what is written for it to be seen. *)
  Lemma write_post p v w s :
    post (s_write k p v w) s
      (fun _ s' => only_at p s s' /\ (se_cache k = true -> seen k s' p = Ok v) /\
         (ss_intr s = false -> ss_buf s' = ss_buf s /\ ss_log s' = ss_log s ++ [(p, v)] /\
            exists old c, ss_fs s p = Some old /\ k_write k p old v = Some c /\ ss_fs s' p = Some c) /\
         (ss_intr s = true -> ss_fs s' = ss_fs s /\ ss_log s' = ss_log s /\
            ss_buf s' = dset str_eqb (ss_buf s) p (STI v w true 0 0)))
      (fun e s' => only_at p s s' /\ ss_buf s' = ss_buf s /\ ss_fs s' = ss_fs s /\
         ss_log s' = ss_log s /\ (e = EError \/ e = ENotSupported)).
  Proof.
    unfold s_write, post, mbind.
    destruct (cache_remove_run p s) as (s1 & E1 & A1 & F1 & B1 & I1 & L1 & C1). rewrite E1.
    unfold gets. assert (O1 : only_at p s s1) by now split.
    assert (Bad : forall e, e = EError \/ e = ENotSupported ->
         only_at p s s1 /\ ss_buf s1 = ss_buf s /\ ss_fs s1 = ss_fs s /\
         ss_log s1 = ss_log s /\ (e = EError \/ e = ENotSupported)) by auto 10.
    destruct (ss_intr s1) eqn:It.
    - unfold add_for_transaction. destruct (se_cache k) eqn:Hc; [|apply Bad; auto].
      cbn [negb]. unfold mbind, gets.
      set (s2 := s_buf s1 (dset str_eqb (ss_buf s1) p (STI v w true 0 0))).
      assert (Good : match cache_add k p v s2 with
        | (Ok _, s') => only_at p s s' /\ (true = true -> seen k s' p = Ok v) /\
         (ss_intr s = false -> ss_buf s' = ss_buf s /\ ss_log s' = ss_log s ++ [(p, v)] /\
            exists old c, ss_fs s p = Some old /\ k_write k p old v = Some c /\ ss_fs s' p = Some c) /\
         (ss_intr s = true -> ss_fs s' = ss_fs s /\ ss_log s' = ss_log s /\
            ss_buf s' = dset str_eqb (ss_buf s) p (STI v w true 0 0))
        | (Exn e, s') => False
        end).
      { destruct (cache_add_run p v s2) as (s3 & E3 & A3 & F3 & B3 & I3 & L3 & C3). rewrite E3.
        subst s2. cbn in F3, B3, I3, L3.
        split; [split; [|congruence]|].
        { intros q Hq. destruct (A1 q Hq), (A3 q Hq) as [G1 G2]. cbn in G1, G2. split; congruence. }
        split; [intros _; rewrite seen_eq, Hc, C3 by exact Hc; reflexivity|]. split; [congruence|].
        intros _. split; [congruence|]. split; [congruence|]. now rewrite B3, B1. }
      destruct (dgs (ss_buf s1) p) as [ti|] eqn:Ed.
      + destruct (negb (what_eqb _ _)); [apply Bad; auto|].
        destruct (negb (Bool.eqb _ _)); [apply Bad; auto|].
        destruct (negb (_ =? 0)); [apply Bad; auto|]. destruct (negb (_ =? 0)); [apply Bad; auto|].
        unfold modify. fold s2.
        destruct (cache_add k p v s2) as [[a|e] s']; [exact Good|destruct Good].
      + unfold modify. fold s2.
        destruct (cache_add k p v s2) as [[a|e] s']; [exact Good|destruct Good].
    - unfold raw_write, mbind, gets. destruct (ss_fs s1 p) as [old|] eqn:Ef; [|apply Bad; auto].
      destruct (k_write k p old v) as [c|] eqn:Ew; [|apply Bad; auto].
      unfold modify. set (s2 := s_log _ _).
      assert (O2 : only_at p s s2).
      { eapply only_at_trans; [exact O1|]. split; [|reflexivity]. intros q Hq. subst s2. split; [|reflexivity].
        cbn. now rewrite fs_upd_other. }
      destruct (cache_add_run p v s2) as (s4 & E4 & A4 & F4 & B4 & I4 & L4 & C4). rewrite E4. cbn.
      split; [eapply only_at_trans; [exact O2|]; now split|].
      split; [intros Hc; rewrite seen_eq, Hc, C4 by exact Hc; reflexivity|]. split; [|congruence].
      intros _. subst s2; cbn in F4, B4, L4. split; [congruence|]. split; [congruence|].
      exists old, c. rewrite <- F1, Ef. split; [reflexivity|]. split; [exact Ew|].
      rewrite F4. apply fs_upd_same.
  Qed.

  Lemma write_live p v w s : ss_intr s = false -> ss_fs s p <> None ->
    (forall old, k_write k p old v <> None) ->
    exists s', s_write k p v w s = (Ok tt, s').
  Proof.
    intros Hi Hf Hk. unfold s_write, mbind.
    destruct (cache_remove_run p s) as (s1 & E1 & A1 & F1 & B1 & I1 & L1 & C1). rewrite E1.
    unfold gets. rewrite I1, Hi. unfold raw_write, mbind, gets. rewrite F1.
    destruct (ss_fs s p) as [old|] eqn:Ef; [|congruence].
    destruct (k_write k p old v) as [c|] eqn:Ew; [|now apply Hk in Ew]. unfold modify.
    match goal with |- context [cache_add k p v ?x] =>
        destruct (cache_add_run p v x) as (s4 & E4 & _); rewrite E4 end.
    eexists. reflexivity.
  Qed.

  Lemma takes_frame s s' p v : ss_fs s' p = ss_fs s p -> takes k s p v -> takes k s' p v.
  Proof. intros E (H1 & H2 & H3). split; [congruence|auto]. Qed.
End View.
