(** Lemmas about sysfs file access. *)
From Verif Require Import Base L_Base L_Monad M_Text S_Text L_Text M_Sysfs S_Sysfs.
From Coq Require Import ZifyBool.

Section DDel.
  Context {K V : Type} (eqb : K -> K -> bool).
  Hypothesis eqb_spec : forall x y, eqb x y = true <-> x = y.

  Lemma dget_ddel_same (d : list (K * V)) k : dget eqb (ddel eqb d k) k = None.
  Proof.
    unfold ddel. induction d as [|[k' v'] t IH]; cbn [filter fst dget]; [reflexivity|].
    destruct (eqb k k') eqn:E; cbn [negb]; [exact IH|]. cbn [dget]. now rewrite E.
  Qed.

  Lemma dget_ddel_other (d : list (K * V)) k k2 : k2 <> k -> dget eqb (ddel eqb d k) k2 = dget eqb d k2.
  Proof.
    intros Hne. unfold ddel. induction d as [|[k' v'] t IH]; cbn [filter fst dget]; [reflexivity|].
    destruct (eqb k k') eqn:E; cbn [negb dget].
    - apply eqb_spec in E. subst k'. destruct (eqb k2 k) eqn:E2; [apply eqb_spec in E2; congruence|].
      exact IH.
    - destruct (eqb k2 k'); auto.
  Qed.

  Lemma dset_keys (d : list (K * V)) k v :
    map fst (dset eqb d k v) =
    map fst d ++ (if existsb (eqb k) (map fst d) then [] else [k]).
  Proof.
    induction d as [|[k' v'] t IH]; cbn [dset map fst existsb]; [reflexivity|].
    destruct (eqb k k') eqn:E; cbn [map fst orb].
    - now rewrite app_nil_r.
    - now rewrite IH.
  Qed.
End DDel.

Notation dgs := (dget str_eqb).

Lemma str_dec (a b : str) : {a = b} + {a <> b}.
Proof. apply list_eq_dec, ascii_dec. Qed.

Lemma str_eqb_refl a : str_eqb a a = true.
Proof. now apply str_eqb_eq. Qed.

Lemma str_eqb_neq a b : a <> b -> str_eqb a b = false.
Proof. intros H. destruct (str_eqb a b) eqn:E; [|reflexivity]. now apply str_eqb_eq in E. Qed.

Lemma fs_upd_same f p c : fs_upd f p c p = Some c.
Proof. unfold fs_upd. now rewrite str_eqb_refl. Qed.
Lemma fs_upd_other f p c q : q <> p -> fs_upd f p c q = f q.
Proof. intros H. unfold fs_upd. now rewrite str_eqb_neq by congruence. Qed.

(** Everything but file 'p' and its cache entry is the same. *)
Definition samebut (p : str) (s s' : sstate) : Prop :=
  (forall q, q <> p -> ss_fs s' q = ss_fs s q /\ dgs (ss_cache s') q = dgs (ss_cache s) q) /\
  ss_buf s' = ss_buf s /\ ss_intr s' = ss_intr s.

Lemma samebut_refl p s : samebut p s s.
Proof. now repeat split. Qed.

Lemma samebut_trans p a b c : samebut p a b -> samebut p b c -> samebut p a c.
Proof.
  intros (H1 & H2 & H3) (G1 & G2 & G3). split; [|split; congruence].
  intros q Hq. destruct (H1 q Hq), (G1 q Hq). split; congruence.
Qed.

Section Cached.
  Variable k : senv.
  Hypothesis Hc : se_cache k = true.

  Lemma cache_remove_post p s (Q : unit -> sstate -> Prop) E :
    (forall s', samebut p s s' -> ss_fs s' = ss_fs s -> ss_log s' = ss_log s ->
       dgs (ss_cache s') p = None -> Q tt s') ->
    post (cache_remove k p) s Q E.
  Proof.
    intros H. unfold cache_remove. rewrite Hc. apply post_modify. apply H; cbn; auto.
    - split; [|split; reflexivity]. intros q Hq. cbn. split; [reflexivity|].
      apply dget_ddel_other; [apply str_eqb_eq|exact Hq].
    - apply dget_ddel_same.
  Qed.

  Lemma cache_add_post p v s (Q : str -> sstate -> Prop) E :
    (forall s', samebut p s s' -> ss_fs s' = ss_fs s -> ss_log s' = ss_log s ->
       dgs (ss_cache s') p = Some v -> Q v s') ->
    post (cache_add k p v) s Q E.
  Proof.
    intros H. unfold cache_add. rewrite Hc. apply post_bind, post_modify, post_ret.
    apply H; cbn; auto.
    - split; [|split; reflexivity]. intros q Hq. cbn. split; [reflexivity|].
      apply dget_dset_other; [apply str_eqb_eq|exact Hq].
    - apply dget_dset_same. apply str_eqb_eq.
  Qed.

  (** Reading: the cached value, or the file. *)
  Lemma s_read_post p s :
    post (s_read k p) s
      (fun v s' => samebut p s s' /\ ss_fs s' = ss_fs s /\ ss_log s' = ss_log s /\
         dgs (ss_cache s') p = Some v /\
         (dgs (ss_cache s) p = Some v \/ dgs (ss_cache s) p = None /\ contents s p = Some v))
      (fun e s' => s' = s /\ dgs (ss_cache s) p = None /\
         (e = ENotSupported /\ ss_fs s p = None \/ e = EError /\ k_unreadable k p = true)).
  Proof.
    unfold s_read, cache_get. apply post_bind, post_gets. rewrite Hc.
    destruct (dgs (ss_cache s) p) as [v|] eqn:Ec.
    - apply post_ret. split; [apply samebut_refl|]. auto.
    - apply post_bind, post_gets. destruct (ss_fs s p) as [raw|] eqn:Ef.
      + destruct (k_unreadable k p) eqn:Eu; [apply post_throw; auto|].
        apply cache_add_post. intros s' H1 H2 H3 H4.
        split; [exact H1|]. split; [exact H2|]. split; [exact H3|]. split; [exact H4|].
        right. unfold contents. rewrite Ef. auto.
      + apply post_throw. auto.
  Qed.

  Lemma verify_loop_post n p v : forall s,
    post (verify_loop k n p v) s
      (fun _ s' => samebut p s s' /\ ss_log s' = ss_log s /\
         dgs (ss_cache s') p = Some v /\ contents s' p = Some v)
      (fun e s' => samebut p s s' /\ ss_log s' = ss_log s /\
         (dgs (ss_cache s') p = None \/ dgs (ss_cache s') p = contents s' p) /\
         (e = EVerify /\ contents s' p <> Some v \/ e = EError /\ k_unreadable k p = true
          \/ e = ENotSupported /\ contents s' p = None)).
  Proof.
    induction n as [|n IH]; intros s; cbn [verify_loop];
      apply post_bind; apply cache_remove_post; intros s1 B1 F1 L1 C1; apply post_bind;
      (eapply post_conseq; [apply s_read_post| |]);
      try (intros e s2 (-> & _ & He); split; [exact B1|]; split; [exact L1|]; split; [now left|];
           destruct He as [[-> He]|[-> He]]; [right; right|right; left; auto];
           split; [reflexivity|]; unfold contents; now rewrite He);
      intros new s2 (B2 & F2 & L2 & C2 & Hv); destruct Hv as [Hv|[_ Hv]]; try congruence;
      assert (Cn : contents s2 p = Some new) by (unfold contents in *; now rewrite F2);
      destruct (str_eqb v new) eqn:E.
    - apply str_eqb_eq in E. subst new. apply post_ret.
      split; [eapply samebut_trans; eassumption|]. split; [congruence|]. auto.
    - apply post_throw. split; [eapply samebut_trans; eassumption|]. split; [congruence|].
      split; [right; congruence|]. left. split; [reflexivity|]. rewrite Cn. intros [= ->].
      rewrite str_eqb_refl in E. discriminate.
    - apply str_eqb_eq in E. subst new. apply post_ret.
      split; [eapply samebut_trans; eassumption|]. split; [congruence|]. auto.
    - apply post_bind, post_modify. set (s3 := s_fs s2 _).
      assert (B3 : samebut p s2 s3).
      { split; [|split; reflexivity]. intros q Hq. subst s3. cbn.
        destruct (ss_fs s2 p); [rewrite fs_upd_other by exact Hq|]; auto. }
      eapply post_conseq; [apply IH| |].
      + intros u s4 (B4 & L4 & R). split; [|split; [cbn in L4; congruence|exact R]].
        eapply samebut_trans; [exact B1|]. eapply samebut_trans; [exact B2|].
        eapply samebut_trans; eassumption.
      + intros e s4 (B4 & L4 & R). split; [|split; [cbn in L4; congruence|exact R]].
        eapply samebut_trans; [exact B1|]. eapply samebut_trans; [exact B2|].
        eapply samebut_trans; eassumption.
  Qed.

  Lemma raw_write_post p v s :
    post (raw_write k p v) s
      (fun _ s' => samebut p s s' /\ ss_cache s' = ss_cache s /\ ss_log s' = ss_log s ++ [(p, v)] /\
         exists old c, ss_fs s p = Some old /\ k_write k p old v = Some c /\ ss_fs s' p = Some c)
      (fun e s' => s' = s /\
         (e = ENotSupported /\ ss_fs s p = None \/
          e = EError /\ exists old, ss_fs s p = Some old /\ k_write k p old v = None)).
  Proof.
    unfold raw_write. apply post_bind, post_gets. destruct (ss_fs s p) as [old|] eqn:E.
    - destruct (k_write k p old v) as [c|] eqn:E2.
      + apply post_modify. split; [|split; [|split]]; try reflexivity.
        * split; [|split; reflexivity]. intros q Hq. cbn. now rewrite fs_upd_other.
        * exists old, c. cbn. rewrite fs_upd_same. auto.
      + apply post_throw. split; [reflexivity|]. right. split; [reflexivity|]. exists old. auto.
    - apply post_throw. auto.
  Qed.

  (** How a verified write to a file can fail: before the kernel took it, or at verification. *)
  Definition refused (p v : str) (s s' : sstate) : Prop :=
    ss_log s' = ss_log s /\ ss_fs s' p = ss_fs s p.
  Definition unconfirmed (p v : str) (s s' : sstate) : Prop :=
    ss_log s' = ss_log s ++ [(p, v)] /\ (contents s' p <> Some v \/ k_unreadable k p = true).

  Definition cache_fits (p : str) (s : sstate) : Prop :=
    dgs (ss_cache s) p = None \/ dgs (ss_cache s) p = contents s p.

  Lemma write_verified p v r s :
    post (cache_remove k p ;; raw_write k p v ;; s_verify k p v r) s
      (fun _ s' => samebut p s s' /\ ss_log s' = ss_log s ++ [(p, v)] /\ contents s' p = Some v)
      (fun e s' => samebut p s s' /\ cache_fits p s' /\ (refused p v s s' \/ unconfirmed p v s s')).
  Proof.
    apply post_bind, cache_remove_post. intros s1 B1 F1 L1 C1. apply post_bind.
    eapply post_conseq; [apply raw_write_post| |].
    - intros u s2 (B2 & C2 & L2 & _). eapply post_conseq; [apply verify_loop_post| |].
      + intros u' s3 (B3 & L3 & C3 & V3). split; [|split].
        * eapply samebut_trans; [exact B1|]. eapply samebut_trans; eassumption.
        * congruence.
        * exact V3.
      + intros e s3 (B3 & L3 & C3 & V3). split; [|split].
        * eapply samebut_trans; [exact B1|]. eapply samebut_trans; eassumption.
        * exact C3.
        * right. split; [congruence|]. destruct V3 as [[_ V]|[[_ V]|[_ V]]]; auto.
          left. rewrite V. discriminate.
    - intros e s2 [-> _]. split; [exact B1|]. split; [left; exact C1|]. left. split; congruence.
  Qed.

  Lemma flush_one_post p ti s : st_verify ti = true ->
    post (flush_one k (p, ti)) s
      (fun _ s' => samebut p s s' /\ ss_log s' = ss_log s ++ [(p, st_val ti)] /\
         contents s' p = Some (st_val ti) /\ dgs (ss_cache s') p = Some (st_val ti))
      (fun e s' => samebut p s s' /\ cache_fits p s' /\
         (refused p (st_val ti) s s' \/ unconfirmed p (st_val ti) s s')).
  Proof.
    intros Hv. unfold flush_one. rewrite Hv.
    pose proof (write_verified p (st_val ti) (st_retries ti) s) as H.
    unfold post in *. unfold mbind in *.
    destruct (cache_remove k p s) as [[u|e] s1]; [|exact H].
    destruct (raw_write k p (st_val ti) s1) as [[u'|e] s2]; [|exact H].
    destruct (s_verify k p (st_val ti) (st_retries ti) s2) as [[u''|e] s3]; [|exact H].
    destruct H as (B & L & V).
    unfold cache_add. rewrite Hc. cbn. split; [|split; [|split]].
    - eapply samebut_trans; [exact B|]. split; [|split; reflexivity].
      intros q Hq. cbn. split; [reflexivity|]. apply dget_dset_other; [apply str_eqb_eq|exact Hq].
    - exact L.
    - exact V.
    - apply dget_dset_same, str_eqb_eq.
  Qed.

  (** ** The invariant *)
  Definition ents (b : list (str * stinfo)) : list (str * str) :=
    map (fun e => (fst e, st_val (snd e))) b.

  Definition Coherent (ws : list (str * str)) (s : sstate) : Prop :=
    forall p v, dgs (ss_cache s) p = Some v -> contents s p = Some v \/ last_value ws p = Some v.

  Record Inv (t : tstate) (s : sstate) : Prop := {
    inv_intr : ss_intr s = fst t;
    inv_closed : fst t = false -> snd t = [];
    inv_ents : ents (ss_buf s) = merged (snd t);
    inv_ver : Forall (fun e => st_verify (snd e) = true) (ss_buf s);
    inv_nd : NoDup (map fst (ss_buf s));
    inv_coh : Coherent (snd t) s }.

  (** *** merged *)
  Lemma last_value_app ws ws' p :
    last_value (ws ++ ws') p = match last_value ws' p with Some v => Some v | None => last_value ws p end.
  Proof.
    induction ws as [|[q v] ws IH]; cbn [app last_value]; [destruct (last_value ws' p); reflexivity|].
    rewrite IH. destruct (last_value ws' p); [reflexivity|]. reflexivity.
  Qed.

  Lemma last_value_In ws p : last_value ws p <> None <-> In p (map fst ws).
  Proof.
    induction ws as [|[q v] ws IH]; cbn [last_value map fst In]; [tauto|].
    destruct (last_value ws p) as [w|].
    - split; [|congruence]. intros _. right. apply IH. congruence.
    - destruct (str_eqb q p) eqn:E.
      + apply str_eqb_eq in E. subst. split; [now left|congruence].
      + split; [congruence|]. intros [->|H]; [rewrite str_eqb_refl in E; discriminate|].
        apply IH in H. congruence.
  Qed.

  Lemma first_paths_In ws : forall seen p,
    In p (first_paths seen ws) <-> In p (map fst ws) /\ ~ In p seen.
  Proof.
    induction ws as [|[q v] ws IH]; intros seen p; cbn [first_paths map fst In]; [tauto|].
    destruct (in_dec (list_eq_dec ascii_dec) q seen) as [Hi|Hi].
    - rewrite IH. split; [tauto|]. intros [[->|H] Hn]; [contradiction|tauto].
    - cbn [In]. rewrite IH. cbn [In]. split.
      + intros [->|[H Hn]]; tauto.
      + intros [[->|H] Hn]; [tauto|]. destruct (str_dec q p); [tauto|]. right. split; [exact H|].
        intros [K|K]; [congruence|contradiction].
  Qed.

  Lemma first_paths_NoDup ws : forall seen, NoDup (first_paths seen ws).
  Proof.
    induction ws as [|[q v] ws IH]; intros seen; cbn [first_paths]; [constructor|].
    destruct (in_dec (list_eq_dec ascii_dec) q seen); [apply IH|]. constructor; [|apply IH].
    rewrite first_paths_In. cbn [In]. tauto.
  Qed.

  Lemma first_paths_app ws p v : forall seen,
    first_paths seen (ws ++ [(p, v)]) =
    first_paths seen ws ++ (if in_dec str_dec p (seen ++ map fst ws) then [] else [p]).
  Proof.
    induction ws as [|[q w] ws IH]; intros seen; cbn [app first_paths map fst].
    - rewrite app_nil_r. destruct (in_dec (list_eq_dec ascii_dec) p seen) as [Hi|Hi];
        destruct (in_dec str_dec p seen); try contradiction; reflexivity.
    - destruct (in_dec (list_eq_dec ascii_dec) q seen) as [Hi|Hi]; rewrite IH.
      + destruct (in_dec str_dec p (seen ++ map fst ws)) as [H1|H1];
          destruct (in_dec str_dec p (seen ++ q :: map fst ws)) as [H2|H2]; try reflexivity; exfalso.
        * apply H2. rewrite in_app_iff in H1. apply in_app_iff. cbn. tauto.
        * rewrite in_app_iff in H1. rewrite in_app_iff in H2. cbn in H2.
          destruct H2 as [H2|[H2|H2]]; [tauto|subst; tauto|tauto].
      + destruct (in_dec str_dec p ((q :: seen) ++ map fst ws)) as [H1|H1];
          destruct (in_dec str_dec p (seen ++ q :: map fst ws)) as [H2|H2]; try reflexivity; exfalso.
        * apply H2. apply in_app_iff. cbn in *. rewrite in_app_iff in H1. tauto.
        * apply H1. cbn. rewrite in_app_iff. rewrite in_app_iff in H2. cbn in H2. tauto.
  Qed.

  Lemma merged_In ws p v : In (p, v) (merged ws) <-> last_value ws p = Some v.
  Proof.
    unfold merged. rewrite in_flat_map. split.
    - intros (q & _ & H). destruct (last_value ws q) as [w|] eqn:E; [|destruct H].
      destruct H as [[= -> ->]|[]]. exact E.
    - intros H. exists p. rewrite H. split; [|now left]. apply first_paths_In.
      split; [|intros []]. apply last_value_In. congruence.
  Qed.

  Lemma merged_keys ws : map fst (merged ws) = first_paths [] ws.
  Proof.
    unfold merged. assert (H : forall p, In p (first_paths [] ws) -> last_value ws p <> None).
    { intros p Hp. apply last_value_In. now apply first_paths_In in Hp. }
    induction (first_paths [] ws) as [|p l IH]; [reflexivity|]. cbn [flat_map].
    rewrite map_app, IH by (intros; apply H; now right).
    specialize (H p (or_introl eq_refl)). destruct (last_value ws p); [reflexivity|congruence].
  Qed.

  Lemma merged_dget ws p : dgs (merged ws) p = last_value ws p.
  Proof.
    destruct (last_value ws p) as [v|] eqn:E.
    - apply In_dget; [apply str_eqb_eq| |now apply merged_In].
      rewrite merged_keys. apply first_paths_NoDup.
    - apply dget_None; [apply str_eqb_eq|]. rewrite merged_keys, first_paths_In.
      intros [H _]. apply last_value_In in H. congruence.
  Qed.

  Lemma dget_ents b p : dgs (ents b) p = option_map st_val (dgs b p).
  Proof.
    induction b as [|[q ti] b IH]; [reflexivity|]. cbn. destruct (str_eqb p q); [reflexivity|exact IH].
  Qed.

  Lemma ents_keys b : map fst (ents b) = map fst b.
  Proof. unfold ents. rewrite map_map. reflexivity. Qed.

  (** Association lists with the same keys in the same order and the same values are equal. *)
  Lemma dict_ext {V} (a b : list (str * V)) : NoDup (map fst a) -> map fst a = map fst b ->
    (forall p, dgs a p = dgs b p) -> a = b.
  Proof.
    revert b; induction a as [|[p v] a IH]; intros b Hn Hk Hg.
    - destruct b; [reflexivity|discriminate].
    - destruct b as [|[q w] b]; [discriminate|]. cbn in Hk. injection Hk as <- Hk.
      pose proof (Hg p) as H0. cbn in H0. rewrite str_eqb_refl in H0. injection H0 as <-. f_equal.
      inversion Hn as [|? ? Hni Hn']; subst. apply IH; [exact Hn'|exact Hk|].
      intros q. specialize (Hg q). cbn in Hg. destruct (str_eqb q p) eqn:E; [|exact Hg].
      apply str_eqb_eq in E. subst q. transitivity (@None V); [|symmetry];
        apply dget_None; try apply str_eqb_eq; [exact Hni|now rewrite <- Hk].
  Qed.

  Lemma merged_app ws p v : merged (ws ++ [(p, v)]) = dset str_eqb (merged ws) p v.
  Proof.
    apply dict_ext.
    - rewrite merged_keys. apply first_paths_NoDup.
    - rewrite merged_keys, dset_keys, merged_keys, first_paths_app. cbn [app]. f_equal.
      destruct (in_dec str_dec p (map fst ws)) as [H|H]; destruct (existsb _ _) eqn:E; try reflexivity; exfalso.
      + assert (existsb (str_eqb p) (first_paths [] ws) = true); [|congruence].
        apply existsb_exists. exists p. split; [|apply str_eqb_refl]. apply first_paths_In. auto.
      + apply existsb_exists in E as (q & Hq & Eq). apply str_eqb_eq in Eq. subst q.
        apply first_paths_In in Hq. tauto.
    - intros q. rewrite merged_dget, last_value_app. cbn [last_value].
      destruct (str_dec q p) as [->|Hne].
      + rewrite str_eqb_refl. rewrite dget_dset_same by apply str_eqb_eq. reflexivity.
      + rewrite str_eqb_neq by congruence. rewrite dget_dset_other by (apply str_eqb_eq || exact Hne).
        now rewrite merged_dget.
  Qed.

  Lemma ents_dset b p ti : ents (dset str_eqb b p ti) = dset str_eqb (ents b) p (st_val ti).
  Proof.
    induction b as [|[q u] b IH]; [reflexivity|]. cbn. destruct (str_eqb p q); [reflexivity|].
    cbn. f_equal. exact IH.
  Qed.

  (** *** Flush *)
  Definition flushed (s s' : sstate) (pre : list (str * stinfo)) : Prop :=
    ss_buf s' = ss_buf s /\ ss_intr s' = ss_intr s /\ ss_log s' = ss_log s ++ ents pre /\
    (forall q, ~ In q (map fst pre) -> ss_fs s' q = ss_fs s q /\ dgs (ss_cache s') q = dgs (ss_cache s) q) /\
    (forall q ti, In (q, ti) pre -> contents s' q = Some (st_val ti) /\
                                    dgs (ss_cache s') q = Some (st_val ti)).

  Definition broken (s s' : sstate) (b : list (str * stinfo)) : Prop :=
    exists pre p ti post_, b = pre ++ (p, ti) :: post_ /\
      ss_buf s' = ss_buf s /\ ss_intr s' = ss_intr s /\
      (forall q u, In (q, u) pre -> contents s' q = Some (st_val u) /\
                                    dgs (ss_cache s') q = Some (st_val u)) /\
      (forall q, ~ In q (map fst pre) -> q <> p ->
         ss_fs s' q = ss_fs s q /\ dgs (ss_cache s') q = dgs (ss_cache s) q) /\
      cache_fits p s' /\
      (ss_log s' = ss_log s ++ ents pre /\ ss_fs s' p = ss_fs s p \/
       ss_log s' = ss_log s ++ ents pre ++ [(p, st_val ti)] /\
       (contents s' p <> Some (st_val ti) \/ k_unreadable k p = true)).

  Lemma flush_loop s0 : NoDup (map fst (ss_buf s0)) ->
    Forall (fun e => st_verify (snd e) = true) (ss_buf s0) ->
    post (mfor (ss_buf s0) (flush_one k)) s0
      (fun _ s' => flushed s0 s' (ss_buf s0)) (fun e s' => broken s0 s' (ss_buf s0)).
  Proof.
    intros Hnd Hv.
    apply (post_mfor (flush_one k) (fun pre s' => flushed s0 s' pre)).
    2:{ repeat split; cbn; auto; try contradiction. now rewrite app_nil_r. }
    intros pre [p ti] r Eb s (Hb & Hi & Hl & Hf & Hp).
    assert (Hvp : st_verify ti = true).
    { rewrite Forall_forall in Hv. apply (Hv (p, ti)). rewrite Eb. apply in_app_iff. right. now left. }
    assert (Hni : ~ In p (map fst pre)).
    { rewrite Eb, map_app in Hnd. cbn in Hnd. apply NoDup_remove_2 in Hnd.
      intros H. apply Hnd. apply in_app_iff. now left. }
    eapply post_conseq; [apply (flush_one_post p ti s Hvp)| |].
    - intros u s' ((B & Bb & Bi) & L & V & C). split; [congruence|]. split; [congruence|].
      split; [|split].
      + rewrite L, Hl. unfold ents. rewrite map_app, <- app_assoc. reflexivity.
      + intros q Hq. rewrite map_app, in_app_iff in Hq. cbn in Hq.
        assert (q <> p) by (intros ->; tauto). destruct (B q) as [B1 B2]; [assumption|].
        destruct (Hf q) as [F1 F2]; [tauto|]. split; congruence.
      + intros q tj Hq. apply in_app_iff in Hq as [Hq|[[= <- <-]|[]]]; [|auto].
        assert (q <> p). { intros ->. apply Hni. apply in_map_iff. exists (p, tj). auto. }
        destruct (B q) as [B1 B2]; [assumption|]. destruct (Hp q tj Hq) as [P1 P2].
        unfold contents in *. rewrite B1, B2. auto.
    - intros e s' ((B & Bb & Bi) & Cf & R). exists pre, p, ti, r. split; [exact Eb|].
      split; [congruence|]. split; [congruence|]. split; [|split; [|split]].
      + intros q tj Hq.
        assert (q <> p). { intros ->. apply Hni. apply in_map_iff. exists (p, tj). auto. }
        destruct (B q) as [B1 B2]; [assumption|]. destruct (Hp q tj Hq) as [P1 P2].
        unfold contents in *. rewrite B1, B2. auto.
      + intros q Hq Hqp. destruct (B q Hqp) as [B1 B2]. destruct (Hf q Hq) as [F1 F2].
        split; congruence.
      + exact Cf.
      + destruct R as [[R1 R2]|[R1 R2]].
        * left. split; [congruence|]. rewrite R2. apply Hf. exact Hni.
        * right. split; [|exact R2]. rewrite R1, Hl. now rewrite <- app_assoc.
  Qed.

  Lemma s_flush_post t s : Inv t s ->
    post (s_flush k) s
      (fun _ s' => fst t = true /\ Inv (fst t, []) s' /\
         ss_log s' = ss_log s ++ merged (snd t) /\
         (forall p, last_value (snd t) p = None -> ss_fs s' p = ss_fs s p) /\
         (forall p v, last_value (snd t) p = Some v -> contents s' p = Some v))
      (fun e s' => Inv t s' /\
         (fst t = false /\ s' = s \/ fst t = true /\ broken s s' (ss_buf s))).
  Proof.
    intros [I1 I2 I3 I4 I5 I6]. unfold s_flush. rewrite Hc. cbn [negb].
    apply post_bind, post_gets. rewrite I1. destruct (fst t) eqn:Et; cbn [negb].
    2:{ apply post_throw. split; [|auto]. constructor; rewrite ?Et; auto. }
    apply post_bind, post_gets, post_bind.
    assert (Hlast : forall p, last_value (snd t) p = option_map st_val (dgs (ss_buf s) p)).
    { intros p. now rewrite <- dget_ents, I3, merged_dget. }
    eapply post_conseq; [apply (flush_loop s I5 I4)| |].
    - intros u s' (Hb & Hi & Hl & Hf & Hp). apply post_modify.
      assert (HN : forall p, last_value (snd t) p = None -> ~ In p (map fst (ss_buf s))).
      { intros p Hn. rewrite Hlast in Hn. apply (dget_None str_eqb str_eqb_eq).
        destruct (dgs (ss_buf s) p); [discriminate|reflexivity]. }
      assert (HS : forall p v, last_value (snd t) p = Some v ->
                   exists ti, In (p, ti) (ss_buf s) /\ st_val ti = v).
      { intros p v Hs. rewrite Hlast in Hs. destruct (dgs (ss_buf s) p) as [ti|] eqn:E; [|discriminate].
        injection Hs as <-. apply (dget_In str_eqb str_eqb_eq) in E. eauto. }
      split; [reflexivity|]. split; [|split; [|split]].
      + constructor; cbn; [congruence|auto|reflexivity|constructor|constructor|].
        * intros p v Hcv. cbn [s_buf ss_cache] in Hcv. left. unfold contents. cbn [s_buf ss_fs].
          destruct (last_value (snd t) p) as [w|] eqn:E.
          -- destruct (HS p w E) as (ti & Hin & Hw). destruct (Hp p ti Hin) as [P1 P2].
             unfold contents in P1. congruence.
          -- destruct (Hf p (HN p E)) as [F1 F2]. rewrite F2 in Hcv. destruct (I6 p v Hcv) as [G|G].
             ++ unfold contents in G. now rewrite F1.
             ++ congruence.
      + cbn. now rewrite Hl, I3.
      + intros p Hn. cbn. apply Hf. auto.
      + intros p v Hs. destruct (HS p v Hs) as (ti & Hin & <-). unfold contents. cbn.
        destruct (Hp p ti Hin) as [P1 P2]. exact P1.
    - intros e s' Hbr. split; [|auto].
      destruct Hbr as (pre & p & ti & r & Eb & Hb & Hi & Hp & Hf & Hcf & _).
      constructor; rewrite ?Hb; auto.
      + congruence.
      + congruence.
      + intros q v Hq. destruct (in_dec str_dec q (map fst pre)) as [Hin|Hin].
        * apply in_map_iff in Hin as ((q' & u) & <- & Hin). cbn in *.
          destruct (Hp q' u Hin) as [P1 P2]. left. congruence.
        * destruct (str_dec q p) as [->|Hne].
          -- destruct Hcf as [Hcf|Hcf]; [congruence|]. left. congruence.
          -- destruct (Hf q Hin Hne) as [F1 F2]. rewrite F2 in Hq. destruct (I6 q v Hq) as [G|G]; auto.
             left. unfold contents in *. now rewrite F1.
  Qed.

  (** *** Writes *)
  Lemma add_tr_post p v w ver r sl s : ver = true ->
    post (add_for_transaction k p v w ver r sl) s
      (fun _ s' => exists ti, st_val ti = v /\ st_verify ti = true /\
                   s' = s_buf s (dset str_eqb (ss_buf s) p ti))
      (fun e s' => s' = s).
  Proof.
    intros ->. unfold add_for_transaction. rewrite Hc. cbn [negb]. apply post_bind, post_gets.
    destruct (dgs (ss_buf s) p) as [ti|].
    - destruct (negb (what_eqb _ _)); [apply post_throw; reflexivity|].
      destruct (negb (Bool.eqb _ _)); [apply post_throw; reflexivity|].
      destruct (negb (st_retries ti =? r)); [apply post_throw; reflexivity|].
      destruct (negb (st_sleep ti =? sl)); [apply post_throw; reflexivity|].
      apply post_modify. eexists. split; [|split; [|reflexivity]]; reflexivity.
    - apply post_modify. eexists. split; [|split; [|reflexivity]]; reflexivity.
  Qed.

  (** Effect of a write call with or without verification, in terms of the invariant. *)
  Definition wrote (p v : str) (t : tstate) : tstate :=
    if fst t then (true, snd t ++ [(p, v)]) else t.

  Definition direct (p v : str) (verify : bool) (r : Z) : M sstate unit :=
    if verify then raw_write k p v ;; s_verify k p v r else raw_write k p v.

  Definition write_any (p v : str) (w : option str) (verify : bool) (r sl : Z) : M sstate unit :=
    cache_remove k p ;;
    let! t := gets ss_intr in
    (if t then add_for_transaction k p v w true r sl else direct p v verify r) ;;
    cache_add k p v ;; ret tt.

  Lemma Inv_cache t s s' p : Inv t s -> samebut p s s' ->
    (dgs (ss_cache s') p = None \/ dgs (ss_cache s') p = contents s' p \/
     exists v, dgs (ss_cache s') p = Some v /\ last_value (snd t) p = Some v) -> Inv t s'.
  Proof.
    intros [I1 I2 I3 I4 I5 I6] (B & Bb & Bi) Hp. constructor; rewrite ?Bb; auto; try congruence.
    intros q v Hq. destruct (str_dec q p) as [->|Hne].
    - destruct Hp as [Hp|[Hp|(w & Hp & Hl)]]; [congruence|left; congruence|right; congruence].
    - destruct (B q Hne) as [B1 B2]. rewrite B2 in Hq. destruct (I6 q v Hq) as [G|G]; auto.
      left. unfold contents in *. now rewrite B1.
  Qed.

  Lemma write_any_post t p v w ver r sl s : Inv t s ->
    (ver = false -> fst t = false -> stores k p v) ->
    post (write_any p v w ver r sl) s
      (fun _ s' => Inv (wrote p v t) s' /\ dgs (ss_cache s') p = Some v /\
         (forall q, q <> p -> dgs (ss_cache s') q = dgs (ss_cache s) q /\ ss_fs s' q = ss_fs s q) /\
         (if fst t then ss_fs s' = ss_fs s /\ ss_log s' = ss_log s
          else contents s' p = Some v /\ ss_log s' = ss_log s ++ [(p, v)]))
      (fun e s' => Inv t s' /\
         (forall q, q <> p -> dgs (ss_cache s') q = dgs (ss_cache s) q /\ ss_fs s' q = ss_fs s q) /\
         (fst t = true -> ss_fs s' = ss_fs s /\ ss_log s' = ss_log s)).
  Proof.
    intros HI Hst. unfold write_any. apply post_bind, cache_remove_post. intros s1 B1 F1 L1 C1.
    assert (HI1 : Inv t s1) by (eapply Inv_cache; [exact HI|exact B1|now left]).
    apply post_bind, post_gets. rewrite (inv_intr _ _ HI1).
    assert (FR : forall q, q <> p -> dgs (ss_cache s1) q = dgs (ss_cache s) q /\ ss_fs s1 q = ss_fs s q).
    { intros q Hq. destruct B1 as [B1 _]. destruct (B1 q Hq). auto. }
    unfold wrote. destruct (fst t) eqn:Et.
    - apply post_bind. eapply post_conseq; [apply add_tr_post; reflexivity| |].
      + intros u s2 (ti & Hti & Hve & ->). apply post_bind, cache_add_post.
        intros s3 B3 F3 L3 C3. apply post_ret. cbn in F3, L3.
        destruct HI1 as [I1 I2 I3 I4 I5 I6]. destruct B3 as (B3 & Bb3 & Bi3).
        split; [|split; [|split; [|split]]]; try congruence.
        * constructor; cbn [fst snd]; rewrite ?Bb3, ?Bi3; cbn [s_buf ss_buf ss_intr]; try congruence.
          -- rewrite ents_dset, I3, Hti. symmetry. apply merged_app.
          -- clear - I4 Hve. induction I4 as [|[q u] b Hq Hb IH]; cbn.
             ++ constructor; [exact Hve|constructor].
             ++ destruct (str_eqb p q); constructor; auto.
          -- apply dset_NoDup; [apply str_eqb_eq|exact I5].
          -- intros q x Hq. rewrite last_value_app. cbn [last_value].
             destruct (str_dec q p) as [->|Hne].
             ++ rewrite str_eqb_refl. right. congruence.
             ++ rewrite str_eqb_neq by congruence. destruct (B3 q Hne) as [G1 G2]. cbn in G1, G2.
                rewrite G2 in Hq. destruct (I6 q x Hq) as [G|G]; auto.
                left. unfold contents in *. now rewrite G1.
        * intros q Hq. destruct (B3 q Hq) as [G1 G2]. destruct (FR q Hq). cbn in *. split; congruence.
      + intros e s2 ->. split; [exact HI1|]. split; [exact FR|]. split; congruence.
    - apply post_bind. unfold direct. destruct ver.
      + pose proof (write_verified p v r s1) as H. unfold post in *. unfold mbind in *.
        destruct (cache_remove k p s1) as [[u|e] s1'] eqn:Ecr.
        2:{ unfold cache_remove in Ecr. rewrite Hc in Ecr. discriminate. }
        assert (Es : samebut p s1 s1' /\ ss_fs s1' = ss_fs s1 /\ ss_log s1' = ss_log s1 /\ ss_cache s1' = ss_cache s1).
        { pose proof Ecr as K. unfold cache_remove in K. rewrite Hc in K. injection K as <- <-. cbn.
          assert (E : ddel str_eqb (ss_cache s1) p = ss_cache s1).
          { apply (dget_None str_eqb str_eqb_eq) in C1. clear - C1.
            induction (ss_cache s1) as [|[q w] c IH]; [reflexivity|]. cbn in *.
            rewrite str_eqb_neq by (intros ->; tauto). cbn. f_equal. apply IH. tauto. }
          split; [|repeat split; auto]. split; [|split; reflexivity]. intros q Hq. cbn. now rewrite E. }
        assert (s1' = s1).
        { destruct Es as ((_ & Eb & Ei) & E1 & E2 & E3). destruct s1, s1'. cbn in *. congruence. }
        subst s1'.
        destruct (raw_write k p v s1) as [[u'|e] s2].
        * destruct (s_verify k p v r s2) as [[u''|e] s3].
          -- destruct H as (B & L & V).
             pose proof (cache_add_post p v s3 (fun v' s' => v' = v /\ samebut p s3 s' /\ ss_fs s' = ss_fs s3 /\ ss_log s' = ss_log s3 /\ dgs (ss_cache s') p = Some v) (fun _ _ => False)) as K.
             unfold post in K. destruct (cache_add k p v s3) as [[v'|e] s4]; [|exfalso; apply K; auto].
             destruct K as (-> & B4 & F4 & L4 & C4); [intros; auto|]. cbn [ret].
             assert (V4 : contents s4 p = Some v) by (unfold contents in *; congruence).
             assert (B5 : samebut p s1 s4) by (eapply samebut_trans; eassumption).
             split; [|split; [|split; [|split]]]; auto; try congruence.
             ++ eapply Inv_cache; [exact HI1|exact B5|]. right. left. congruence.
             ++ intros q Hq. destruct (FR q Hq), B5 as [B5 _]. destruct (B5 q Hq). split; congruence.
          -- destruct H as (B & Cf & _). split; [|split; [|congruence]].
             ++ eapply Inv_cache; [exact HI1|exact B|]. destruct Cf; auto.
             ++ intros q Hq. destruct (FR q Hq), B as [B _]. destruct (B q Hq). split; congruence.
        * destruct H as (B & Cf & _). split; [|split; [|congruence]].
          -- eapply Inv_cache; [exact HI1|exact B|]. destruct Cf; auto.
          -- intros q Hq. destruct (FR q Hq), B as [B _]. destruct (B q Hq). split; congruence.
      + eapply post_conseq; [apply raw_write_post| |].
        * intros u s2 (B2 & C2 & L2 & old & c & Eo & Ew & Ef). apply post_bind, cache_add_post.
          intros s3 B3 F3 L3 C3. apply post_ret.
          assert (V3 : contents s3 p = Some v).
          { unfold contents. rewrite F3, Ef. cbn. f_equal. eapply Hst; eauto. }
          assert (B5 : samebut p s1 s3) by (eapply samebut_trans; eassumption).
          split; [|split; [|split; [|split]]]; auto; try congruence.
          -- eapply Inv_cache; [exact HI1|exact B5|]. right. left. congruence.
          -- intros q Hq. destruct (FR q Hq), B5 as [B5 _]. destruct (B5 q Hq). split; congruence.
        * intros e s2 [-> _]. split; [exact HI1|]. split; [exact FR|]. congruence.
  Qed.

  Lemma s_write_any p v w s : s_write k p v w s = write_any p v w false 0 0 s.
  Proof. reflexivity. Qed.
  Lemma s_write_verify_any p v w r sl s : s_write_verify k p v w r sl s = write_any p v w true r sl s.
  Proof. reflexivity. Qed.

  (** *** One call *)
  (** What a call does besides keeping the invariant: outside of flushes an open transaction leaves
      files and log alone, and a cached pending value stays cached unless the call upsets it. *)
  Definition step_facts (t : tstate) (o : sop) (ok : bool) (s s' : sstate) : Prop :=
    (fst t = true -> is_flush o = false -> ss_fs s' = ss_fs s /\ ss_log s' = ss_log s) /\
    (forall p v, last_value (snd (track (o, ok) t)) p = Some v -> ~ upsets p (o, ok) ->
       (last_value (snd t) p = Some v -> dgs (ss_cache s) p = Some v) ->
       (last_value (snd t) p <> Some v -> True) ->
       (forall v', last_value (snd t) p = Some v' -> dgs (ss_cache s) p = Some v') ->
       dgs (ss_cache s') p = Some v).

  Lemma Inv_wrote_track t o p v : asked o = Some (p, v) -> o <> SStart -> o <> SFlush -> o <> SCommit ->
    track (o, true) t = wrote p v t.
  Proof.
    intros Ha H1 H2 H3. destruct o; try congruence; cbn [track]; rewrite ?Ha; unfold wrote;
      try reflexivity; cbn in Ha; discriminate.
  Qed.

  Lemma track_false o t : track (o, false) t = t.
  Proof. destruct o; reflexivity. Qed.

  Lemma write_facts t o p v w ver r sl s :
    Inv t s -> (ver = false -> fst t = false -> stores k p v) ->
    asked o = Some (p, v) -> is_flush o = false -> o <> SStart ->
    (upsets p (o, false)) ->
    match write_any p v w ver r sl s with
    | (Ok _, s') => Inv (track (o, true) t) s' /\ step_facts t o true s s'
    | (Exn _, s') => Inv (track (o, false) t) s' /\ step_facts t o false s s'
    end.
  Proof.
    intros HI Hst Ha Hf Hs Hu. pose proof (write_any_post t p v w ver r sl s HI Hst) as H.
    assert (Et : track (o, true) t = wrote p v t).
    { apply Inv_wrote_track; auto; intros ->; discriminate. }
    unfold post in H. destruct (write_any p v w ver r sl s) as [[u|e] s'].
    - destruct H as (H1 & H2 & H3 & H4). rewrite Et. split; [exact H1|]. split.
      + intros E _. rewrite E in H4. exact H4.
      + rewrite Et. intros q x Hq _ _ _ Hold. destruct (str_dec q p) as [->|Hne].
        * unfold wrote in Hq. destruct (fst t) eqn:E.
          -- cbn in Hq. rewrite last_value_app in Hq. cbn in Hq. rewrite str_eqb_refl in Hq. congruence.
          -- rewrite (inv_closed _ _ HI E) in Hq. discriminate.
        * destruct (H3 q Hne) as [G _]. rewrite G. apply Hold. unfold wrote in Hq.
          destruct (fst t); [|exact Hq]. cbn in Hq. rewrite last_value_app in Hq. cbn in Hq.
          rewrite str_eqb_neq in Hq by congruence. exact Hq.
    - destruct H as (H1 & H2 & H3). rewrite track_false. split; [exact H1|]. split; [auto|].
      rewrite track_false. intros q x Hq Hnu _ _ Hold. assert (q <> p).
      { intros ->. contradiction. }
      destruct (H2 q H) as [G _]. rewrite G. auto.
  Qed.

  Lemma read_facts t o p s {A} (f : str -> M sstate A) :
    (forall v s, f v s = (fst (f v s), s)) ->
    Inv t s -> (o = SRead p \/ o = SReadInt p) ->
    match mbind (s_read k p) f s with
    | (Ok _, s') => Inv (track (o, true) t) s' /\ step_facts t o true s s'
    | (Exn _, s') => Inv (track (o, false) t) s' /\ step_facts t o false s s'
    end.
  Proof.
    intros Hf HI Ho. pose proof (s_read_post p s) as H. unfold post in H. unfold mbind.
    assert (Et : forall b, track (o, b) t = t) by (intros []; destruct Ho; subst o; reflexivity).
    assert (Efl : is_flush o = false) by (destruct Ho; subst o; reflexivity).
    destruct (s_read k p s) as [[v|e] s1].
    - destruct H as (B & F & L & C & Hv).
      assert (HI1 : Inv t s1).
      { eapply Inv_cache; [exact HI|exact B|]. destruct Hv as [Hv|[_ Hv]].
        - destruct (inv_coh _ _ HI p v Hv) as [G|G]; [right; left|right; right].
          + unfold contents in *. congruence.
          + exists v. auto.
        - right. left. unfold contents in *. congruence. }
      assert (SF : forall b, step_facts t o b s s1).
      { intros b. split; [intros _ _; split; congruence|].
        rewrite Et. intros q x Hq _ _ _ Hold. specialize (Hold x Hq).
        destruct (str_dec q p) as [->|Hne].
        - destruct Hv as [Hv|[Hv _]]; congruence.
        - destruct B as [B _]. destruct (B q Hne). congruence. }
      rewrite (Hf v s1). destruct (fst (f v s1)); rewrite Et; auto.
    - destruct H as (-> & Hn & _). rewrite Et. split; [exact HI|]. split; [auto|].
      rewrite Et. intros q x Hq _ _ _ Hold. auto.
  Qed.

  Lemma nop_facts t o s b : is_flush o = false -> snd (track (o, b) t) = snd t -> step_facts t o b s s.
  Proof.
    intros Hf Et. split; [auto|]. intros p v Hq _ _ _ Hold. apply Hold. now rewrite <- Et.
  Qed.

  Lemma sstep_facts t o s : Inv t s -> (fst t = false -> plain_ok k o) ->
    match sstep k o s with
    | (Ok _, s') => Inv (track (o, true) t) s' /\ step_facts t o true s s'
    | (Exn _, s') => Inv (track (o, false) t) s' /\ step_facts t o false s s'
    end.
  Proof.
    intros HI Hp. destruct o as [p|p|p v w|p v w|p v w r sl|p v w r sl| | |]; cbn [sstep].
    - apply read_facts with (p := p); auto.
    - change (s_read_int k p ;; ret tt) with
        (mbind (mbind (s_read k p) (fun v => match str_to_int v with Ok n => ret n | Exn _ => throw EError end))
               (fun _ => ret tt)).
      assert (E : forall m s0, mbind (mbind (s_read k p) m) (fun _ : Z => @ret sstate _ tt) s0 =
                    mbind (s_read k p) (fun v => mbind (m v) (fun _ => ret tt)) s0).
      { intros m s0. unfold mbind. destruct (s_read k p s0) as [[v|e] s1]; reflexivity. }
      rewrite E. apply read_facts with (p := p); auto.
      intros v s0. unfold mbind. destruct (str_to_int v); reflexivity.
    - rewrite s_write_any. apply write_facts; auto; try discriminate; reflexivity.
    - unfold s_write_int, lift, mbind. destruct (str_to_int v) as [n|e] eqn:E.
      + assert (Hst : false = false -> fst t = false -> stores k p (dec n))
          by (intros _ h; exact (Hp h n E)).
        rewrite s_write_any. apply write_facts; auto; try discriminate; try reflexivity.
        cbn. now rewrite E.
      + split; [exact HI|]. apply nop_facts; reflexivity.
    - rewrite s_write_verify_any. apply write_facts; auto; try discriminate; reflexivity.
    - unfold s_write_verify_int, lift, mbind. destruct (str_to_int v) as [n|e] eqn:E.
      + rewrite s_write_verify_any. apply write_facts; auto; try discriminate; try reflexivity.
        cbn. now rewrite E.
      + split; [exact HI|]. apply nop_facts; reflexivity.
    - unfold s_start. rewrite Hc. cbn [negb]. unfold mbind, gets. cbn.
      destruct HI as [I1 I2 I3 I4 I5 I6]. rewrite I1. destruct (fst t) eqn:Et.
      + split; [constructor; rewrite ?Et; auto|]. apply nop_facts; reflexivity.
      + specialize (I2 eq_refl). split.
        * constructor; cbn [track fst snd s_intr ss_buf ss_intr]; [reflexivity|reflexivity| |assumption..|].
          -- rewrite I3, I2. reflexivity.
          -- intros p v Hq. destruct (I6 p v Hq) as [G|G]; [now left|]. rewrite I2 in G. discriminate.
        * split; [congruence|]. cbn. intros p v Hq. discriminate.
    - pose proof (s_flush_post t s HI) as H. unfold post in H.
      destruct (s_flush k s) as [[u|e] s'].
      + destruct H as (H1 & H2 & _). split; [exact H2|]. split; [discriminate|].
        cbn. intros p v Hq. discriminate.
      + destruct H as (H1 & _). split; [exact H1|]. split; [discriminate|].
        cbn. intros p v Hq Hu. exfalso. apply Hu. exact I.
    - pose proof (s_flush_post t s HI) as H. unfold s_commit, mbind. unfold post in H.
      destruct (s_flush k s) as [[u|e] s'].
      + destruct H as (H1 & H2 & _). cbn. split; [|split; [discriminate|intros p v Hq; discriminate]].
        destruct H2 as [J1 J2 J3 J4 J5 J6]. constructor; auto.
      + destruct H as (H1 & _). split; [exact H1|]. split; [discriminate|].
        cbn. intros p v Hq Hu. exfalso. apply Hu. exact I.
  Qed.

  (** *** Histories *)
  Lemma srun_facts ops : forall t s tr s', Inv t s -> srun k ops s = (tr, s') -> trusting k t tr ->
    Inv (fold_left (fun t e => track e t) tr t) s' /\
    (forall p, Forall (fun e => ~ upsets p e) tr ->
       (forall v, last_value (snd t) p = Some v -> dgs (ss_cache s) p = Some v) ->
       forall v, last_value (snd (fold_left (fun t e => track e t) tr t)) p = Some v ->
       dgs (ss_cache s') p = Some v).
  Proof.
    induction ops as [|o ops IH]; intros t s tr s' HI H Hp; cbn [srun] in H.
    - injection H as <- <-. auto.
    - pose proof (sstep_facts t o s HI) as Hs. destruct (sstep k o s) as [r s1].
      destruct (srun k ops s1) as [tr1 s2] eqn:Er. injection H as <- <-.
      destruct Hp as [Hpo Hps]. specialize (Hs Hpo).
      assert (Hs' : Inv (track (o, match r with Ok _ => true | Exn _ => false end) t) s1 /\
                    step_facts t o (match r with Ok _ => true | Exn _ => false end) s s1)
        by (destruct r; exact Hs).
      destruct Hs' as (H1 & H2 & H3). destruct (IH _ _ _ _ H1 Er Hps) as (G1 & G2).
      cbn [fold_left]. split; [exact G1|].
      intros p Hu Hold v Hv. inversion Hu as [|? ? Hu1 Hu2]; subst.
      apply (G2 p Hu2); [|exact Hv]. intros x Hx. apply H3; auto.
  Qed.

  Lemma Inv_init fs : Inv (false, []) (s_init fs).
  Proof.
    constructor; cbn; [reflexivity|reflexivity|reflexivity|constructor|constructor|].
    intros p v H. discriminate.
  Qed.

  Lemma srun_app ops1 : forall ops2 s, srun k (ops1 ++ ops2) s =
    let (t1, s1) := srun k ops1 s in let (t2, s2) := srun k ops2 s1 in (t1 ++ t2, s2).
  Proof.
    induction ops1 as [|o ops1 IH]; intros ops2 s; cbn [app srun].
    - destruct (srun k ops2 s); reflexivity.
    - destruct (sstep k o s) as [r s1]. rewrite IH.
      destruct (srun k ops1 s1) as [t1 s2]. destruct (srun k ops2 s2) as [t2 s3]. reflexivity.
  Qed.

  (** ** Final forms *)
  Lemma reached_Inv fs ops tr s : reached k fs ops tr s -> Inv (known tr) s.
  Proof. intros [H Hp]. eapply srun_facts; [apply Inv_init|exact H|exact Hp]. Qed.

  Lemma C07_read_l fs ops tr s p : reached k fs ops tr s ->
    match fst (s_read k p s) with
    | Ok v => contents s p = Some v \/ fst (known tr) = true /\ last_value (snd (known tr)) p = Some v
    | Exn e => e = ENotSupported /\ ss_fs s p = None \/ e = EError /\ k_unreadable k p = true
    end.
  Proof.
    intros HR. pose proof (reached_Inv _ _ _ _ HR) as HI. pose proof (s_read_post p s) as H.
    unfold post in H. destruct (s_read k p s) as [[v|e] s']; cbn [fst].
    - destruct H as (_ & _ & _ & _ & [Hv|[_ Hv]]); [|now left].
      destruct (inv_coh _ _ HI p v Hv) as [G|G]; [now left|]. right. split; [|exact G].
      destruct (fst (known tr)) eqn:E; [reflexivity|]. rewrite (inv_closed _ _ HI E) in G. discriminate.
    - destruct H as (_ & _ & H). exact H.
  Qed.

  Lemma C07_read_pending_l fs ops tr s p v : reached k fs ops tr s ->
    Forall (fun e => ~ upsets p e) tr ->
    last_value (snd (known tr)) p = Some v -> fst (s_read k p s) = Ok v.
  Proof.
    intros HR Hu Hv. pose proof HR as [H Hp].
    destruct (srun_facts ops (false, []) _ _ _ (Inv_init fs) H Hp) as (_ & G).
    specialize (G p Hu ltac:(discriminate) v Hv). pose proof (s_read_post p s) as R. unfold post in R.
    destruct (s_read k p s) as [[w|e] s'].
    - cbn. destruct R as (_ & _ & _ & _ & [R|[R _]]); congruence.
    - destruct R as (_ & R & _). congruence.
  Qed.

  Lemma C07_read_written_l fs ops tr s p v o s' : reached k fs ops tr s ->
    (fst (known tr) = false -> plain_ok k o) ->
    asked o = Some (p, v) -> sstep k o s = (Ok tt, s') -> fst (s_read k p s') = Ok v.
  Proof.
    intros HR Hpo Ha Hs. pose proof (reached_Inv _ _ _ _ HR) as HI.
    assert (G : dgs (ss_cache s') p = Some v).
    { destruct o as [q|q|q x w|q x w|q x w r sl|q x w r sl| | |]; cbn in Ha; try discriminate.
      - injection Ha as -> ->. pose proof (write_any_post (known tr) p v w false 0 0 s HI (fun _ h => Hpo h)) as H.
        unfold post in H. cbn [sstep] in Hs. rewrite s_write_any in Hs. rewrite Hs in H. apply H.
      - destruct (str_to_int x) as [n|] eqn:E; [|discriminate]. injection Ha as -> <-.
        pose proof (write_any_post (known tr) p (dec n) w false 0 0 s HI
                      (fun _ h => Hpo h n E)) as H.
        unfold post in H. cbn [sstep] in Hs. unfold s_write_int, mbind, lift in Hs. rewrite E in Hs.
        rewrite s_write_any in Hs. rewrite Hs in H. apply H.
      - injection Ha as -> ->. pose proof (write_any_post (known tr) p v w true r sl s HI ltac:(congruence)) as H.
        unfold post in H. cbn [sstep] in Hs. rewrite s_write_verify_any in Hs. rewrite Hs in H. apply H.
      - destruct (str_to_int x) as [n|] eqn:E; [|discriminate]. injection Ha as -> <-.
        pose proof (write_any_post (known tr) p (dec n) w true r sl s HI ltac:(congruence)) as H.
        unfold post in H. cbn [sstep] in Hs. unfold s_write_verify_int, mbind, lift in Hs. rewrite E in Hs.
        rewrite s_write_verify_any in Hs. rewrite Hs in H. apply H. }
    pose proof (s_read_post p s') as R. unfold post in R.
    destruct (s_read k p s') as [[w|e] s''].
    - cbn. destruct R as (_ & _ & _ & _ & [R|[R _]]); congruence.
    - destruct R as (_ & R & _). congruence.
  Qed.

  Lemma C08_deferred_l fs ops1 tr1 s1 ops2 tr2 s2 : reached k fs ops1 tr1 s1 ->
    fst (known tr1) = true -> Forall (fun o => is_flush o = false) ops2 ->
    srun k ops2 s1 = (tr2, s2) -> ss_fs s2 = ss_fs s1 /\ ss_log s2 = ss_log s1.
  Proof.
    intros HR Ho Hf H. pose proof (reached_Inv _ _ _ _ HR) as HI. clear HR.
    revert Ho HI. generalize (known tr1) as t. intros t Ho HI. revert t s1 tr2 Ho HI H.
    induction Hf as [|o ops Hfo Hfs IH]; intros t s tr Ho HI H; cbn [srun] in H.
    - injection H as <- <-. auto.
    - pose proof (sstep_facts t o s HI ltac:(congruence)) as Hs. destruct (sstep k o s) as [r s3].
      destruct (srun k ops s3) as [tr3 s4] eqn:Er. injection H as <- <-.
      assert (Hs' : Inv (track (o, match r with Ok _ => true | Exn _ => false end) t) s3 /\
                    step_facts t o (match r with Ok _ => true | Exn _ => false end) s s3)
        by (destruct r; exact Hs).
      destruct Hs' as (H1 & H2 & _). destruct (H2 Ho Hfo) as [F L].
      assert (Ho' : fst (track (o, match r with Ok _ => true | Exn _ => false end) t) = true).
      { destruct r; [|rewrite track_false; exact Ho]. destruct o; try discriminate; cbn; try exact Ho; rewrite ?Ho; try reflexivity;
          destruct (str_to_int v); rewrite ?Ho; auto. }
      destruct (IH _ _ _ Ho' H1 Er). split; congruence.
  Qed.

  Lemma C08_flush_l fs ops tr s s' : reached k fs ops tr s -> s_flush k s = (Ok tt, s') ->
    fst (known tr) = true /\
    ss_log s' = ss_log s ++ merged (snd (known tr)) /\
    (forall p v, last_value (snd (known tr)) p = Some v -> contents s' p = Some v) /\
    (forall p, last_value (snd (known tr)) p = None -> ss_fs s' p = ss_fs s p).
  Proof.
    intros HR H. pose proof (s_flush_post _ _ (reached_Inv _ _ _ _ HR)) as P. unfold post in P.
    rewrite H in P. destruct P as (P1 & _ & P2 & P3 & P4). auto.
  Qed.

  Lemma C08_commit_l fs ops tr s s' : reached k fs ops tr s -> s_commit k s = (Ok tt, s') ->
    fst (known tr) = true /\
    ss_log s' = ss_log s ++ merged (snd (known tr)) /\
    (forall p v, last_value (snd (known tr)) p = Some v -> contents s' p = Some v) /\
    (forall p, last_value (snd (known tr)) p = None -> ss_fs s' p = ss_fs s p) /\
    fst (s_start k s') = Ok tt.
  Proof.
    intros HR H. unfold s_commit, mbind in H. destruct (s_flush k s) as [[u|e] s1] eqn:E; [|discriminate].
    destruct u. destruct (C08_flush_l _ _ _ _ _ HR E) as (G1 & G2 & G3 & G4).
    injection H as <-. split; [exact G1|]. split; [exact G2|]. split; [exact G3|]. split; [exact G4|].
    unfold s_start. rewrite Hc. reflexivity.
  Qed.

  Lemma cache_remove_run p s : exists s1, cache_remove k p s = (Ok tt, s1) /\
    dgs (ss_cache s1) p = None /\ ss_fs s1 = ss_fs s.
  Proof.
    unfold cache_remove. rewrite Hc. eexists. split; [reflexivity|]. cbn. split; [|reflexivity].
    apply dget_ddel_same.
  Qed.

  Lemma read_fresh p s c : dgs (ss_cache s) p = None -> ss_fs s p = Some c -> k_unreadable k p = false ->
    exists s', s_read k p s = (Ok (strip c), s').
  Proof.
    intros H1 H2 H3. unfold s_read, cache_get, cache_add, mbind, gets. rewrite Hc, H1, H2, H3.
    eexists. reflexivity.
  Qed.

  Lemma flush_one_ok p ti s : st_verify ti = true ->
    (exists old, ss_fs s p = Some old) -> k_unreadable k p = false ->
    (forall old, exists c, k_write k p old (st_val ti) = Some c /\ strip c = st_val ti) ->
    exists s', flush_one k (p, ti) s = (Ok tt, s').
  Proof.
    intros Hv (old & Ho) Hr Hw. destruct (Hw old) as (c & Ew & Es).
    unfold flush_one. rewrite Hv. unfold mbind, cache_remove. rewrite Hc. cbn [modify].
    unfold raw_write, mbind, gets. cbn [s_cache ss_fs]. rewrite Ho, Ew. cbn [modify].
    unfold s_verify. set (s2 := s_log _ _).
    assert (E : exists s3, verify_loop k (Z.to_nat (st_retries ti)) p (st_val ti) s2 = (Ok tt, s3)).
    { assert (F2 : ss_fs s2 p = Some c) by (subst s2; cbn; apply fs_upd_same). clearbody s2.
      destruct (cache_remove_run p s2) as (s3 & E3 & C3 & F3).
      destruct (read_fresh p s3 c C3 ltac:(congruence) Hr) as (s4 & E4). exists s4.
      destruct (Z.to_nat (st_retries ti)) as [|n]; cbn [verify_loop]; unfold mbind;
        rewrite E3, E4, Es, str_eqb_refl; reflexivity. }
    destruct E as (s3 & ->). unfold cache_add. rewrite Hc. cbn. eexists. reflexivity.
  Qed.

  Lemma flush_loop_ok b : forall s, 
    Forall (fun e => st_verify (snd e) = true) b ->
    (forall p ti, In (p, ti) b -> k_unreadable k p = false /\ (exists old, ss_fs s p = Some old) /\
       forall old, exists c, k_write k p old (st_val ti) = Some c /\ strip c = st_val ti) ->
    exists s', mfor b (flush_one k) s = (Ok tt, s').
  Proof.
    induction b as [|[p ti] b IH]; intros s Hv H; [eexists; reflexivity|].
    inversion Hv as [|? ? Hv1 Hv2]; subst. destruct (H p ti (or_introl eq_refl)) as (H1 & H2 & H3).
    destruct (flush_one_ok p ti s Hv1 H2 H1 H3) as (s1 & E1).
    pose proof (flush_one_post p ti s Hv1) as P. unfold post in P. rewrite E1 in P.
    destruct P as ((B & _) & _ & V & _).
    destruct (IH s1 Hv2) as (s' & E').
    - intros q u Hq. destruct (H q u (or_intror Hq)) as (G1 & G2 & G3). split; [exact G1|]. split; [|exact G3].
      destruct (str_dec q p) as [->|Hne].
      + unfold contents in V. destruct (ss_fs s1 p); [eauto|discriminate].
      + destruct (B q Hne) as [-> _]. exact G2.
    - exists s'. cbn [mfor]. unfold mbind. rewrite E1. exact E'.
  Qed.

  Lemma C08_commit_succeeds_l fs ops tr s : reached k fs ops tr s -> fst (known tr) = true ->
    (forall p v, last_value (snd (known tr)) p = Some v ->
       k_unreadable k p = false /\ (exists old, ss_fs s p = Some old) /\
       forall old, exists c, k_write k p old v = Some c /\ strip c = v) ->
    fst (s_commit k s) = Ok tt.
  Proof.
    intros HR Ho H. pose proof (reached_Inv _ _ _ _ HR) as [I1 I2 I3 I4 I5 I6].
    unfold s_commit, s_flush, mbind. rewrite Hc. cbn [negb gets]. rewrite I1, Ho. cbn [negb].
    destruct (flush_loop_ok (ss_buf s) s I4) as (s' & E).
    - intros p ti Hin. apply H. rewrite <- merged_dget, <- I3, dget_ents.
      rewrite (In_dget str_eqb str_eqb_eq _ _ _ I5 Hin). reflexivity.
    - unfold gets. rewrite E. reflexivity.
  Qed.

  Lemma C09_broken_l fs ops tr s s' e : reached k fs ops tr s -> s_commit k s = (Exn e, s') ->
    fst (known tr) = true ->
    (exists pre p v post_, merged (snd (known tr)) = pre ++ (p, v) :: post_ /\
      (forall q w, In (q, w) pre -> contents s' q = Some w) /\
      (forall q, ~ In q (map fst pre) -> q <> p -> ss_fs s' q = ss_fs s q) /\
      (ss_log s' = ss_log s ++ pre /\ ss_fs s' p = ss_fs s p \/
       ss_log s' = ss_log s ++ pre ++ [(p, v)] /\ (contents s' p <> Some v \/ k_unreadable k p = true))) /\
    fst (s_start k s') = Exn EError.
  Proof.
    intros HR H Ho. pose proof (reached_Inv _ _ _ _ HR) as HI.
    pose proof (s_flush_post _ _ HI) as P. unfold post in P.
    unfold s_commit, mbind in H. destruct (s_flush k s) as [[u|e'] s1] eqn:E; [discriminate|].
    injection H as -> <-. destruct P as (J & [[P _]|[_ P]]); [congruence|]. split.
    - destruct P as (pre & p & ti & r & Eb & _ & _ & Hp & Hf & _ & Hl).
      exists (ents pre), p, (st_val ti), (ents r). split; [|split; [|split]].
      + rewrite <- (inv_ents _ _ HI), Eb. unfold ents. now rewrite map_app.
      + intros q w Hq. unfold ents in Hq. apply in_map_iff in Hq as ((q' & u) & [= <- <-] & Hq).
        now apply Hp.
      + intros q Hq Hne. rewrite ents_keys in Hq. now apply Hf.
      + exact Hl.
    - unfold s_start. rewrite Hc. cbn. unfold mbind, gets. cbn.
      rewrite (inv_intr _ _ J), Ho. reflexivity.
  Qed.
End Cached.

(** ** Without the cache *)
Section Uncached.
  Variable k : senv.
  Hypothesis Hn : se_cache k = false.

  Lemma read_uncached p s : s_read k p s = (on_disk k s p, s).
  Proof.
    unfold s_read, cache_get, mbind, gets, on_disk. rewrite Hn. destruct (ss_fs s p); [|reflexivity].
    destruct (k_unreadable k p); [reflexivity|]. unfold cache_add. now rewrite Hn.
  Qed.

  Lemma uncached_step o s : ss_intr s = false -> ss_intr (snd (sstep k o s)) = false.
  Proof.
    intros H.
    assert (V : forall n p v s, ss_intr s = false -> ss_intr (snd (verify_loop k n p v s)) = false).
    { induction n as [|n IH]; intros p v s0 H0; cbn [verify_loop]; unfold cache_remove; rewrite Hn;
        unfold mbind; cbn [ret]; rewrite read_uncached; destruct (on_disk k s0 p); cbn; auto;
        destruct (str_eqb v a); cbn; auto. }
    assert (W : forall p v, ss_intr (snd (raw_write k p v s)) = false).
    { intros p v. unfold raw_write, mbind, gets. destruct (ss_fs s p); [|exact H].
      destruct (k_write k p s0 v); cbn; exact H. }
    assert (W1 : forall p v w, ss_intr (snd (s_write k p v w s)) = false).
    { intros p v w. unfold s_write, cache_remove, cache_add. rewrite Hn. unfold mbind. cbn [ret gets].
      unfold gets. rewrite H. specialize (W p v). destruct (raw_write k p v s) as [[u|e] s1]; exact W. }
    assert (W2 : forall p v w r sl, ss_intr (snd (s_write_verify k p v w r sl s)) = false).
    { intros p v w r sl. unfold s_write_verify, cache_remove, cache_add, s_verify. rewrite Hn. unfold mbind. cbn [ret].
      unfold gets. rewrite H. specialize (W p v). destruct (raw_write k p v s) as [[u|e] s1]; [|exact W].
      specialize (V (Z.to_nat r) p v s1 W). destruct (verify_loop k (Z.to_nat r) p v s1) as [[u'|e] s2]; exact V. }
    destruct o; cbn [sstep].
    - unfold mbind. rewrite read_uncached. destruct (on_disk k s p); exact H.
    - unfold s_read_int, mbind. rewrite read_uncached. destruct (on_disk k s p); [|exact H].
      destruct (str_to_int a); exact H.
    - apply W1.
    - unfold s_write_int, mbind, lift. destruct (str_to_int v); [apply W1|exact H].
    - apply W2.
    - unfold s_write_verify_int, mbind, lift. destruct (str_to_int v); [apply W2|exact H].
    - unfold s_start. rewrite Hn. exact H.
    - unfold s_flush. rewrite Hn. exact H.
    - unfold s_commit, s_flush, mbind. rewrite Hn. reflexivity.
  Qed.

  Lemma uncached_run ops : forall s, ss_intr s = false -> ss_intr (snd (srun k ops s)) = false.
  Proof.
    induction ops as [|o ops IH]; intros s H; [exact H|]. cbn [srun].
    pose proof (uncached_step o s H) as H1. destruct (sstep k o s) as [r s1].
    specialize (IH s1 H1). destruct (srun k ops s1) as [tr s2]. exact IH.
  Qed.
End Uncached.
