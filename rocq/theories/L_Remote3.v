(** Lemmas about MSR access on a remote host: every call does the same as on the local host. *)
From Coq Require Import ZifyBool Sorted.
From Verif Require Import Base L_Base L_Monad M_CPUInfo S_CPUInfo L_CPUInfo M_MSR S_MSR L_MSR L_MSR2 L_MSR3 M_Remote S_Remote L_Remote L_Remote2.

(** ** The CPUs of the verification information are different *)

Definition vi_good (P : Z -> Z -> Prop) (vi : list (Z * list (Z * (scope * list Z)))) : Prop :=
  forall v d a sn cl, dget Z.eqb vi v = Some d -> dget Z.eqb d a = Some (sn, cl) -> NoDup cl /\ forall c, In c cl -> P c a.

Lemma NoDup_snoc (l : list Z) x : NoDup l -> ~ In x l -> NoDup (l ++ [x]).
Proof.
  intros H Hx. apply NoDup_rev in H. rewrite <- (rev_involutive (l ++ [x])). apply NoDup_rev. rewrite rev_app_distr. cbn.
  constructor; [now rewrite <- in_rev|exact H].
Qed.

Lemma vi_good_mono (P Q : Z -> Z -> Prop) vi : (forall c a, P c a -> Q c a) -> vi_good P vi -> vi_good Q vi.
Proof. intros H G v d a sn cl E1 E2. destruct (G v d a sn cl E1 E2). split; auto. Qed.

Lemma vi_add_good (P : Z -> Z -> Prop) vi c a t : vi_good P vi -> ~ P c a ->
  vi_good (fun c' a' => P c' a' \/ (c' = c /\ a' = a)) (verify_info_add vi c a t).
Proof.
  intros G Hn. unfold verify_info_add. destruct (ti_verify t); cbn [negb]; [|eapply vi_good_mono; [|exact G]; auto].
  set (d0 := match dget Z.eqb vi (ti_val t) with Some d => d | None => [] end).
  assert (G0 : forall a' sn cl, dget Z.eqb d0 a' = Some (sn, cl) -> NoDup cl /\ forall c, In c cl -> P c a').
  { intros a' sn cl E. unfold d0 in E. destruct (dget Z.eqb vi (ti_val t)) as [d|] eqn:Ed; [|discriminate]. eauto. }
  intros v d a' sn cl E1 E2. destruct (Z.eq_dec v (ti_val t)) as [->|Hv].
  - rewrite (dget_dset_same Z.eqb Zeqb_spec) in E1. injection E1 as <-. destruct (Z.eq_dec a' a) as [->|Ha].
    + rewrite (dget_dset_same Z.eqb Zeqb_spec) in E2. injection E2 as <- <-.
      destruct (dget Z.eqb d0 a) as [[sn l]|] eqn:El.
      * destruct (G0 a sn l El) as (N & I). split; [apply NoDup_snoc; [exact N|auto]|].
        intros c' Hc. apply in_app_iff in Hc as [Hc|[<- |[]]]; auto.
      * cbn [app]. split; [constructor; [easy|constructor]|]. intros c' [<- |[]]. auto.
    + rewrite (dget_dset_other Z.eqb Zeqb_spec) in E2 by exact Ha. destruct (G0 a' sn cl E2). split; auto.
  - rewrite (dget_dset_other Z.eqb Zeqb_spec) in E1 by exact Hv. destruct (G v d a' sn cl E1 E2). split; auto.
Qed.

Lemma vi_inner c : forall (m : list (Z * tinfo)) (P : Z -> Z -> Prop) vi, vi_good P vi -> NoDup (map fst m) ->
  (forall a, In a (map fst m) -> ~ P c a) ->
  vi_good (fun c' a' => P c' a' \/ (c' = c /\ In a' (map fst m)))
    (fold_left (fun acc r => verify_info_add acc c (fst r) (snd r)) m vi).
Proof.
  induction m as [|[a t] m IH]; intros P vi G Hn Hp; cbn [fold_left map fst snd] in *.
  - eapply vi_good_mono; [|exact G]. auto.
  - inversion Hn as [|? ? Ha Hn']; subst. eapply vi_good_mono; [|apply (IH (fun c' a' => P c' a' \/ (c' = c /\ a' = a)))].
    + cbn beta. intros c' a' [[H|(-> & ->)]|(-> & H)]; auto; right; (split; [reflexivity|]); [now left|now right].
    + apply vi_add_good; [exact G|]. apply Hp. now left.
    + exact Hn'.
    + intros a' Ha' [H|(_ & ->)]; [|contradiction]. apply (Hp a'); [now right|exact H].
Qed.

Lemma vi_outer : forall (buf : list (Z * list (Z * tinfo))) (P : Z -> Z -> Prop) vi, vi_good P vi -> NoDup (map fst buf) ->
  (forall c m, In (c, m) buf -> NoDup (map fst m)) -> (forall c a, In c (map fst buf) -> ~ P c a) ->
  vi_good (fun _ _ => True) (fold_left (fun acc e => fold_left (fun acc r => verify_info_add acc (fst e) (fst r) (snd r)) (snd e) acc) buf vi).
Proof.
  induction buf as [|[c m] buf IH]; intros P vi G Hn Hm Hp; cbn [fold_left map fst snd] in *.
  - eapply vi_good_mono; [|exact G]. auto.
  - inversion Hn as [|? ? Hc Hn']; subst. eapply IH.
    + apply (vi_inner c m P vi G); [apply (Hm c m); now left|]. intros a _. apply Hp. now left.
    + exact Hn'.
    + intros c' m' H. apply (Hm c' m'). now right.
    + intros c' a' Hc' [H|(-> & _)]; [|contradiction]. apply (Hp c' a'); [now right|exact H].
Qed.

Section Same.
  Variable env : menv.
  Notation dom := (me_dom env).
  Notation ci := (me_ci env).
  Notation online := (ci_online (me_ci env)).
  Variable sc : Z -> scope.
  Hypothesis Hwf : wf_ci ci.
  Hypothesis Hsc : forall a, scope_right env a (sc a).
  Notation Buf0 := (Buf0 env sc).

  Lemma vi_nodup s0 v d a sn cl : Buf0 s0 -> In (v, d) (verify_info (ms_tbuf s0)) -> In (a, (sn, cl)) d -> NoDup cl.
  Proof.
    intros B Hd Ha. destruct (verify_info_spec sc (ms_tbuf s0)) as ((Hnd & Hin) & _).
    { intros c m a0 t Hm Ht. eapply b0_ios; [exact B|]. eapply buf_entry; eauto. }
    destruct (Hin v d Hd) as (Hnd2 & _).
    assert (G : vi_good (fun _ _ => True) (verify_info (ms_tbuf s0))).
    { unfold verify_info. apply (vi_outer (ms_tbuf s0) (fun _ _ => False)); [intros v0 d0 a0 sn0 cl0 E; discriminate| | |auto];
        [apply B|]. intros c m H. exact (b0_nodup2 _ _ _ B c m H). }
    eapply G; [apply (In_dget Z.eqb Zeqb_spec); eauto|apply (In_dget Z.eqb Zeqb_spec); eauto].
  Qed.

  Definition G0 (s : mstate) : Prop := same env s /\ ms_faults s = [].

  Definition pres {A} (m : M mstate A) : Prop := forall s, G0 s -> post m s (fun _ s' => G0 s') (fun _ _ => True).

  Lemma pres_bind {A B} (m : M mstate A) (f : A -> M mstate B) : pres m -> (forall x, pres (f x)) -> pres (mbind m f).
  Proof. intros H1 H2 s Hs. apply post_bind. eapply post_conseq; [apply (H1 s Hs)| |auto]. intros x s' Hs'. now apply H2. Qed.

  Lemma pres_ret {A} (x : A) : pres (ret x).
  Proof. intros s Hs. now apply post_ret. Qed.

  Lemma pres_throw {A} e : pres (throw e : M mstate A).
  Proof. intros s Hs. now apply post_throw. Qed.

  Lemma pres_lift {A} (r : res A) : pres (lift r).
  Proof. intros s Hs. apply post_lift; auto. Qed.

  Lemma pres_gets {A} (g : mstate -> A) : pres (gets g).
  Proof. intros s Hs. now apply post_gets. Qed.

  Lemma pres_mfor {A} (l : list A) b : (forall x, In x l -> pres (b x)) -> pres (mfor l b).
  Proof.
    induction l as [|x l IH]; intros H; cbn [mfor]; [apply pres_ret|]. apply pres_bind; [apply H; now left|]. intros _. apply IH.
    intros; apply H; now right.
  Qed.

  Lemma pres_mmap {A B} (l : list A) (b : A -> M mstate B) : (forall x, In x l -> pres (b x)) -> pres (mmap l b).
  Proof.
    induction l as [|x l IH]; intros H; cbn [mmap]; [apply pres_ret|]. apply pres_bind; [apply H; now left|]. intros y.
    apply pres_bind; [|intros; apply pres_ret]. apply IH. intros; apply H; now right.
  Qed.

  Lemma same_ext s s' : ms_cache s' = ms_cache s -> same env s -> same env s'.
  Proof. intros E H a c x Hc Hx Hd. rewrite !(cache_get_ext env s s' _ _ E). now apply H. Qed.

  Lemma pres_add a c v : In c online -> pres (cache_add env a c v (sc a)).
  Proof.
    intros Hc s (HS & HF). eapply post_conseq; [apply (cache_add_post env Hwf a c v (sc a) s (Hsc a) Hc)| |auto].
    intros u s' (C & F & G). split; [|congruence]. intros a' x y Hx Hy Ed. rewrite (G a' x Hx), (G a' y Hy).
    destruct (me_cache env && (a' =? a)) eqn:E; cbn [andb]; [|now apply HS].
    apply andb_prop in E as (_ & E). apply Z.eqb_eq in E. subst a'. rewrite Ed, (HS a x y Hx Hy Ed). reflexivity.
  Qed.

  Lemma pres_remove a c : In c online -> pres (cache_remove env a c (sc a)).
  Proof.
    intros Hc s (HS & HF). eapply post_conseq; [apply (cache_remove_post env Hwf a c (sc a) s (Hsc a) Hc)| |auto].
    intros u s' (C & F & G). split; [|congruence]. intros a' x y Hx Hy Ed. rewrite (G a' x Hx), (G a' y Hy).
    destruct (a' =? a) eqn:E; cbn [andb]; [|now apply HS].
    apply Z.eqb_eq in E. subst a'. rewrite Ed, (HS a x y Hx Hy Ed). reflexivity.
  Qed.

  Lemma pres_io : pres io.
  Proof. intros s (HS & HF). unfold post. rewrite (io_free _ HF). now split. Qed.

  Lemma pres_mod g : (forall s, ms_cache (g s) = ms_cache s /\ ms_faults (g s) = ms_faults s) -> pres (modify g).
  Proof.
    intros H s (HS & HF). destruct (H s) as (E1 & E2). apply post_modify. split; [now apply (same_ext s)|congruence].
  Qed.

  Lemma pres_hw_read a c : pres (hw_read env a c).
  Proof. apply pres_bind; [apply pres_io|]. intros. apply pres_gets. Qed.

  Lemma pres_hw_write a c v : pres (hw_write env a c v).
  Proof. apply pres_bind; [apply pres_io|]. intros _. apply pres_mod. intros s. now split. Qed.

  Lemma pres_read_one a c : In c online -> pres (read_one env a (sc a) c).
  Proof.
    intros Hc. unfold read_one. apply pres_bind; [apply pres_gets|]. intros [v|]; [apply pres_ret|].
    apply pres_bind; [apply pres_hw_read|]. intros v. apply pres_bind; [now apply pres_add|]. intros _. apply pres_ret.
  Qed.

  Lemma pres_read_cpus a l : (forall c, In c l -> In c online) -> pres (read_cpus env a l (sc a)).
  Proof. intros Hl. apply pres_mmap. intros c Hc. apply pres_read_one. now apply Hl. Qed.

  Lemma pres_removes a l : (forall c, In c l -> In c online) -> pres (mfor l (fun c => cache_remove env a c (sc a))).
  Proof. intros Hl. apply pres_mfor. intros c Hc. apply pres_remove. now apply Hl. Qed.

  Lemma pres_verify a v l : (forall c, In c l -> In c online) -> pres (verify env a v l (sc a)).
  Proof.
    intros Hl. unfold verify. apply pres_bind; [now apply pres_removes|]. intros _. apply pres_mfor. intros c Hc.
    apply pres_bind; [apply pres_read_one; now apply Hl|]. intros [c' x]. destruct (x =? v); [apply pres_ret|apply pres_throw].
  Qed.

  Lemma pres_write_one a v vf c : In c online -> pres (write_one env a v (sc a) vf c).
  Proof.
    intros Hc. unfold write_one. apply pres_bind; [apply pres_gets|]. intros [x|]; [apply pres_ret|].
    apply pres_bind; [apply pres_gets|]. intros i. apply pres_bind; [|intros _; now apply pres_add].
    destruct (negb i).
    - destruct (to_bytes_ok v); [apply pres_hw_write|apply pres_throw].
    - unfold add_for_transaction. destruct (negb (me_cache env)); [apply pres_throw|]. apply pres_mod. intros s. now split.
  Qed.

  Lemma pres_write a v cpus vf : pres (write env a v cpus (sc a) vf).
  Proof.
    intros s Hs. unfold write. apply post_bind, post_lift; [|auto]. intros l El. pose proof (normalized_online env cpus l El) as Hl.
    revert s Hs. change (pres (mfor l (fun c => cache_remove env a c (sc a));; mfor l (write_one env a v (sc a) vf);;
      let! intr := gets ms_intr in if vf && negb intr then verify env a v l (sc a) else ret tt)).
    apply pres_bind; [now apply pres_removes|]. intros _. apply pres_bind.
    { apply pres_mfor. intros c Hc. apply pres_write_one. now apply Hl. }
    intros _. apply pres_bind; [apply pres_gets|]. intros i. destruct (vf && negb i); [now apply pres_verify|apply pres_ret].
  Qed.

  Lemma pres_group a b val l : forall acc, (forall c, In c l -> In c online) -> pres (group_writes env a b val (sc a) l acc).
  Proof.
    induction l as [|c r IH]; intros acc Hl; cbn [group_writes]; [apply pres_ret|].
    apply pres_bind; [apply pres_read_one; apply Hl; now left|]. intros [c' old]. apply pres_bind; [apply pres_lift|]. intros n.
    destruct (old =? n); apply IH; intros; apply Hl; now right.
  Qed.

  Lemma pres_write_bits a b val cpus vf : pres (write_bits env a b val cpus (sc a) vf).
  Proof.
    intros s Hs. unfold write_bits. apply post_bind, post_lift; [|auto]. intros l El. pose proof (normalized_online env cpus l El) as Hl.
    revert s Hs. change (pres (let! groups := group_writes env a b val (sc a) l [] in
      mfor groups (fun g => write env a (fst g) (Some (snd g)) (sc a) vf))).
    apply pres_bind; [now apply pres_group|]. intros gs. apply pres_mfor. intros g _. apply pres_write.
  Qed.

  Lemma pres_transaction_write buf : pres (transaction_write env buf).
  Proof.
    apply pres_mfor. intros e _. apply pres_mfor. intros r _. destruct (to_bytes_ok _); [apply pres_hw_write|apply pres_throw].
  Qed.

  Lemma pres_verify_all s0 : Buf0 s0 -> pres (verify_all env (ms_tbuf s0)).
  Proof.
    intros B. unfold verify_all. apply pres_mfor. intros [v d] Hd. apply pres_mfor. intros [a [sn cl]] Ha. cbn [fst snd] in *.
    destruct (vi_facts env sc s0 B v d a sn cl Hd Ha) as (-> & Hcl). now apply pres_verify.
  Qed.

  Lemma flush_G0 s : G0 s -> Buf0 s -> post (flush_transaction env) s (fun _ s' => G0 s') (fun _ _ => True).
  Proof.
    intros Hs B. unfold flush_transaction. apply post_bind, post_gets, post_bind, post_gets.
    destruct (negb (me_cache env) || negb (ms_intr s)); [now apply post_ret|].
    destruct (ms_tbuf s) as [|x bf] eqn:Eb; [now apply post_ret|]. rewrite <- Eb. clear x bf Eb.
    assert (P : pres (transaction_write env (ms_tbuf s);; modify (set_tbuf []);; verify_all env (ms_tbuf s);; ret true)); [|exact (P s Hs)].
    apply pres_bind; [apply pres_transaction_write|]. intros _. apply pres_bind; [apply pres_mod; intros s1; now split|]. intros _.
    apply pres_bind; [now apply pres_verify_all|]. intros _. apply pres_ret.
  Qed.

  Lemma mstep_G0 o s : op_scoped sc o -> G0 s -> Buf0 s -> post (mstep env o) s (fun _ s' => G0 s') (fun _ _ => True).
  Proof.
    intros Ho Hs B. destruct o as [a cpus sn|a v cpus sn vf|a b val cpus sn vf| | |]; cbn [mstep op_scoped] in *.
    - subst sn. unfold read. apply post_bind, post_lift; [|auto]. intros l El. apply pres_read_cpus; [|exact Hs].
      exact (normalized_online env cpus l El).
    - subst sn. apply pres_bind; [apply pres_write|intros; apply pres_ret|exact Hs].
    - destruct Ho as (-> & _). apply pres_bind; [apply pres_write_bits|intros; apply pres_ret|exact Hs].
    - apply pres_bind; [|intros; apply pres_ret|exact Hs]. unfold start_transaction. destruct (negb _); [apply pres_ret|].
      apply pres_bind; [apply pres_gets|]. intros [|]; [apply pres_throw|]. apply pres_mod. intros s1; now split.
    - apply post_bind. eapply post_conseq; [apply (flush_G0 s Hs B)| |auto]. intros x s1 H1. now apply post_ret.
    - apply post_bind. unfold commit_transaction. apply post_bind, post_gets. destruct (negb (ms_intr s)); [now apply post_throw|].
      apply post_bind. eapply post_conseq; [apply (flush_G0 s Hs B)| |auto]. intros x s1 H1. apply post_modify, post_ret.
      destruct H1. split; [eapply same_ext; [|eassumption]; reflexivity|assumption].
  Qed.

  (** *** Calls that succeed in the same way *)

  Definition agree {A} (m1 m2 : M mstate A) (s : mstate) : Prop := forall r s', m1 s = (Ok r, s') <-> m2 s = (Ok r, s').
  Definition sim {A} (m1 m2 : M mstate A) : Prop := forall s, G0 s -> agree m1 m2 s.

  Lemma agree_refl {A} (m : M mstate A) s : agree m m s.
  Proof. intros r s'. reflexivity. Qed.

  Lemma agree_eq {A} (m1 m2 : M mstate A) s : m1 s = m2 s -> agree m1 m2 s.
  Proof. intros E r s'. now rewrite E. Qed.

  Lemma agree_bind {A B} (m1 m2 : M mstate A) (f1 f2 : A -> M mstate B) s :
    agree m1 m2 s -> (forall x s', m2 s = (Ok x, s') -> agree (f1 x) (f2 x) s') -> agree (mbind m1 f1) (mbind m2 f2) s.
  Proof.
    intros H1 H2 r s'. unfold mbind. split.
    - destruct (m1 s) as [[x|e] s1] eqn:E; [|discriminate]. apply H1 in E. rewrite E. now apply (H2 x s1 E).
    - destruct (m2 s) as [[x|e] s1] eqn:E; [|discriminate]. pose proof (proj2 (H1 x s1) E) as E1. rewrite E1. now apply (H2 x s1 eq_refl).
  Qed.

  Lemma sim_refl {A} (m : M mstate A) : sim m m.
  Proof. intros s _. apply agree_refl. Qed.

  Lemma sim_bind {A B} (m1 m2 : M mstate A) (f1 f2 : A -> M mstate B) :
    sim m1 m2 -> pres m2 -> (forall x, sim (f1 x) (f2 x)) -> sim (mbind m1 f1) (mbind m2 f2).
  Proof.
    intros H1 H2 H3 s Hs. apply agree_bind; [now apply H1|]. intros x s' E. apply H3. specialize (H2 s Hs). unfold post in H2. now rewrite E in H2.
  Qed.

  Lemma sim_lift {A B} (r : res A) (f1 f2 : A -> M mstate B) :
    (forall x, r = Ok x -> sim (f1 x) (f2 x)) -> sim (mbind (lift r) f1) (mbind (lift r) f2).
  Proof.
    intros H s Hs. apply agree_bind; [apply agree_refl|]. intros x s' E. unfold lift in E. destruct r as [y|e]; [|discriminate].
    injection E as -> ->. now apply H.
  Qed.

  Lemma sim_mfor {A} (l : list A) b1 b2 : (forall x, In x l -> sim (b1 x) (b2 x)) -> (forall x, In x l -> pres (b2 x)) -> sim (mfor l b1) (mfor l b2).
  Proof.
    induction l as [|x l IH]; intros H1 H2; cbn [mfor]; [apply sim_refl|].
    apply sim_bind; [apply H1; now left|apply H2; now left|]. intros _. apply IH; intros; [apply H1|apply H2]; now right.
  Qed.

  Lemma sim_trans {A} (m1 m2 m3 : M mstate A) : sim m1 m2 -> sim m2 m3 -> sim m1 m3.
  Proof. intros H1 H2 s Hs r s'. rewrite (H1 s Hs r s'). apply (H2 s Hs r s'). Qed.

  Lemma sim_read a l : NoDup l -> (forall c, In c l -> In c online) -> sim (r_read_cpus env a l (sc a)) (read_cpus env a l (sc a)).
  Proof. intros Hn Hl s (HS & HF). apply agree_eq. now apply (r_read_cpus_same env sc Hwf Hsc). Qed.

  Lemma normalized_nodup cpus l : normalize_cpus ci cpus false = Ok l -> NoDup l.
  Proof.
    destruct cpus as [l0|]; intros E.
    - apply normalize_in_ok in E. destruct E as (-> & _). apply NoDup_dedup.
    - injection E as <-. apply (Permutation.Permutation_NoDup (Permutation.Permutation_sym (zsort_perm _))). apply Hwf.
  Qed.

  Lemma read_one_fst a sn c s c' x s' : read_one env a sn c s = (Ok (c', x), s') -> c' = c.
  Proof.
    unfold read_one, mbind, gets. destruct (cache_get env s a c); [unfold ret; congruence|].
    destruct (hw_read env a c s) as [[v|e] s1]; [|discriminate]. destruct (cache_add env a c v sn s1) as [[u|e] s2]; [|discriminate].
    unfold ret. congruence.
  Qed.

  Lemma check_loop a v sn l : forall s, agree
    (let! vals := read_cpus env a l sn in mfor vals (fun x => if snd x =? v then ret tt else throw EVerify))
    (mfor l (fun c => let! (_, x) := read_one env a sn c in if x =? v then ret tt else throw EVerify)) s.
  Proof.
    induction l as [|c l IH]; intros s; [apply agree_refl|]. intros r s'. unfold read_cpus. cbn [mmap mfor]. unfold mbind at 1 2 4 5.
    destruct (read_one env a sn c s) as [[[c' x]|e] s1]; [|easy]. specialize (IH s1 r s'). unfold read_cpus in IH. unfold mbind at 1 in IH. unfold mbind at 1.
    destruct (mmap l (read_one env a sn) s1) as [[ys|e] s2] eqn:Em.
    - unfold ret at 1. cbn [mfor snd]. unfold mbind at 1. destruct (x =? v); [unfold ret at 1 2; exact IH|]. unfold throw. easy.
    - destruct (x =? v); [exact IH|]. unfold throw. easy.
  Qed.

  Lemma group_loop a b val sn l : forall acc s, agree
    (let! vals := read_cpus env a l sn in lift (group b val vals acc))
    (group_writes env a b val sn l acc) s.
  Proof.
    induction l as [|c l IH]; intros acc s; [apply agree_refl|]. intros r s'. unfold read_cpus. cbn [mmap group_writes]. unfold mbind at 1 2 4.
    destruct (read_one env a sn c s) as [[[c' x]|e] s1] eqn:Er; [|easy]. apply read_one_fst in Er. subst c'.
    unfold mbind at 1 2. unfold lift at 2.
    destruct (set_bits x b val) as [n|e] eqn:Eb.
    - pose proof (fun acc => IH acc s1 r s') as IH'. unfold read_cpus, mbind in IH'.
      destruct (mmap l (read_one env a sn) s1) as [[ys|e] s2] eqn:Em.
      + unfold ret at 1. cbn [group]. rewrite Eb. cbn [rbind]. destruct (x =? n); apply IH'.
      + destruct (x =? n); apply IH'.
    - destruct (mmap l (read_one env a sn) s1) as [[ys|e'] s2] eqn:Em; [|easy]. unfold ret at 1. cbn [group]. rewrite Eb. cbn [rbind]. unfold lift. easy.
  Qed.

  Lemma sim_verify a v l : NoDup l -> (forall c, In c l -> In c online) -> sim (r_verify env a v l (sc a)) (verify env a v l (sc a)).
  Proof.
    intros Hn Hl. unfold r_verify, verify. apply sim_bind; [apply sim_refl|now apply pres_removes|]. intros _.
    eapply sim_trans; [|intros s _; apply check_loop]. apply sim_bind; [now apply sim_read|now apply pres_read_cpus|]. intros vals. apply sim_refl.
  Qed.

  Lemma sim_write a v cpus vf : sim (r_write env a v cpus (sc a) vf) (write env a v cpus (sc a) vf).
  Proof.
    unfold r_write, write. apply sim_lift. intros l El. pose proof (normalized_online env cpus l El) as Hl.
    apply sim_bind; [apply sim_refl|now apply pres_removes|]. intros _.
    apply sim_bind; [apply sim_refl|apply pres_mfor; intros c Hc; apply pres_write_one; now apply Hl|]. intros _.
    apply sim_bind; [apply sim_refl|apply pres_gets|]. intros i. destruct (vf && negb i); [|apply sim_refl].
    apply sim_verify; [now apply normalized_nodup in El|exact Hl].
  Qed.

  Lemma sim_write_bits a b val cpus vf : sim (r_write_bits env a b val cpus (sc a) vf) (write_bits env a b val cpus (sc a) vf).
  Proof.
    unfold r_write_bits, write_bits. apply sim_lift. intros l El. pose proof (normalized_online env cpus l El) as Hl.
    pose proof (normalized_nodup cpus l El) as Hn.
    apply (sim_trans _ (let! groups := (let! vals := r_read_cpus env a l (sc a) in lift (group b val vals [])) in
                        mfor groups (fun g => r_write env a (fst g) (Some (snd g)) (sc a) vf))).
    { intros s _. apply agree_eq. unfold mbind. destruct (r_read_cpus env a l (sc a) s) as [[x|e] s1]; [|reflexivity]. reflexivity. }
    apply sim_bind; [|now apply pres_group|].
    - eapply sim_trans; [|intros s _; apply group_loop]. apply sim_bind; [now apply sim_read|now apply pres_read_cpus|]. intros vals. apply sim_refl.
    - intros gs. apply sim_mfor; intros g _; [apply sim_write|apply pres_write].
  Qed.

  Lemma flush_agree s : G0 s -> Buf0 s -> agree (r_flush env) (flush_transaction env) s.
  Proof.
    intros Hs B. unfold r_flush, flush_transaction. apply agree_bind; [apply agree_refl|]. intros i s1 E. injection E as <- <-.
    apply agree_bind; [apply agree_refl|]. intros buf s1 E. injection E as <- <-.
    destruct (negb (me_cache env) || negb (ms_intr s)); [apply agree_refl|].
    destruct (ms_tbuf s) as [|x bf] eqn:Eb; [apply agree_refl|]. rewrite <- Eb. clear x bf Eb.
    match goal with |- agree ?a ?b s => assert (P : sim a b); [|exact (P s Hs)] end.
    apply sim_bind; [|apply pres_transaction_write|].
    - destruct (1 <? _)%nat; [|apply sim_refl]. intros s1 (_ & HF) r s'. unfold write_script. unfold mbind. rewrite (io_free _ HF).
      destruct (transaction_write env (ms_tbuf s) s1) as [[u|e] s2]; [reflexivity|easy].
    - intros _. apply sim_bind; [apply sim_refl|apply pres_mod; intros s1; now split|]. intros _.
      apply sim_bind; [|now apply pres_verify_all|intros; apply sim_refl].
      apply sim_mfor.
      + intros [v d] Hd. cbn [fst snd]. apply sim_mfor.
        * intros [a [sn cl]] Ha. cbn [fst snd]. destruct (vi_facts env sc s B v d a sn cl Hd Ha) as (-> & Hcl).
          apply sim_verify; [eapply vi_nodup; eauto|exact Hcl].
        * intros [a [sn cl]] Ha. cbn [fst snd]. destruct (vi_facts env sc s B v d a sn cl Hd Ha) as (-> & Hcl). now apply pres_verify.
      + intros [v d] Hd. cbn [fst snd]. apply pres_mfor. intros [a [sn cl]] Ha. cbn [fst snd].
        destruct (vi_facts env sc s B v d a sn cl Hd Ha) as (-> & Hcl). now apply pres_verify.
  Qed.

  Lemma step_agree o s : op_scoped sc o -> G0 s -> Buf0 s -> agree (rstep env o) (mstep env o) s.
  Proof.
    intros Ho Hs B. destruct o as [a cpus sn|a v cpus sn vf|a b val cpus sn vf| | |]; cbn [rstep mstep op_scoped] in *.
    - subst sn. unfold r_read, read. apply sim_lift; [|exact Hs]. intros l El.
      apply sim_read; [now apply normalized_nodup in El|exact (normalized_online env cpus l El)].
    - subst sn. apply sim_bind; [apply sim_write|apply pres_write|intros; apply sim_refl|exact Hs].
    - destruct Ho as (-> & _). apply sim_bind; [apply sim_write_bits|apply pres_write_bits|intros; apply sim_refl|exact Hs].
    - apply agree_refl.
    - apply agree_bind; [now apply flush_agree|intros; apply agree_refl].
    - apply agree_bind; [|intros; apply agree_refl]. unfold r_commit, commit_transaction.
      apply agree_bind; [apply agree_refl|]. intros i s1 E. injection E as <- <-. destruct (negb (ms_intr s)); [apply agree_refl|].
      apply agree_bind; [now apply flush_agree|intros; apply agree_refl].
  Qed.

  Lemma answers_same : forall ops s, (forall o, In o ops -> op_scoped sc o) -> G0 s -> Buf0 s ->
    answers (rstep env) ops s = answers (mstep env) ops s.
  Proof.
    induction ops as [|o ops IH]; intros s Ho Hs B; [reflexivity|]. cbn [answers].
    pose proof (step_agree o s (Ho o (or_introl eq_refl)) Hs B) as A.
    destruct (mstep env o s) as [[r|e] s'] eqn:E.
    - rewrite (proj2 (A r s') E).
      rewrite (IH s'); [reflexivity|intros; apply Ho; now right| |].
      + pose proof (mstep_G0 o s (Ho o (or_introl eq_refl)) Hs B) as P. unfold post in P. now rewrite E in P.
      + pose proof (mstep_0 env sc Hwf Hsc o s (Ho o (or_introl eq_refl)) B) as P. unfold post in P. now rewrite E in P.
    - destruct (rstep env o s) as [[r|e'] s''] eqn:E'; [|reflexivity]. apply A in E'. congruence.
  Qed.

  Lemma G0_init hw : G0 (msr_init hw []).
  Proof. split; [|reflexivity]. intros a c x _ _ _. unfold cache_get, msr_init. cbn. now destruct (me_cache env). Qed.
End Same.
