(** Lemmas about the PM QoS latency limits. *)
From Coq Require Import QArith Qabs ZifyBool Lqa.
From Verif Require Import Base L_Base L_Monad M_Text S_Text L_Text L_Tpmi M_Sysfs S_Sysfs L_Sysfs S_SysView L_SysView
  M_Human L_Human4 M_PMQoS S_PMQoS.

Lemma dec_inj a b : 0 <= a -> 0 <= b -> dec a = dec b -> a = b.
Proof.
  intros Ha Hb E. destruct (dec_numeral a Ha) as (_ & _ & H1 & _).
  destruct (dec_numeral b Hb) as (_ & _ & H2 & _). congruence.
Qed.

Lemma pmqos_path_inj a b : 0 <= a -> 0 <= b -> pmqos_path a = pmqos_path b -> a = b.
Proof.
  unfold pmqos_path. intros Ha Hb E. apply app_inv_head in E. apply app_inv_tail in E.
  now apply dec_inj.
Qed.

Lemma qround_nonneg q : (0 <= q)%Q -> 0 <= qround q.
Proof.
  intros H. pose proof (qround_near q) as N. apply Qabs_Qle_condition in N.
  assert (G : (- (1 # 2) <= inject_Z (qround q))%Q) by lra.
  unfold Qle in G; cbn in G. lia.
Qed.

Lemma us_nonneg lim : (0 <= lim)%Q -> 0 <= qround (lim * inject_Z 1000000).
Proof. intros H. apply qround_nonneg. apply Qmult_le_0_compat; [exact H|]. unfold inject_Z, Qle. cbn. lia. Qed.

Lemma us_seconds lim n : nearest_us lim n -> to_the_microsecond lim (inject_Z n / inject_Z 1000000).
Proof.
  unfold nearest_us, to_the_microsecond. intros H. apply Qabs_Qle_condition in H. apply Qabs_Qle_condition.
  change (inject_Z 1000000) with (1000000 # 1)%Q in *.
  assert (E : (inject_Z n / (1000000 # 1) == inject_Z n * (1 # 1000000))%Q) by (unfold Qdiv; reflexivity).
  rewrite E. lra.
Qed.

Lemma us_whole lim n : whole_us lim -> nearest_us lim n -> (inject_Z n / inject_Z 1000000 == lim)%Q.
Proof.
  intros (us & E) H. unfold nearest_us in H. rewrite E in H. apply Qabs_Qle_condition in H.
  assert (n = us).
  { unfold Qle, Qminus, Qplus, Qopp, inject_Z in H. cbn in H. lia. }
  subst us. change (inject_Z 1000000) with (1000000 # 1)%Q in *. unfold Qdiv. 
  change (/ (1000000 # 1))%Q with (1 # 1000000)%Q. lra.
Qed.

Section L.
  Variable k : senv.
  Variable verify : bool.

  (** What is known about a file that has been set. *)
  Definition set_to (v : str) (s0 s : sstate) (p : str) : Prop :=
    (verify = true \/ se_cache k = true \/ ss_intr s0 = false /\ stores k p v /\ k_unreadable k p = false ->
       seen k s p = Ok v) /\
    (ss_intr s0 = false -> verify = true -> on_disk k s p = Ok v) /\
    (ss_intr s0 = true -> ss_fs s p = ss_fs s0 p).

  Lemma set_one_post n w p s : 0 <= n ->
    post (if negb verify then s_write_int k p (dec n) w else s_write_verify_int k p (dec n) w 0 0) s
      (fun _ s' => only_at p s s' /\ set_to (dec n) s s' p)
      (fun e s' => only_at p s s' /\ (ss_intr s = true -> ss_fs s' p = ss_fs s p)).
  Proof.
    intros Hn. destruct verify eqn:Hv; cbn [negb].
    - unfold s_write_verify_int. rewrite str_to_int_dec by exact Hn. unfold lift.
      apply post_bind. cbn. eapply post_conseq; [apply write_verify_post| |].
      + intros u s' (H1 & H2 & H3 & H4). split; [exact H1|]. split; [auto|]. split.
        * intros Hi _. apply H3, Hi.
        * intros Hi. destruct (H4 Hi) as (-> & _). reflexivity.
      + intros e s' (H1 & H2 & H3 & H4 & H5). split; [exact H1|]. intros Hi. now rewrite H3.
    - unfold s_write_int. rewrite str_to_int_dec by exact Hn. unfold lift.
      apply post_bind. cbn. eapply post_conseq; [apply write_post| |].
      + intros u s' (H1 & H2 & H3 & H4). split; [exact H1|]. split; [|split].
        * intros [Hx|[Hc|(Hi & Hs & Hu)]]; [congruence|auto|].
          destruct (se_cache k) eqn:Hc; [auto|].
          destruct (H3 Hi) as (_ & _ & old & c & E1 & E2 & E3). rewrite seen_eq, Hc.
          unfold on_disk. rewrite E3, Hu. f_equal. eapply Hs, E2.
        * congruence.
        * intros Hi. destruct (H4 Hi) as (-> & _). reflexivity.
      + intros e s' (H1 & H2 & H3 & H4). split; [exact H1|]. now rewrite H3.
  Qed.

  Lemma set_to_frame v s0 s s' p : at_same s s' p -> set_to v s0 s p -> set_to v s0 s' p.
  Proof.
    intros A (H1 & H2 & H3). destruct (at_same_untouched k _ _ _ A) as [F S].
    split; [intros H; rewrite S; auto|]. split.
    - intros Hi Hv. specialize (H2 Hi Hv). unfold on_disk in *. now rewrite F.
    - intros Hi. now rewrite F, H3.
  Qed.

  Lemma set_post lim cpus s : (0 <= lim)%Q -> Forall (fun c => 0 <= c) cpus ->
    post (set_latency_limit k verify lim cpus) s
      (fun _ s' => ss_intr s' = ss_intr s /\
         (forall c, In c cpus -> set_to (dec (qround (lim * inject_Z 1000000))) s s' (pmqos_path c)) /\
         (forall p, (forall c, In c cpus -> p <> pmqos_path c) -> at_same s s' p))
      (fun e s' => forall p, (forall c, In c cpus -> p <> pmqos_path c) -> at_same s s' p).
  Proof.
    intros Hl Hc. apply us_nonneg in Hl. unfold set_latency_limit.
    set (n := qround _) in *. clearbody n. cbv zeta.
    eapply post_conseq.
    - apply (post_mfor _ (fun pre s' => ss_intr s' = ss_intr s /\
         (forall c, In c pre -> set_to (dec n) s s' (pmqos_path c)) /\
         (forall p, (forall c, In c pre -> p <> pmqos_path c) -> at_same s s' p))
        (fun e s' => forall p, (forall c, In c cpus -> p <> pmqos_path c) -> at_same s s' p)).
      2:{ split; [reflexivity|]. split; [intros c []|]. intros p _. now split. }
      intros pre c r E s1 (I1 & S1 & F1).
      assert (Hcc : forall x, In x (pre ++ [c]) -> 0 <= x).
      { intros x Hx. rewrite Forall_forall in Hc. apply Hc. rewrite E.
        apply in_app_or in Hx as [Hx|[<-|[]]]; apply in_or_app; [now left|right; now left]. }
      eapply post_conseq; [apply (set_one_post n _ _ s1 Hl)| |].
      + intros u s2 ((A2 & I2) & S2). split; [congruence|]. split.
        * intros x Hx. destruct (Z.eq_dec x c) as [->|Hne].
          { destruct (in_dec Z.eq_dec c pre) as [Hp|Hp].
            - destruct (S1 c Hp) as (G1 & G2 & G3). destruct S2 as (K1 & K2 & K3).
              rewrite I1 in K1, K2, K3. split; [exact K1|]. split; [exact K2|].
              intros Hi. now rewrite K3, G3.
            - destruct S2 as (K1 & K2 & K3). rewrite I1 in K1, K2, K3. split; [exact K1|].
              split; [exact K2|]. intros Hi. rewrite K3 by exact Hi. apply F1.
              intros x Hx2 Ex. apply pmqos_path_inj in Ex; subst; [contradiction|apply Hcc; auto|].
              apply Hcc. apply in_or_app. now left. }
          { apply in_app_or in Hx as Hx'. destruct Hx' as [Hx'|[<-|[]]]; [|contradiction].
            eapply set_to_frame; [|now apply S1]. apply A2. intros Ex.
            apply pmqos_path_inj in Ex; [contradiction|apply Hcc; auto|apply Hcc].
            apply in_or_app; right; now left. }
        * intros p Hp. destruct (F1 p) as [G1 G2]; [intros x Hx; apply Hp, in_or_app; now left|].
          destruct (A2 p) as [K1 K2]; [apply Hp, in_or_app; right; now left|]. split; congruence.
      + intros e s2 ((A2 & I2) & _) p Hp.
        destruct (F1 p) as [G1 G2]; [intros x Hx; apply Hp; rewrite E; apply in_or_app; now left|].
        destruct (A2 p) as [K1 K2]; [apply Hp; rewrite E; apply in_or_app; right; now left|].
        split; congruence.
    - auto.
    - auto.
  Qed.

  Lemma get_run cpus : forall s (f : Z -> Z), (forall c, In c cpus -> seen k s (pmqos_path c) = Ok (dec (f c))) ->
    (forall c, In c cpus -> 0 <= f c) ->
    exists s', get_latency_limit k cpus s =
      (Ok (map (fun c => (c, inject_Z (f c) / inject_Z 1000000)%Q) cpus), s') /\ unseen k s s'.
  Proof.
    induction cpus as [|c cpus IH]; intros s f H Hf.
    - exists s. split; [reflexivity|apply unseen_refl].
    - unfold get_latency_limit. cbn [mmap]. fold (get_latency_limit k cpus).
      destruct (s_read_int_run k (pmqos_path c) s) as (s1 & E1 & U1).
      destruct (IH s1 f) as (s2 & E2 & U2).
      { intros x Hx. rewrite (proj1 U1). apply H. now right. }
      { intros x Hx. apply Hf. now right. }
      exists s2. split; [|eapply unseen_trans; eassumption].
      unfold mbind at 1. unfold mbind at 1. rewrite E1, seen_int_eq, H by now left.
      rewrite str_to_int_dec by (apply Hf; now left). unfold ret at 1. unfold mbind. rewrite E2. reflexivity.
  Qed.
End L.

(** ** The properties *)
Lemma set_limit_roundtrip k verify lim cpus s s' :
  (0 <= lim)%Q -> Forall (fun c => 0 <= c) cpus ->
  (verify = true \/ se_cache k = true \/
   ss_intr s = false /\ forall c us, In c cpus -> nearest_us lim us ->
     stores k (limit_file c) (dec us) /\ k_unreadable k (limit_file c) = false) ->
  set_latency_limit k verify lim cpus s = (Ok tt, s') ->
  exists vals s'', get_latency_limit k cpus s' = (Ok vals, s'') /\ map fst vals = cpus /\
    (forall c v, In (c, v) vals -> to_the_microsecond lim v) /\
    (whole_us lim -> forall c v, In (c, v) vals -> (v == lim)%Q).
Proof.
  intros Hl Hc Hk E. pose proof (set_post k verify lim cpus s Hl Hc) as P. unfold post in P. rewrite E in P.
  destruct P as (I & S & F). set (n := qround (lim * inject_Z 1000000)) in *.
  assert (Nn : nearest_us lim n) by (apply qround_near).
  assert (Hn : 0 <= n) by now apply us_nonneg.
  destruct (get_run k cpus s' (fun _ => n)) as (s2 & E2 & _).
  { intros c Hin. destruct (S c Hin) as (H & _). apply H.
    destruct Hk as [Hk|[Hk|(Hi & Hk)]]; [auto|auto|]. right; right. split; [exact Hi|].
    destruct (Hk c n Hin Nn). now split. }
  { auto. }
  eexists _, s2. split; [exact E2|]. split; [|split].
  - rewrite map_map. cbn. apply map_id.
  - intros c v Hv. apply in_map_iff in Hv as (x & [= <- <-] & _). now apply us_seconds.
  - intros Hw c v Hv. apply in_map_iff in Hv as (x & [= <- <-] & _). now apply us_whole.
Qed.

Lemma set_limit_kernel k lim cpus s s' :
  (0 <= lim)%Q -> Forall (fun c => 0 <= c) cpus -> ss_intr s = false ->
  set_latency_limit k true lim cpus s = (Ok tt, s') ->
  forall c, In c cpus -> exists us, nearest_us lim us /\ on_disk k s' (limit_file c) = Ok (dec us).
Proof.
  intros Hl Hc Hi E c Hin. pose proof (set_post k true lim cpus s Hl Hc) as P. unfold post in P. rewrite E in P.
  destruct P as (_ & S & _). exists (qround (lim * inject_Z 1000000)). split; [apply qround_near|].
  destruct (S c Hin) as (_ & H & _). now apply H.
Qed.

Lemma set_limit_frame k verify lim cpus s r s' :
  (0 <= lim)%Q -> Forall (fun c => 0 <= c) cpus ->
  set_latency_limit k verify lim cpus s = (r, s') ->
  forall p, (forall c, In c cpus -> p <> limit_file c) -> untouched k s s' p.
Proof.
  intros Hl Hc E p Hp. apply at_same_untouched.
  pose proof (set_post k verify lim cpus s Hl Hc) as P. unfold post in P. rewrite E in P.
  destruct r as [[]|e]; [destruct P as (_ & _ & P)|]; now apply P.
Qed.

Lemma set_limit_other_cpu k verify lim cpus s r s' c :
  (0 <= lim)%Q -> Forall (fun c => 0 <= c) cpus -> 0 <= c -> ~ In c cpus ->
  set_latency_limit k verify lim cpus s = (r, s') -> untouched k s s' (limit_file c).
Proof.
  intros Hl Hc H0 Hn E. eapply set_limit_frame; try eassumption. intros x Hx Ex.
  assert (c = x); [|congruence]. apply pmqos_path_inj; [exact H0| |exact Ex].
  rewrite Forall_forall in Hc. auto.
Qed.

Lemma takes_at k s s' p v : at_same s s' p -> takes k s p v -> takes k s' p v.
Proof. intros [H _]. now apply takes_frame. Qed.

Lemma set_limit_succeeds k verify lim cpus s :
  (0 <= lim)%Q -> Forall (fun c => 0 <= c) cpus -> ss_intr s = false ->
  (forall c us, In c cpus -> nearest_us lim us -> takes k s (limit_file c) (dec us)) ->
  exists s', set_latency_limit k verify lim cpus s = (Ok tt, s').
Proof.
  intros Hl Hc Hi Ht. unfold set_latency_limit. pose proof (us_nonneg lim Hl) as Hn.
  assert (Nn : nearest_us lim (qround (lim * inject_Z 1000000))) by (apply qround_near).
  set (n := qround _) in *. clearbody n. cbv zeta.
  assert (G : forall s, ss_intr s = false -> (forall c, In c cpus -> takes k s (limit_file c) (dec n)) ->
     exists s', mfor cpus (fun cpu =>
      if negb verify then s_write_int k (pmqos_path cpu) (dec n) (Some pmqos_what)
      else s_write_verify_int k (pmqos_path cpu) (dec n) (Some pmqos_what) 0 0) s = (Ok tt, s')).
  { clear s Hi Ht. induction cpus as [|c cpus IH]; intros s Hi Ht; [eexists; reflexivity|].
    cbn [mfor]. unfold mbind.
    assert (R : exists s1, (if negb verify then s_write_int k (pmqos_path c) (dec n) (Some pmqos_what)
      else s_write_verify_int k (pmqos_path c) (dec n) (Some pmqos_what) 0 0) s = (Ok tt, s1)).
    { destruct verify; cbn [negb]; unfold s_write_int, s_write_verify_int, mbind, lift;
        rewrite str_to_int_dec by exact Hn.
      - apply write_verify_live; [exact Hi|]. apply Ht. now left.
      - destruct (Ht c (or_introl eq_refl)) as (H1 & H2 & H3). apply write_live; [exact Hi|exact H1|].
        intros old Eo. destruct (H3 old) as (x & Ex & _). unfold limit_file, pmqos_path in *. congruence. }
    destruct R as (s1 & E1). rewrite E1.
    pose proof (set_one_post k verify n (Some pmqos_what) (pmqos_path c) s Hn) as P. unfold post in P.
    rewrite E1 in P. destruct P as ((A & I1) & S1 & S2 & S3). inversion Hc as [|? ? Hc1 Hc2]; subst. apply IH; [exact Hc2|congruence|].
    intros x Hx. specialize (Ht x (or_intror Hx)). destruct (Z.eq_dec x c) as [->|Hne].
    - destruct Ht as (T1 & T2 & T3). split; [|auto].
      clear - E1 T1. intros N. apply T1. revert E1.
      (* a successful write does not make a file disappear *)
      assert (D : forall m, m s = (Ok tt, s1) -> post m s (fun _ s' => ss_fs s (limit_file c) <> None -> ss_fs s' (limit_file c) <> None) (fun _ _ => True) ->
        ss_fs s (limit_file c) = None).
      { intros m Em Pm. unfold post in Pm. rewrite Em in Pm. destruct (ss_fs s (limit_file c)); [|reflexivity].
        exfalso. apply Pm; [discriminate|exact N]. }
      intros E1. apply (D _ E1). clear D E1.
      destruct verify; cbn [negb]; unfold s_write_int, s_write_verify_int; apply post_bind, post_lift; auto; intros a _.
      + eapply post_conseq; [apply write_verify_post| |auto]. intros u s2 (_ & _ & W1 & W2) Hs.
        destruct (ss_intr s); [destruct (W2 eq_refl) as (-> & _); exact Hs|].
        destruct (W1 eq_refl) as (W & _). unfold on_disk in W. unfold limit_file. unfold pmqos_path in W. intros Z0. rewrite Z0 in W. discriminate.
      + eapply post_conseq; [apply write_post| |auto]. intros u s2 (_ & _ & W1 & W2) Hs.
        destruct (ss_intr s); [destruct (W2 eq_refl) as (-> & _); exact Hs|].
        destruct (W1 eq_refl) as (_ & _ & old & c0 & _ & _ & W). unfold pmqos_path in W. unfold limit_file. rewrite W. discriminate.
    - eapply takes_at; [|exact Ht]. apply A. intros Ex. apply pmqos_path_inj in Ex; [congruence| |exact Hc1].
      rewrite Forall_forall in Hc2. auto. }
  apply G; [exact Hi|]. intros c Hin. now apply Ht.
Qed.

Lemma global_decodes n rest : 0 <= n < 2 ^ 32 ->
  get_global_latency_limit (Some (four_bytes n ++ rest)) = Ok (inject_Z n / inject_Z 1000000)%Q.
Proof.
  intros H. unfold get_global_latency_limit, four_bytes. cbn [app firstn]. f_equal. f_equal. f_equal.
  unfold from_bytes_little. cbn [fold_right].
  change (2 ^ 24) with (2 ^ 8 * 2 ^ 8 * 2 ^ 8). change (2 ^ 16) with (2 ^ 8 * 2 ^ 8).
  rewrite <- !Z.div_div by (cbv; congruence || reflexivity). change (2 ^ 8) with 256 in *. change (2 ^ 32) with 4294967296 in H.
  pose proof (Z.div_mod n 256 ltac:(lia)). pose proof (Z.div_mod (n / 256) 256 ltac:(lia)).
  pose proof (Z.div_mod (n / 256 / 256) 256 ltac:(lia)).
  assert (n / 256 / 256 / 256 < 256).
  { apply Z.div_lt_upper_bound; [lia|]. apply Z.div_lt_upper_bound; [lia|]. apply Z.div_lt_upper_bound; lia. }
  assert (0 <= n / 256 / 256 / 256) by (do 3 (apply Z.div_pos; [|lia]); lia).
  rewrite (Z.mod_small (n / 256 / 256 / 256)) by lia. lia.
Qed.

Lemma get_missing k cpus c s : In c cpus -> (forall x, In x cpus -> seen k s (limit_file x) = Exn ENotSupported \/
    exists n, seen k s (limit_file x) = Ok (dec n) /\ 0 <= n) ->
  seen k s (limit_file c) = Exn ENotSupported ->
  exists s', get_latency_limit k cpus s = (Exn ENotSupported, s').
Proof.
  revert s. induction cpus as [|x cpus IH]; intros s Hin H Hc; [destruct Hin|].
  destruct Hin as [Hx|Hx].
  - subst x. unfold get_latency_limit. cbn [mmap]. destruct (s_read_int_run k (pmqos_path c) s) as (s1 & E1 & U1).
    exists s1. unfold mbind at 1. unfold mbind at 1. rewrite E1, seen_int_eq. unfold limit_file in Hc. unfold pmqos_path.
    now rewrite Hc.
  - unfold get_latency_limit. cbn [mmap]. fold (get_latency_limit k cpus). destruct (s_read_int_run k (pmqos_path x) s) as (s1 & E1 & U1).
    unfold mbind at 1. unfold mbind at 1. rewrite E1, seen_int_eq.
    destruct (H x (or_introl eq_refl)) as [Ex|(n & Ex & Hn)]; unfold limit_file in Ex; unfold pmqos_path; rewrite Ex.
    + exists s1. reflexivity.
    + rewrite str_to_int_dec by exact Hn. unfold ret at 1.
      destruct (IH s1 Hx) as (s2 & E2).
      * intros y Hy. rewrite (proj1 U1). apply H. now right.
      * now rewrite (proj1 U1).
      * exists s2. unfold mbind. rewrite E2. reflexivity.
Qed.
