(** The two worlds behave as specified; the properties of uncore frequency access. *)
From Verif Require Import Base L_Base L_Monad M_Text S_Text L_Text M_Kver M_Sysfs S_Sysfs L_Sysfs S_SysView L_SysView
  M_Uncore S_Uncore L_Uncore L_Uncore2.
From Coq Require Import ZifyBool.

(** ** The worlds *)
Lemma kernel_behaves eff related : kernel_ok eff related ->
  behaves (kernel_uio eff) kview kfresh related.
Proof.
  intros Hk. split; [|split].
  - intros p w. cbn [kernel_uio u_rd]. unfold kfresh, kview.
    destruct (dget str_eqb (ks_cache w) p) as [v|] eqn:Ec.
    + exists (Ok v), w. split; [reflexivity|]. split; [now intros ->|]. intros q. now split.
    + destruct (ks_files w p) as [v|] eqn:Ef.
      * eexists. eexists. split; [reflexivity|]. split; [reflexivity|]. intros q. cbn. split; [reflexivity|].
        destruct (str_dec q p) as [->|Hne].
        -- rewrite (dget_dset_same _ str_eqb_eq), Ec. now intros _.
        -- now rewrite (dget_dset_other _ str_eqb_eq) by assumption.
      * eexists. eexists. split; [reflexivity|]. split; [reflexivity|]. intros q. now split.
  - intros p v w w' E. cbn [kernel_uio u_wr] in E. destruct (ks_files w p) eqn:Ef; [|discriminate].
    destruct (eff p v (ks_files w)) as [f|] eqn:Ee; [|discriminate]. injection E as <-.
    destruct (Hk _ _ _ _ Ee) as [H1 H2]. unfold kview, kfresh. cbn [ks_files ks_cache].
    rewrite H1, (dget_dset_same _ str_eqb_eq). split; [reflexivity|]. split; [reflexivity|].
    intros q Hq Hr. rewrite (H2 q Hq Hr). split; [reflexivity|].
    rewrite (dget_dset_other _ str_eqb_eq) by assumption.
    now rewrite dget_ddel_other by (apply str_eqb_eq || assumption).
  - intros p v w w' x E q Hq. cbn [kernel_uio u_wr] in E. unfold kview, kfresh.
    assert (G : KS (ks_files w) (ddel str_eqb (ks_cache w) p) = w').
    { destruct (ks_files w p); [destruct (eff p v (ks_files w)); [discriminate|]|]; now injection E. }
    subst w'. cbn. split; [reflexivity|]. now rewrite dget_ddel_other by (apply str_eqb_eq || assumption).
Qed.

Lemma str_to_int_dec_all n : str_to_int (dec n) = Ok n.
Proof.
  destruct (Z_lt_le_dec n 0) as [H|H].
  - assert (E0 : dec n = "-"%char :: dec (- n)).
    { unfold dec. replace (n <? 0) with true by lia. now replace (- n <? 0) with false by lia. }
    rewrite E0. unfold str_to_int, py_int0.
    change (lstrip_by is_cspace ("-"%char :: dec (- n))) with ("-"%char :: dec (- n)).
    cbn [Ascii.eqb]. change (Ascii.eqb "-" "+") with false. change (Ascii.eqb "-" "-") with true. cbv iota.
    pose proof (int_base0_num (dec (- n)) (- n) [] (dec_numeral (- n) ltac:(lia)) ltac:(constructor)) as E.
    rewrite app_nil_r in E. rewrite E. cbn. now rewrite Z.opp_involutive.
  - pose proof (py_int0_num [] (dec n) n [] (dec_numeral n H)) as E.
    rewrite app_nil_r in E. cbn [app] in E. unfold str_to_int. rewrite E by constructor. reflexivity.
Qed.

Lemma sysfs_behaves k related :
  (se_cache k = true \/
   forall p old v c, k_write k p old v = Some c -> strip c = v /\ k_unreadable k p = false) ->
  behaves (sysfs_uio k) (seen_int k) (fun _ _ => True) related.
Proof.
  intros Hc. split; [|split].
  - intros p w. destruct (s_read_int_run k p w) as (s' & E & H).
    exists (seen_int k w p), s'. split; [exact E|]. split; [reflexivity|].
    intros q. split; [now apply unseen_int|auto].
  - intros p v w w' E. cbn [sysfs_uio u_wr] in E. unfold s_write_int, mbind, lift in E.
    rewrite str_to_int_dec_all in E.
    pose proof (post_run _ _ _ _ _ _ (write_post k p (dec v) uncore_what w) E) as (H1 & H2 & H3 & H4).
    split; [|split; [exact I|]].
    + rewrite seen_int_eq. assert (Es : seen k w' p = Ok (dec v)); [|rewrite Es, str_to_int_dec_all; reflexivity].
      destruct (se_cache k) eqn:Ec; [auto|]. destruct Hc as [Hc|Hc]; [discriminate|].
      destruct (ss_intr w) eqn:Ei.
      * exfalso. unfold s_write, mbind, cache_remove, gets, add_for_transaction in E. rewrite Ec in E.
        unfold ret in E. rewrite Ei in E. cbn in E. discriminate E.
      * destruct (H3 eq_refl) as (_ & _ & old & c & _ & Hw & Hf). destruct (Hc _ _ _ _ Hw) as [Hs Hu].
        rewrite seen_eq, Ec. unfold on_disk. rewrite Hf, Hu. now rewrite Hs.
    + intros q Hq _. split; [|auto]. apply untouched_int, at_same_untouched. now apply H1.
  - intros p v w w' x E q Hq. cbn [sysfs_uio u_wr] in E. unfold s_write_int, mbind, lift in E.
    rewrite str_to_int_dec_all in E.
    pose proof (post_run _ _ _ _ _ _ (write_post k p (dec v) uncore_what w) E) as (H1 & _).
    split; [|auto]. apply untouched_int, at_same_untouched. now apply H1.
Qed.

(** ** The properties *)
Section Live.
  Context {W : Type}.
  Variable io : uio W.
  Variable e : uenv.
  Variable J : W -> Prop.
  Hypothesis HJ : always_works io e J.
  Hypothesis Hw : well_shown e.

  Notation works := (fun (s s' : ust W) => J (us_w s') /\ known e s' /\ us_unlocked s' = us_unlocked s).

  Lemma read_works f s : driver_file e f -> J (us_w s) -> known e s ->
    exists n s', on_w (u_rd io f) s = (Ok n, s') /\ works s s'.
  Proof.
    intros Df Hj Hk. destruct (HJ f Df (us_w s) Hj) as ((n & w' & E & Hj') & _). unfold on_w. rewrite E.
    eexists. eexists. split; [reflexivity|]. auto.
  Qed.

  Lemma write_works f v s : driver_file e f -> J (us_w s) -> known e s ->
    exists s', on_w (u_wr io f v) s = (Ok tt, s') /\ works s s'.
  Proof.
    intros Df Hj Hk. destruct (HJ f Df (us_w s) Hj) as (_ & H). destruct (H v) as (w' & E & Hj'). unfold on_w. rewrite E.
    eexists. split; [reflexivity|]. auto.
  Qed.

  Lemma mmap_works {A B} (l : list A) (f : A -> M (ust W) B) (P : B -> Prop) : forall s, J (us_w s) -> known e s ->
    (forall a s, In a l -> J (us_w s) -> known e s -> exists b s', f a s = (Ok b, s') /\ works s s' /\ P b) ->
    exists r s', mmap l f s = (Ok r, s') /\ works s s' /\ Forall P r.
  Proof.
    induction l as [|a l IH]; intros s Hj Hk H.
    - exists [], s. split; [reflexivity|]. auto.
    - destruct (H a s (or_introl eq_refl) Hj Hk) as (b & s1 & E1 & (J1 & K1 & L1) & P1).
      destruct (IH s1 J1 K1) as (r & s2 & E2 & (J2 & K2 & L2) & P2).
      { intros a' s' Hin. apply H. now right. }
      exists (b :: r), s2. cbn [mmap]. unfold mbind. rewrite E1, E2. split; [reflexivity|]. split; [|now constructor].
      split; [exact J2|]. split; [exact K2|congruence].
  Qed.

  Lemma mfor_works {A} (l : list A) (f : A -> M (ust W) unit) : forall s, J (us_w s) -> known e s ->
    (forall a s, In a l -> J (us_w s) -> known e s -> exists s', f a s = (Ok tt, s') /\ works s s') ->
    exists s', mfor l f s = (Ok tt, s') /\ works s s'.
  Proof.
    induction l as [|a l IH]; intros s Hj Hk H.
    - exists s. split; [reflexivity|]. auto.
    - destruct (H a s (or_introl eq_refl) Hj Hk) as (s1 & E1 & (J1 & K1 & L1)).
      destruct (IH s1 J1 K1) as (s2 & E2 & (J2 & K2 & L2)).
      { intros a' s' Hin. apply H. now right. }
      exists s2. cbn [mfor]. unfold mbind. rewrite E1, E2. split; [reflexivity|].
      split; [exact J2|]. split; [exact K2|congruence].
  Qed.

  Lemma unlock_one_works p l key s : use_new_api e = true -> (forall d, In d l -> exists dir, shows e dir p d) -> l <> [] ->
    J (us_w s) -> known e s -> exists s', unlock_one io e p l key s = (Ok tt, s') /\ works s s'.
  Proof.
    intros Hu Hd Hne Hj Hk.
    assert (DL : forall b, driver_file e (legacy_path key p 0 b)).
    { intros b. right. destruct l as [|d0 l]; [congruence|]. destruct (Hd d0 (or_introl eq_refl)) as (dir & Hs).
      now exists dir, p, d0, key, b. }
    unfold unlock_one, mbind.
    destruct (read_works _ s (DL true) Hj Hk) as (n1 & s1 & E1 & J1 & K1 & L1). rewrite E1.
    destruct (read_works _ s1 (DL false) J1 K1) as (n2 & s2 & E2 & J2 & K2 & L2). rewrite E2.
    destruct (n2 =? n1); [exists s2; split; [reflexivity|]; split; [exact J2|split; [exact K2|congruence]]|].
    destruct (mmap_works l (fun die => fun s => match new_path e key p die false s with
        | (Ok path, s') => match on_w (u_rd io path) s' with (Ok f, s'') => (Ok (path, f), s'') | (Exn x, s'') => (Exn x, s'') end
        | (Exn x, s') => (Exn x, s') end) (fun pf => driver_file e (fst pf)) s2 J2 K2) as (r & s3 & E3 & (J3 & K3 & L3) & P3).
    { intros d s0 Hin Hj0 Hk0. destruct (Hd d Hin) as (dir & Hs). rewrite (new_path_run e Hw key p d false dir s0 Hk0 Hs).
      assert (Df : driver_file e (uncore_path dir key false)) by (left; exists p, d, key, false; now exists dir).
      destruct (read_works _ (knowing e s0) Df Hj0 (knowing_known e s0)) as (n & s4 & E4 & J4 & K4 & L4). rewrite E4.
      exists (uncore_path dir key false, n), s4. split; [reflexivity|]. split; [|exact Df]. auto. }
    assert (E3' : mmap l (fun die => let! path := new_path e key p die false in
        let! f := on_w (u_rd io path) in ret (path, f)) s2 = (Ok r, s3)) by exact E3.
    unfold mbind in E3'. rewrite E3'.
    destruct (write_works _ n1 s3 (DL false) J3 K3) as (s4 & E4 & J4 & K4 & L4). rewrite E4.
    destruct (mfor_works r (fun pf => on_w (u_wr io (fst pf) (snd pf))) s4 J4 K4) as (s5 & E5 & J5 & K5 & L5).
    { intros pf s0 Hin Hj0 Hk0. apply write_works; [|exact Hj0|exact Hk0]. rewrite Forall_forall in P3. now apply P3. }
    exists s5. split; [exact E5|]. split; [exact J5|]. split; [exact K5|congruence].
  Qed.

  Lemma unlock_works s : use_new_api e = true -> J (us_w s) -> known e s ->
    exists s', unlock_new_api io e s = (Ok tt, s') /\ J (us_w s') /\ known e s'.
  Proof.
    intros Hu Hj Hk. unfold unlock_new_api, mbind, gets. destruct (us_unlocked s) eqn:Hl; [now exists s|].
    rewrite (get_built_run e Hw s Hk). destruct (found_facts e Hw) as (info & dm & Ef & _ & Hne & Hhas & _).
    rewrite Ef. cbn [fst snd].
    destruct (mfor_works info (fun pd => mfor [KMin; KMax] (unlock_one io e (fst pd) (snd pd))) (knowing e s) Hj (knowing_known e s))
      as (s1 & E1 & J1 & K1 & L1).
    - intros [p l] s0 Hin Hj0 Hk0. apply mfor_works; [exact Hj0|exact Hk0|]. intros key s1 _ Hj1 Hk1. cbn [fst snd].
      apply unlock_one_works; [exact Hu| |exact (Hne p l Hin)|exact Hj1|exact Hk1].
      intros d Hd. apply Hhas. now exists l.
    - unfold knowing in E1. rewrite Ef in E1. cbn [snd] in E1. unfold knowing. rewrite Ef. cbn [snd]. rewrite E1.
      eexists. split; [reflexivity|]. split; [exact J1|exact K1].
  Qed.

  Lemma each_in dies p d : In (p, d) (each_die dies) -> has_die dies p d.
  Proof.
    unfold each_die, has_die. rewrite in_flat_map.
    intros ([p' l] & H1 & H2). cbn in H2. apply in_map_iff in H2 as (d' & [= <- <-] & H2). now exists l.
  Qed.

  Lemma set_works freq key dies s : J (us_w s) -> known e s ->
    (forall p d, has_die dies p d -> exists dir, shows e dir p d) ->
    exists s', set_freq_dies io e freq key dies s = (Ok tt, s') /\ J (us_w s').
  Proof.
    intros Hj Hk Hd. unfold set_freq_dies, mbind.
    assert (U : exists s1, (if use_new_api e then unlock_new_api io e else ret tt) s = (Ok tt, s1) /\ J (us_w s1) /\ known e s1).
    { destruct (use_new_api e) eqn:Hu; [now apply unlock_works|]. now exists s. }
    destruct U as (s1 & -> & J1 & K1).
    destruct (mfor_works (each_die dies) (fun pd => let! path := die_path e key (fst pd) (snd pd) false in
      on_w (u_wr io path (freq / 1000))) s1 J1 K1) as (s2 & E2 & J2 & _).
    - intros [p d] s0 Hin Hj0 Hk0. cbn [fst snd]. destruct (Hd p d (each_in _ _ _ Hin)) as (dir & Hs).
      destruct (die_path_run e Hw key p d false dir s0 Hk0 Hs) as (s3 & E3 & W3 & L3 & K3). unfold mbind. rewrite E3.
      destruct (write_works (uncore_path dir key false) (freq / 1000) s3) as (s4 & E4 & J4 & K4 & L4);
        [left; exists p, d, key, false; now exists dir|now rewrite W3|exact K3|].
      exists s4. split; [exact E4|]. split; [exact J4|]. split; [exact K4|congruence].
    - exists s2. split; [exact E2|exact J2].
  Qed.

  Lemma get_works key dies lim s : J (us_w s) -> known e s ->
    (forall p d, has_die dies p d -> exists dir, shows e dir p d) ->
    exists l s', get_freq_dies io e key dies lim s = (Ok l, s') /\ J (us_w s').
  Proof.
    intros Hj Hk Hd. unfold get_freq_dies.
    destruct (mmap_works (each_die dies) (fun pd => let! path := die_path e key (fst pd) (snd pd) lim in
      let! freq := on_w (u_rd io path) in ret (fst pd, snd pd, freq * 1000)) (fun _ => True) s Hj Hk) as (r & s2 & E2 & (J2 & _) & _).
    - intros [p d] s0 Hin Hj0 Hk0. cbn [fst snd]. destruct (Hd p d (each_in _ _ _ Hin)) as (dir & Hs).
      destruct (die_path_run e Hw key p d lim dir s0 Hk0 Hs) as (s3 & E3 & W3 & L3 & K3). unfold mbind. rewrite E3.
      destruct (read_works (uncore_path dir key lim) s3) as (n & s4 & E4 & J4 & K4 & L4);
        [left; exists p, d, key, lim; now exists dir|now rewrite W3|exact K3|].
      rewrite E4. exists (p, d, n * 1000), s4. split; [reflexivity|]. split; [|exact Logic.I]. split; [exact J4|]. split; [exact K4|congruence].
    - now exists r, s2.
  Qed.
End Live.

Section Props.
  Context {W : Type}.
  Variable io : uio W.
  Variable view : W -> str -> res Z.
  Variable fresh : W -> str -> Prop.
  Variable related : str -> str -> Prop.
  Variable e : uenv.

  Lemma dies_found (s : ust W) : well_shown e -> known e s ->
    exists info s', get_dies_info e s = (Ok info, s') /\ us_w s' = us_w s /\ dies_nodup info /\
      forall p d, has_die info p d <-> exists dir, shows e dir p d.
  Proof.
    intros Hw Hk. unfold get_dies_info, mbind. rewrite (get_built_run e Hw s Hk).
    destruct (found_facts e Hw) as (info & dm & Ef & Hn & _ & Hh & _). unfold knowing. rewrite Ef.
    exists info. eexists. split; [reflexivity|]. repeat split; apply Hn || apply Hh.
  Qed.

  Lemma die_directory (s : ust W) key p d lim : well_shown e -> known e s ->
    (forall dir, shows e dir p d -> exists s', die_path e key p d lim s = (Ok (uncore_path dir key lim), s') /\
       us_w s' = us_w s) /\
    (use_new_api e = true -> (forall dir, ~ shows e dir p d) ->
     exists s', die_path e key p d lim s = (Exn EKey, s') /\ us_w s' = us_w s).
  Proof.
    intros Hw Hk. split.
    - intros dir Hs. destruct (die_path_run e Hw key p d lim dir s Hk Hs) as (s' & E & H & _). now exists s'.
    - intros Hu Hn. unfold die_path. rewrite Hu. unfold new_path, mbind. rewrite (get_built_run e Hw s Hk).
      destruct (found_facts e Hw) as (info & dm & Ef & _ & _ & _ & Hd).
      assert (E : dm_get dm p d = None).
      { destruct (dm_get dm p d) as [dir|] eqn:E; [|reflexivity]. apply Hd in E. now apply Hn in E. }
      unfold dm_get in E. unfold knowing. rewrite Ef. cbn [snd]. destruct (dget Z.eqb dm p) as [m|].
      + rewrite E. eexists. now split.
      + eexists. now split.
  Qed.

  Hypothesis Hio : behaves io view fresh related.
  Hypothesis Hrel : forall f g, related f g -> tpmi_related e f g.
  Hypothesis Hw : well_shown e.

  Lemma unlock_keeps s s' : start_ok fresh e s -> use_new_api e = true ->
    unlock_new_api io e s = (Ok tt, s') ->
    us_unlocked s' = true /\ known e s' /\
    forall f, (forall p key, ~ package_file e p key f) ->
      view (us_w s') f = view (us_w s) f /\ (fresh (us_w s) f -> fresh (us_w s') f).
  Proof.
    intros (Hk & Hdf & Hf) Hu E. destruct (us_unlocked s) eqn:Hl.
    - unfold unlock_new_api, mbind, gets in E. rewrite Hl in E. unfold ret in E.
      apply pair_equal_spec in E as [_ <-]. now repeat split.
    - pose proof (post_run _ _ _ _ _ _ (unlock_post io view fresh related e Hio Hrel Hw s Hu Hk Hl (Hf eq_refl)) E)
        as (K & L & N & _). split; [exact L|]. split; [exact N|].
      intros f Hp. apply K. intros (p & key & X). now apply Hp in X.
  Qed.

  Lemma unlock_dies s s' : start_ok fresh e s -> use_new_api e = true ->
    unlock_new_api io e s = (Ok tt, s') ->
    forall p d key lim f, die_file e p d key lim f -> view (us_w s') f = view (us_w s) f.
  Proof.
    intros Hs Hu E p d key lim f Hd. destruct (unlock_keeps s s' Hs Hu E) as (_ & _ & K). apply K.
    intros p' key' (_ & (dir & d' & Hsh) & X). destruct (shows_pos e Hw _ _ _ Hsh).
    eapply (new_die_not_legacy e Hw); [exact Hu| | |exact Hd|exact X]; lia.
  Qed.

  Lemma unlock_unlocks s s' : start_ok fresh e s -> use_new_api e = true -> us_unlocked s = false ->
    (forall p d key f, die_file e p d key false f -> ~ related f (legacy_path key p 0 false)) ->
    unlock_new_api io e s = (Ok tt, s') ->
    forall dir p d key, shows e dir p d -> key = KMin \/ key = KMax ->
      view (us_w s') (legacy_path key p 0 false) = view (us_w s) (legacy_path key p 0 true).
  Proof.
    intros (Hk & Hd & Hf) Hu Hl Hno E.
    pose proof (post_run _ _ _ _ _ _ (unlock_post io view fresh related e Hio Hrel Hw s Hu Hk Hl (Hf Hl)) E)
      as (_ & _ & _ & V). now apply V.
  Qed.

  Lemma unlock_once s : us_unlocked s = true -> unlock_new_api io e s = (Ok tt, s).
  Proof. intros Hl. unfold unlock_new_api, mbind, gets. now rewrite Hl. Qed.

  Lemma unlock_failure s s' x : start_ok fresh e s -> use_new_api e = true ->
    unlock_new_api io e s = (Exn x, s') ->
    us_unlocked s' = false /\
    forall p d key f, die_file e p d key true f -> view (us_w s') f = view (us_w s) f.
  Proof.
    intros (Hk & Hdf & Hf) Hu E. destruct (us_unlocked s) eqn:Hl.
    { unfold unlock_new_api, mbind, gets in E. rewrite Hl in E. discriminate E. }
    pose proof (post_run _ _ _ _ _ _ (unlock_post io view fresh related e Hio Hrel Hw s Hu Hk Hl (Hf eq_refl)) E)
      as (K & L & _). split; [exact L|]. intros p d key f Hd. apply K.
    intros [(p' & key' & _ & (dir & d' & Hsh) & X)|(p' & d' & key' & X)].
    - destruct (shows_pos e Hw _ _ _ Hsh).
      eapply (new_die_not_legacy e Hw); [exact Hu| | |exact Hd|exact X]; lia.
    - destruct (die_file_one e Hw _ _ _ _ _ _ _ _ _ Hd X) as (_ & _ & _ & Z). discriminate.
  Qed.

  Lemma each_die_In dies p d : In (p, d) (each_die dies) <-> has_die dies p d.
  Proof.
    unfold each_die, has_die. rewrite in_flat_map. split.
    - intros ([p' l] & H1 & H2). cbn in H2. apply in_map_iff in H2 as (d' & [= <- <-] & H2). now exists l.
    - intros (l & H1 & H2). exists (p, l). split; [exact H1|]. cbn. apply in_map_iff. now exists d.
  Qed.

  Lemma set_reads s s' freq key dies : start_ok fresh e s ->
    (forall p d, has_die dies p d -> exists dir, shows e dir p d) ->
    set_freq_dies io e freq key dies s = (Ok tt, s') ->
    start_ok fresh e s' /\
    (forall p d f, has_die dies p d -> die_file e p d key false f -> view (us_w s') f = Ok (freq / 1000)) /\
    (forall p d key' lim f, die_file e p d key' lim f ->
       ~ (has_die dies p d /\ key' = key /\ lim = false) -> view (us_w s') f = view (us_w s) f).
  Proof.
    intros (Hk & Hdf & Hf) Hd E.
    assert (Hd' : forall p d, In (p, d) (each_die dies) -> exists dir, shows e dir p d).
    { intros p d H. apply each_die_In in H. now apply Hd. }
    pose proof (post_run _ _ _ _ _ _
      (set_freq_dies_post io view fresh related e Hio Hrel Hw freq key dies s Hk Hd' (fun L _ => Hf L)) E)
      as (K & N & L & V).
    assert (Hout : forall p d key' lim f, die_file e p d key' lim f -> ~ (has_die dies p d /\ key' = key /\ lim = false) ->
      view (us_w s') f = view (us_w s) f /\ fresh (us_w s') f).
    { intros p d key' lim f Hfl Hn. destruct (K f) as [A B].
      + intros [(p' & d' & Hin & X)|(p' & k' & Hu & (dir & d' & Hsh) & X)].
        * destruct (die_file_one e Hw _ _ _ _ _ _ _ _ _ Hfl X) as (-> & -> & -> & ->).
          apply Hn. split; [now apply each_die_In|now split].
        * destruct (shows_pos e Hw _ _ _ Hsh).
          eapply (new_die_not_legacy e Hw); [exact Hu| | |exact Hfl|exact X]; lia.
      + split; [exact A|]. apply B. eapply Hdf, Hfl. }
    assert (Fd : forall p d key' lim f, die_file e p d key' lim f -> fresh (us_w s') f).
    { intros p d key' lim f Hfl.
      assert (C : (In (p, d) (each_die dies) /\ key' = key /\ lim = false) \/ ~ (has_die dies p d /\ key' = key /\ lim = false)).
      { destruct (in_dec (fun a b : Z * Z => ltac:(decide equality; apply Z.eq_dec) : {a = b} + {a <> b}) (p, d) (each_die dies)) as [Hi|Hi].
        - assert (Ek : key' = key \/ key' <> key) by (destruct key', key; (now left) || (right; discriminate)).
          destruct Ek as [-> |Hn]; [|right; tauto]. destruct lim; [right; intros (_ & _ & X); discriminate|left; auto].
        - right. intros (H & _). apply Hi. now apply each_die_In. }
      destruct C as [(Hi & -> & ->)|Hn]; [now apply (V p d)|]. now apply (Hout p d key' lim). }
    split; [|split].
    - split; [exact N|]. split; [exact Fd|]. rewrite L. intros Hl f Df. apply Bool.orb_false_elim in Hl as [Hl Hu].
      destruct Df as [(p & d & k2 & lim & Df)|(dir & p & d & k2 & lim & Hu' & _)]; [eapply Fd, Df|congruence].
    - intros p d f Hh Hfl. apply (V p d); [now apply each_die_In|exact Hfl].
    - intros p d key' lim f Hfl Hn. now apply (Hout p d key' lim).
  Qed.

  Lemma get_reads s key dies lim : known e s ->
    (forall p d, has_die dies p d -> exists dir, shows e dir p d) ->
    (forall p d f, has_die dies p d -> die_file e p d key lim f ->
       fresh (us_w s) f /\ exists n, view (us_w s) f = Ok n) ->
    exists l s', get_freq_dies io e key dies lim s = (Ok l, s') /\ map fst l = each_die dies /\
      (forall p d v, In (p, d, v) l -> exists f n, die_file e p d key lim f /\
           view (us_w s) f = Ok n /\ v = n * 1000) /\
      forall f, view (us_w s') f = view (us_w s) f.
  Proof.
    intros Hk Hd Hf.
    assert (Hd' : forall p d, In (p, d) (each_die dies) -> exists dir, shows e dir p d).
    { intros p d H. apply each_die_In in H. now apply Hd. }
    assert (Hf' : forall p d f, In (p, d) (each_die dies) -> die_file e p d key lim f -> fresh (us_w s) f).
    { intros p d f H H2. apply each_die_In in H. now destruct (Hf p d f H H2). }
    pose proof (get_freq_dies_post io view fresh related e Hio Hw key dies lim s Hk Hd' Hf') as P.
    unfold post in P. destruct (get_freq_dies io e key dies lim s) as [[l|x] s'].
    - destruct P as (K & _ & M & V). exists l, s'. split; [reflexivity|]. split; [exact M|]. split; [exact V|].
      intros f. apply K. intros [].
    - destruct P as (_ & _ & p & d & f & H & H2 & H3). apply each_die_In in H.
      destruct (Hf p d f H H2) as (_ & n & X). congruence.
  Qed.

  Lemma set_then_get s s' freq key dies : start_ok fresh e s ->
    (forall p d, has_die dies p d -> exists dir, shows e dir p d) ->
    set_freq_dies io e freq key dies s = (Ok tt, s') ->
    exists s'', get_freq_dies io e key dies false s' =
      (Ok (map (fun pd => (pd, freq / 1000 * 1000)) (each_die dies)), s'').
  Proof.
    intros Hs Hd E. destruct (set_reads s s' freq key dies Hs Hd E) as (N & V & _).
    destruct (get_reads s' key dies false (proj1 N) Hd) as (l & s'' & E2 & M & V2 & _).
    { intros p d f H1 H2. split; [|exists (freq / 1000); now apply (V p d)]. destruct N as (_ & N & _). eapply N, H2. }
    exists s''. rewrite E2. f_equal. f_equal. rewrite <- M, map_map.
    assert (G : forall x, In x l -> x = (fst x, freq / 1000 * 1000)).
    { intros [[p d] v] Hx. destruct (V2 p d v Hx) as (f & n & Hf & Hn & ->). cbn [fst]. f_equal.
      assert (Hh : has_die dies p d).
      { apply each_die_In. rewrite <- M. apply in_map_iff. now exists (p, d, n * 1000). }
      pose proof (V p d f Hh Hf) as A. congruence. }
    clear - G. induction l as [|x l IH]; [reflexivity|]. cbn [map]. rewrite <- G by now left. f_equal.
    apply IH. intros; apply G; now right.
  Qed.

End Props.
