(** Lemmas about loading drivers and mounting debugfs. *)
From Coq Require Import Ascii String Lia.
From Verif Require Import Base M_Text M_Human M_CFreq M_Remote M_Driver S_Systemd S_Driver L_Base L_Text L_Human L_EP L_Remote L_Systemd.
Open Scope list_scope.
Open Scope Z_scope.

Lemma words_trail t : forall cur sp, spaces sp -> words_from (t ++ sp) cur = words_from t cur.
Proof.
  induction t as [|c t IH]; intros cur sp H; cbn [app words_from].
  - destruct cur as [|x cur]; [rewrite <- (app_nil_r sp); now rewrite words_spaces|].
    destruct sp as [|c sp]; [reflexivity|]. inversion H; subst. cbn [words_from]. match goal with X : is_space c = true |- _ => rewrite X end.
    f_equal. rewrite <- (app_nil_r sp). now rewrite words_spaces.
  - destruct (is_space c); [|now apply IH]. destruct cur; [now apply IH|f_equal; now apply IH].
Qed.
Lemma words_strip l : words (strip l) = words l.
Proof.
  destruct (strip_inv is_space l) as (b1 & b2 & E & H1 & H2). fold (strip l) in E. unfold words. rewrite E at 2.
  rewrite words_spaces by now apply spaces_forallb. now rewrite words_trail by now apply spaces_forallb.
Qed.

Lemma find_module_ok n ms ls : Forall2 module_line ms ls -> exists o, find_module n ls = Ok o /\ (o <> None <-> In n ms).
Proof.
  induction 1 as [|m l ms ls (_ & size & cnt & x & more & Hw & Hc) H (o & IH1 & IH2)]; [exists None; cbn; tauto|]. cbn [find_module].
  apply words_has in Hw. rewrite <- words_strip in Hw. destruct (strip l) as [|c t] eqn:Es; [discriminate|]. rewrite Hw.
  destruct (str_eqb m n) eqn:E.
  - apply str_eqb_eq in E. subst m. rewrite py_int_dec by exact Hc. exists (Some cnt). split; [reflexivity|]. split; [intros _; now left|discriminate].
  - exists o. split; [exact IH1|]. rewrite IH2. cbn [In]. split; [now right|]. intros [->|Hi]; [|exact Hi].
    assert (str_eqb n n = true) by now apply str_eqb_eq. congruence.
Qed.

Lemma find_debugfs_ok p ms ls : Forall2 mount_line ms ls -> exists b, find_debugfs p ls = Ok b /\ (b = true <-> In (p, s2l "debugfs") ms).
Proof.
  induction 1 as [|[q ty] l ms ls (_ & dev & opts & x & more & Hw) H (o & IH1 & IH2)]; [exists false; cbn; intuition discriminate|].
  apply words_has in Hw. cbn [fst snd] in Hw. destruct l as [|c t] eqn:Es; [discriminate|]. cbn [find_debugfs]. rewrite Hw.
  destruct (str_eqb ty (s2l "debugfs") && str_eqb q p) eqn:E.
  - apply andb_true_iff in E as [E1 E2]. apply str_eqb_eq in E1, E2. subst. exists true. cbn; tauto.
  - exists o. split; [exact IH1|]. rewrite IH2. cbn [In]. split; [now right|]. intros [X|Hi]; [|exact Hi]. injection X as -> ->.
    assert (forall s, str_eqb s s = true) as R by (intros s; now apply str_eqb_eq). rewrite !R in E. discriminate.
Qed.

Lemma F2_lines {A} (R : A -> str -> Prop) l ls : (forall a x, R a x -> one_line x) -> Forall2 R l ls -> Forall (fun x => ~ In nl x) ls.
Proof. intros H. induction 1; constructor; [eapply H; eassumption|assumption]. Qed.

Section Drv.
  Context {W : Type}.
  Variable h : host W.
  Variable mods : W -> list str.

  Lemma is_loaded_ok n w : tells_modules h mods -> exists b, is_loaded h n w = (Ok b, w) /\ (b = true <-> In n (mods w)).
  Proof.
    intros Ht. destruct (Ht w) as (ls & E & H). destruct (find_module_ok n _ _ H) as (o & Eo & Ho).
    unfold is_loaded, get_usage_count, reads, mbind. rewrite E. cbn [rbind]. unfold text_of.
    change newline with nl. rewrite splitlines_concat by (eapply F2_lines; [|exact H]; intros a x [X _]; exact X). rewrite Eo. cbn [ret].
    destruct o as [z|]; eexists; (split; [reflexivity|]).
    - split; [intros _; apply Ho; discriminate|reflexivity].
    - split; [discriminate|intros Hi; apply Ho in Hi; congruence].
  Qed.

  Lemma unload_ok n w r w' : tells_modules h mods -> rmmod_unloads h mods n -> unload h n w = (r, w') ->
    (~ In n (mods w) -> r = Ok tt /\ w' = w) /\
    match r with Ok _ => forall m, In m (mods w') <-> In m (mods w) /\ m <> n | Exn _ => same_modules mods w w' end.
  Proof.
    intros Ht Hr. unfold unload, mbind. destruct (is_loaded_ok n w Ht) as (b & E & Hb). rewrite E. destruct b.
    - unfold run_mod_cmd, reads, mbind. destruct (h_dmesg h w) as [[]|e].
      + intros H. split; [intros Hn; destruct Hn; now apply Hb|]. exact (Hr _ _ _ H).
      + intros H. injection H as <- <-. split; [intros Hn; destruct Hn; now apply Hb|]. intros m. tauto.
    - intros H. injection H as <- <-. split; [auto|]. intros m. split; [|tauto]. intros Hm. split; [exact Hm|]. intros ->. apply Hb in Hm. discriminate.
  Qed.

  Lemma load_ok n w r w' : tells_modules h mods -> modprobe_loads h mods n -> load h n [] false w = (r, w') ->
    (In n (mods w) -> r = Ok tt /\ w' = w) /\
    match r with Ok _ => forall m, In m (mods w') <-> In m (mods w) \/ m = n | Exn _ => same_modules mods w w' end.
  Proof.
    intros Ht Hr. unfold load, mbind. destruct (is_loaded_ok n w Ht) as (b & E & Hb). rewrite E. cbn [ret]. rewrite app_nil_r. destruct b; cbn [negb].
    - intros H. injection H as <- <-. split; [auto|]. intros m. split; [tauto|]. intros [Hm| ->]; [exact Hm|now apply Hb].
    - unfold run_mod_cmd, reads, mbind. destruct (h_dmesg h w) as [[]|e].
      + intros H. split; [intros Hn; apply Hb in Hn; discriminate|]. exact (Hr _ _ _ H).
      + intros H. injection H as <- <-. split; [intros Hn; apply Hb in Hn; discriminate|]. intros m. tauto.
  Qed.
  Lemma reload_ok n w r w' : tells_modules h mods -> modprobe_loads h mods n -> rmmod_unloads h mods n -> load h n [] true w = (r, w') ->
    (r = Ok tt -> forall m, In m (mods w') <-> In m (mods w) \/ m = n) /\
    (forall m, m <> n -> (In m (mods w') <-> In m (mods w))).
  Proof.
    intros Ht Hl Hr. unfold load, mbind. rewrite app_nil_r. destruct (unload h n w) as [[[]|e] w1] eqn:E.
    - destruct (unload_ok _ _ _ _ Ht Hr E) as [_ A]. cbn [ret]. unfold run_mod_cmd, reads, mbind. destruct (h_dmesg h w1) as [[]|e].
      + intros H. pose proof (Hl _ _ _ H) as B. destruct r as [[]|e].
        * split; [intros _|]; intros m; rewrite B, A; destruct (str_eq_or m n); tauto.
        * split; [discriminate|]. intros m Hm. unfold same_modules in B. rewrite B, A. tauto.
      + intros H. injection H as <- <-. split; [discriminate|]. intros m Hm. rewrite A. tauto.
    - intros H. injection H as <- <-. destruct (unload_ok _ _ _ _ Ht Hr E) as [_ A]. split; [discriminate|]. intros m Hm. apply A.
  Qed.

  Lemma reload_afresh n w w' : tells_modules h mods -> load h n [] true w = (Ok tt, w') -> In n (mods w) ->
    exists w1, h_run h (s2l "rmmod " ++ n) w = (Ok tt, w1) /\ h_run h (s2l "modprobe " ++ n ++ s2l " ") w1 = (Ok tt, w').
  Proof.
    intros Ht H Hi. unfold load, unload, mbind in H. destruct (is_loaded_ok n w Ht) as (b & E & Hb). rewrite E in H. apply Hb in Hi. subst b.
    rewrite app_nil_r in H. unfold run_mod_cmd, reads, mbind in H. destruct (h_dmesg h w) as [[]|e]; [|discriminate].
    destruct (h_run h (s2l "rmmod " ++ n) w) as [[[]|e] w1]; [|discriminate]. cbn [ret] in H. destruct (h_dmesg h w1) as [[]|e]; [|discriminate].
    eauto.
  Qed.

  Lemma load_works n w : tells_modules h mods -> module_works h n -> ~ In n (mods w) ->
    exists w', load h n [] false w = (Ok tt, w') /\ h_run h (s2l "modprobe " ++ n ++ s2l " ") w = (Ok tt, w').
  Proof.
    intros Ht (H1 & H2 & _) Hn. destruct (H2 w) as [w' E]. exists w'. split; [|exact E]. unfold load, mbind.
    destruct (is_loaded_ok n w Ht) as (b & El & Hb). rewrite El. destruct b; [destruct Hn; now apply Hb|]. cbn [ret negb]. rewrite app_nil_r.
    unfold run_mod_cmd, reads, mbind. rewrite H1. exact E.
  Qed.
  Lemma unload_works n w : tells_modules h mods -> module_works h n -> exists w', unload h n w = (Ok tt, w').
  Proof.
    intros Ht (H1 & _ & H2). unfold unload, mbind. destruct (is_loaded_ok n w Ht) as (b & El & Hb). rewrite El. destruct b; [|eexists; reflexivity].
    destruct (H2 w) as [w' E]. unfold run_mod_cmd, reads, mbind. rewrite H1. eauto.
  Qed.

  (** waiting *)
  Lemma after_S k i (w : W) : after h (S k) i w = h_sleep h i (after h k i w).
  Proof. revert w. induction k as [|k IH]; intros w; [reflexivity|]. cbn [after] in *. now rewrite IH. Qed.

  Lemma wait_ok p i t start n : forall k w0 w', wait_loop h n p i t start (after h k i w0) = (Ok tt, w') ->
    exists k', (k <= k')%nat /\ w' = after h k' i w0 /\ h_exists h p w' = Ok true /\ h_now h w' - start < t /\
      forall j, (k <= j < k')%nat -> h_exists h p (after h j i w0) = Ok false.
  Proof.
    induction n as [|n IH]; intros k w0 w'; cbn [wait_loop]; [discriminate|]. unfold mbind, gets, reads.
    destruct (h_now h (after h k i w0) - start <? t) eqn:E; [|discriminate]. destruct (h_exists h p (after h k i w0)) as [[|]|e] eqn:Ee; [| |discriminate].
    - intros H. injection H as <-. exists k. split; [lia|]. split; [reflexivity|]. split; [exact Ee|]. split; [lia|]. intros j Hj. lia.
    - unfold modify. rewrite <- after_S. intros H. destruct (IH _ _ _ H) as (k' & Hk & -> & H1 & H2 & H3). exists k'. split; [lia|].
      split; [reflexivity|]. split; [exact H1|]. split; [exact H2|]. intros j Hj. destruct (PeanoNat.Nat.eq_dec j k) as [-> |Hne]; [exact Ee|]. apply H3. lia.
  Qed.
  Lemma wait_bad p i t : 0 < i -> clock_goes h -> (forall w, exists b, h_exists h p w = Ok b) ->
    forall n k w0 e w', (Z.of_nat n + Z.of_nat k = t / i + 1 \/ t < 0) -> Z.of_nat k * i <= h_now h (after h k i w0) - h_now h w0 ->
    wait_loop h n p i t (h_now h w0) (after h k i w0) = (Exn e, w') ->
    e = EError /\ exists k', (k <= k')%nat /\ w' = after h k' i w0 /\ t <= h_now h w' - h_now h w0 /\
      forall j, (k <= j < k')%nat -> h_exists h p (after h j i w0) = Ok false.
  Proof.
    intros Hi Hc Hx. induction n as [|n IH]; intros k w0 e w' Hn Hk; cbn [wait_loop].
    - intros H. injection H as <- <-. split; [reflexivity|]. exists k. split; [lia|]. split; [reflexivity|]. split; [|intros j Hj; lia].
      destruct Hn as [Hn|Hn]; [|nia]. pose proof (Z.mod_pos_bound t i Hi). pose proof (Z.div_mod t i). nia.
    - unfold mbind, gets, reads. destruct (h_now h (after h k i w0) - h_now h w0 <? t) eqn:E.
      + destruct (Hx (after h k i w0)) as [b Eb]. rewrite Eb. destruct b; [discriminate|]. unfold modify. rewrite <- after_S. intros H.
        destruct (IH (S k) w0 e w') as (-> & k' & Hk' & -> & H1 & H2); [lia| |exact H|].
        { pose proof (Hc i (after h k i w0) ltac:(lia)) as X. rewrite <- after_S in X. nia. }
        split; [reflexivity|]. exists k'. split; [lia|]. split; [reflexivity|]. split; [exact H1|]. intros j Hj.
        destruct (PeanoNat.Nat.eq_dec j k) as [-> |Hne]; [exact Eb|]. apply H2. lia.
      + intros H. injection H as <- <-. split; [reflexivity|]. exists k. split; [lia|]. split; [reflexivity|]. split; [lia|]. intros j Hj. lia.
  Qed.
  Lemma after_same i k : sleep_harmless h mods -> forall w, same_modules mods w (after h k i w).
  Proof. intros Hs. induction k as [|k IH]; intros w m; [tauto|]. cbn [after]. rewrite (IH _ m). apply Hs. Qed.
  Lemma wait_same p i t : sleep_harmless h mods -> forall w r w', wait_for_a_file h p i t w = (r, w') -> same_modules mods w w'.
  Proof.
    intros Hs w r w'. unfold wait_for_a_file, mbind, gets. generalize (h_now h w) as st. intros st.
    generalize (S (Z.to_nat (t / i))) as n. intros n. revert w. induction n as [|n IH]; intros w; cbn [wait_loop].
    - intros H. injection H as _ <-. intros m. tauto.
    - unfold mbind, gets, reads. destruct (_ <? _); [|intros H; injection H as _ <-; intros m; tauto].
      destruct (h_exists h p w) as [[|]|e]; [intros H; injection H as _ <-; intros m; tauto| |intros H; injection H as _ <-; intros m; tauto].
      unfold modify. intros H. intros m. rewrite (IH _ H m). apply Hs.
  Qed.
  Lemma wait_found p i t w w' : wait_for_a_file h p i t w = (Ok tt, w') ->
    exists k, w' = after h k i w /\ h_exists h p w' = Ok true /\ h_now h w' - h_now h w < t /\ forall j, (j < k)%nat -> h_exists h p (after h j i w) = Ok false.
  Proof.
    unfold wait_for_a_file, mbind, gets. intros H. destruct (wait_ok _ _ _ _ _ 0%nat w w' H) as (k & _ & E & H1 & H2 & H3).
    exists k. split; [exact E|]. split; [exact H1|]. split; [exact H2|]. intros j Hj. apply H3. lia.
  Qed.
  Lemma wait_failed p i t w e w' : 0 < i -> 0 <= t -> clock_goes h -> (forall w, exists b, h_exists h p w = Ok b) ->
    wait_for_a_file h p i t w = (Exn e, w') ->
    e = EError /\ exists k, w' = after h k i w /\ t <= h_now h w' - h_now h w /\ forall j, (j < k)%nat -> h_exists h p (after h j i w) = Ok false.
  Proof.
    intros Hi Ht Hc Hx. unfold wait_for_a_file, mbind, gets. intros H.
    destruct (wait_bad p i t Hi Hc Hx (S (Z.to_nat (t / i))) 0%nat w e w') as (-> & k & _ & E & H1 & H2); [| |exact H|].
    - left. rewrite Nat2Z.inj_succ, Z2Nat.id by (apply Z.div_pos; lia). lia.
    - cbn. lia.
    - split; [reflexivity|]. exists k. split; [exact E|]. split; [exact H1|]. intros j Hj. apply H2. lia.
  Qed.
  Lemma wait_at_once p i t w : 0 < t -> h_exists h p w = Ok true -> wait_for_a_file h p i t w = (Ok tt, w).
  Proof.
    intros Ht He. unfold wait_for_a_file, mbind, gets. cbn [wait_loop]. unfold mbind, gets, reads. rewrite Z.sub_diag.
    destruct (0 <? t) eqn:E; [|lia]. now rewrite He.
  Qed.

  (** mounting *)
  Variable mnts : W -> list (str * str).
  Lemma mount_ok given pman w : tells_mounts h mnts ->
    let p := match given with None | Some [] => s2l "/sys/kernel/debug" | Some p => p end in
    (mounted mnts p w -> mount_debugfs h given pman w = (Ok (p, false), w)) /\
    (~ mounted mnts p w -> pman = true -> mount_debugfs h given pman w =
        match h_run h (mount_command p) w with (Ok _, w') => (Ok (p, true), w') | (Exn e, w') => (Exn e, w') end).
  Proof.
    intros Ht p. destruct (Ht w) as (ls & E & H). destruct (find_debugfs_ok p _ _ H) as (b & Eb & Hb).
    assert (X : (let? t := h_mounts h w in find_debugfs p (splitlines t)) = Ok b).
    { rewrite E. cbn [rbind]. unfold text_of. change newline with nl.
      rewrite splitlines_concat by (eapply F2_lines; [|exact H]; intros a x [X _]; exact X). exact Eb. }
    assert (Y : mount_debugfs h given pman w = match reads (fun w => let? t := h_mounts h w in find_debugfs p (splitlines t)) w with
       | (Ok true, w) => (Ok (p, false), w)
       | (Ok false, w) => if pman then (h_run h (mount_command p) ;; ret (p, true)) w else (Exn EIndex, w)
       | (Exn e, w) => (Exn e, w)
       end).
    { unfold mount_debugfs, mbind, reads. subst p. destruct given as [[|c q]|]; cbv zeta;
      change debugfs_mnt with (s2l "/sys/kernel/debug");
      destruct (let? t := h_mounts h w in find_debugfs _ (splitlines t)) as [[|]|e]; try reflexivity; now destruct pman. }
    rewrite Y. unfold reads. rewrite X. split.
    - intros Hm. apply Hb in Hm. now rewrite Hm.
    - intros Hm ->. destruct b; [destruct Hm; now apply Hb|]. unfold mbind. destruct (h_run h _ w) as [[[]|e] w']; reflexivity.
  Qed.
End Drv.
