(** Lemmas about the objects that load drivers and mount debugfs. *)
From Coq Require Import Ascii String Lia.
From Verif Require Import Base M_Text M_CFreq M_Driver S_Systemd S_Driver L_Base L_Text L_Systemd L_Driver.
Open Scope list_scope.
Open Scope Z_scope.

Section Obj.
  Context {W : Type}.
  Variable h : host W.
  Variable mods : W -> list str.
  Hypothesis Ht : tells_modules h mods.
  Hypothesis Hs : sleep_harmless h mods.

  Lemma same_refl w : same_modules mods w w.
  Proof. intros m. tauto. Qed.

  (** an object made without a driver does nothing when it is closed; one that loaded the driver unloads it *)
  Lemma close_none n o w : d_unload o = false -> drv_close h n o w = (Ok (DOBJ false false), w).
  Proof. intros H. unfold drv_close, mbind. now rewrite H. Qed.
  Lemma close_drv n w r w' : rmmod_unloads h mods n -> drv_close h n (DOBJ true true) w = (r, w') ->
    match r with Ok _ => forall m, In m (mods w') <-> In m (mods w) /\ m <> n | Exn _ => same_modules mods w w' end.
  Proof.
    intros Hr. unfold drv_close, mbind. cbn [d_unload d_drv]. destruct (unload h n w) as [[[]|e] w1] eqn:E; intros H; injection H as <- <-;
    destruct (unload_ok h mods _ _ _ _ Ht Hr E) as [_ A]; exact A.
  Qed.
  Lemma close_works n o w : module_works h n -> (d_unload o = true -> d_drv o = true) -> exists o' w', drv_close h n o w = (Ok o', w').
  Proof.
    intros Hw Ho. unfold drv_close, mbind. destruct (d_unload o); [|eexists _, _; reflexivity]. rewrite (Ho eq_refl).
    destruct (unload_works h mods n w Ht Hw) as [w' E]. rewrite E. eexists _, _; reflexivity.
  Qed.

  Definition dev (cpu : Z) : str := s2l "/dev/cpu/" ++ dec cpu ++ s2l "/msr".
  Lemma dev_eq cpu : msr_dev cpu = dev cpu.
  Proof. reflexivity. Qed.

  Lemma msr_open_dev cpu t w : h_exists h (dev cpu) w = Ok true -> msr_open h (cpu :: t) w = (Ok (DOBJ false false), w).
  Proof. intros E. unfold msr_open, mbind, reads. rewrite dev_eq, E. reflexivity. Qed.
  Lemma msr_open_loaded cpu t w : h_exists h (dev cpu) w = Ok false -> In (s2l "msr") (mods w) -> msr_open h (cpu :: t) w = (Exn EError, w).
  Proof.
    intros E Hi. unfold msr_open, mbind, reads. rewrite dev_eq, E. destruct (is_loaded_ok h mods (s2l "msr") w Ht) as (b & Eb & Hb). rewrite Eb.
    apply Hb in Hi. now rewrite Hi.
  Qed.
  Lemma msr_open_step cpu t w : h_exists h (dev cpu) w = Ok false -> ~ In (s2l "msr") (mods w) ->
    msr_open h (cpu :: t) w = match load h (s2l "msr") [] false w with
                              | (Exn e, w1) => (Exn (if catches_error e then EError else e), w1)
                              | (Ok _, w1) => match wait_for_a_file h (dev cpu) 1000 1000 w1 with
                                              | (Ok _, w2) => (Ok (DOBJ true true), w2)
                                              | (Exn e, w2) => (Exn (if catches_error e then EError else e), w2)
                                              end
                              end.
  Proof.
    intros E Hi. unfold msr_open, mbind, reads. rewrite dev_eq, E. destruct (is_loaded_ok h mods (s2l "msr") w Ht) as (b & Eb & Hb). rewrite Eb.
    destruct b; [destruct Hi; now apply Hb|]. unfold wrap. destruct (load h (s2l "msr") [] false w) as [[[]|e] w1]; [|reflexivity].
    destruct (wait_for_a_file h (dev cpu) 1000 1000 w1) as [[[]|e] w2]; reflexivity.
  Qed.

  Lemma msr_open_ok cpus w o w1 : modprobe_loads h mods (s2l "msr") -> msr_open h cpus w = (Ok o, w1) ->
    exists cpu t, cpus = cpu :: t /\ h_exists h (dev cpu) w1 = Ok true /\
    ((o = DOBJ false false /\ w1 = w) \/
     (o = DOBJ true true /\ ~ In (s2l "msr") (mods w) /\ forall m, In m (mods w1) <-> In m (mods w) \/ m = s2l "msr")).
  Proof.
    intros Hl. destruct cpus as [|cpu t]; [discriminate|]. intros H. exists cpu, t. split; [reflexivity|].
    destruct (h_exists h (dev cpu) w) as [[|]|e] eqn:E.
    - rewrite (msr_open_dev _ _ _ E) in H. injection H as <- <-. auto.
    - destruct (str_in_dec (s2l "msr") (mods w)) as [Hi|Hi]; [rewrite (msr_open_loaded _ _ _ E Hi) in H; discriminate|].
      rewrite (msr_open_step _ _ _ E Hi) in H. destruct (load h (s2l "msr") [] false w) as [[[]|e] w2] eqn:E1; [|discriminate].
      destruct (wait_for_a_file h (dev cpu) 1000 1000 w2) as [[[]|e] w3] eqn:E2; [|discriminate]. injection H as <- <-.
      destruct (wait_found h _ _ _ _ _ E2) as (k & _ & Hx & _). split; [exact Hx|]. right. split; [reflexivity|]. split; [exact Hi|].
      destruct (load_ok h mods _ _ _ _ Ht Hl E1) as [_ A]. intros m. pose proof (wait_same h mods _ _ _ Hs _ _ _ E2 m) as B. rewrite B. apply A.
    - unfold msr_open, mbind, reads in H. rewrite dev_eq, E in H. discriminate.
  Qed.
  Lemma msr_open_bad cpus w e w1 : modprobe_loads h mods (s2l "msr") -> msr_open h cpus w = (Exn e, w1) ->
    forall m, m <> s2l "msr" -> (In m (mods w1) <-> In m (mods w)).
  Proof.
    intros Hl. destruct cpus as [|cpu t]; [intros H; injection H as <- <-; tauto|]. intros H m Hm.
    destruct (h_exists h (dev cpu) w) as [[|]|e'] eqn:E.
    - rewrite (msr_open_dev _ _ _ E) in H. discriminate.
    - destruct (str_in_dec (s2l "msr") (mods w)) as [Hi|Hi]; [rewrite (msr_open_loaded _ _ _ E Hi) in H; injection H as <- <-; tauto|].
      rewrite (msr_open_step _ _ _ E Hi) in H. destruct (load h (s2l "msr") [] false w) as [[[]|e'] w2] eqn:E1.
      + destruct (load_ok h mods _ _ _ _ Ht Hl E1) as [_ A].
        destruct (wait_for_a_file h (dev cpu) 1000 1000 w2) as [[[]|e'] w3] eqn:E2; [discriminate|]. injection H as <- <-.
        pose proof (wait_same h mods _ _ _ Hs _ _ _ E2 m) as B. rewrite B, A. tauto.
      + injection H as <- <-. destruct (load_ok h mods _ _ _ _ Ht Hl E1) as [_ A]. apply A.
    - unfold msr_open, mbind, reads in H. rewrite dev_eq, E in H. injection H as <- <-. tauto.
  Qed.
  Lemma msr_restored cpus w o w1 w2 o' w3 : modprobe_loads h mods (s2l "msr") -> rmmod_unloads h mods (s2l "msr") ->
    msr_open h cpus w = (Ok o, w1) -> same_modules mods w1 w2 -> msr_close h o w2 = (Ok o', w3) -> same_modules mods w w3.
  Proof.
    intros Hl Hr H1 H2 H3. destruct (msr_open_ok _ _ _ _ Hl H1) as (cpu & t & _ & _ & [[-> ->]|(-> & Hn & A)]).
    - unfold msr_close in H3. rewrite close_none in H3 by reflexivity. injection H3 as <- <-. exact H2.
    - pose proof (close_drv _ _ _ _ Hr H3) as B. cbn in B. intros m. rewrite B, (H2 m), A. split; [intros [[?|?] ?]; tauto|].
      intros Hm. split; [now left|]. intros ->. contradiction.
  Qed.
  Lemma msr_works cpu t w : module_works h (s2l "msr") ->
    (h_exists h (dev cpu) w = Ok true \/
     h_exists h (dev cpu) w = Ok false /\ ~ In (s2l "msr") (mods w) /\
     forall w', h_run h (s2l "modprobe msr ") w = (Ok tt, w') -> h_exists h (dev cpu) w' = Ok true) ->
    exists o w1, msr_open h (cpu :: t) w = (Ok o, w1) /\ forall w2, exists o' w3, msr_close h o w2 = (Ok o', w3).
  Proof.
    intros Hw [E|(E & Hn & Hx)].
    - eexists _, _. split; [exact (msr_open_dev _ _ _ E)|]. intros w2. eexists _, _. unfold msr_close. now rewrite close_none.
    - destruct (load_works h mods (s2l "msr") w Ht Hw Hn) as (w1 & E1 & E2). eexists _, _. split.
      + rewrite (msr_open_step _ _ _ E Hn), E1. rewrite (wait_at_once h _ _ _ w1); [reflexivity|lia|]. apply Hx. exact E2.
      + intros w2. now apply close_works.
  Qed.

  (** the uncore frequency driver *)
  Definition base_dir : str := s2l "/sys/devices/system/cpu/intel_uncore_frequency".
  Lemma uncore_open_ok ratio w o w1 : modprobe_loads h mods (uncore_drv ratio) -> uncore_open h true ratio w = (Ok o, w1) ->
    h_exists h base_dir w1 = Ok true /\
    ((o = DOBJ false false /\ w1 = w) \/
     (o = DOBJ true true /\ ~ In (uncore_drv ratio) (mods w) /\ forall m, In m (mods w1) <-> In m (mods w) \/ m = uncore_drv ratio)).
  Proof.
    intros Hl. unfold uncore_open. cbn [negb]. unfold mbind at 1, reads. change uncore_base with base_dir. destruct (h_exists h base_dir w) as [[|]|e] eqn:E; [| |discriminate].
    - intros H. injection H as <- <-. auto.
    - unfold probe_driver, mbind. change uncore_base with base_dir. destruct (is_loaded_ok h mods (uncore_drv ratio) w Ht) as (b & Eb & Hb). rewrite Eb. destruct b; cbn [fst snd]; [discriminate|].
      destruct (load h (uncore_drv ratio) [] false w) as [[[]|e] w2] eqn:E1; [|destruct (catches_error e); discriminate].
      destruct (wait_for_a_file h base_dir 1000 1000 w2) as [[[]|e] w3] eqn:E2; [|destruct (catches_error e); discriminate].
      intros H. injection H as <- <-. destruct (wait_found h _ _ _ _ _ E2) as (k & _ & Hx & _). split; [exact Hx|]. right. split; [reflexivity|].
      split; [intros Hi; apply Hb in Hi; discriminate|]. destruct (load_ok h mods _ _ _ _ Ht Hl E1) as [_ A].
      intros m. pose proof (wait_same h mods _ _ _ Hs _ _ _ E2 m) as B. rewrite B. apply A.
  Qed.
  Lemma uncore_restored ratio w o w1 w2 o' w3 : modprobe_loads h mods (uncore_drv ratio) -> rmmod_unloads h mods (uncore_drv ratio) ->
    uncore_open h true ratio w = (Ok o, w1) -> same_modules mods w1 w2 -> uncore_close h ratio o w2 = (Ok o', w3) -> same_modules mods w w3.
  Proof.
    intros Hl Hr H1 H2 H3. destruct (uncore_open_ok _ _ _ _ Hl H1) as (_ & [[-> ->]|(-> & Hn & A)]).
    - unfold uncore_close in H3. rewrite close_none in H3 by reflexivity. injection H3 as <- <-. exact H2.
    - pose proof (close_drv _ _ _ _ Hr H3) as B. cbn in B. intros m. rewrite B, (H2 m), A. split; [intros [[?|?] ?]; tauto|].
      intros Hm. split; [now left|]. intros ->. contradiction.
  Qed.
  Lemma uncore_works ratio w : module_works h (uncore_drv ratio) ->
    (h_exists h base_dir w = Ok true \/
     h_exists h base_dir w = Ok false /\ ~ In (uncore_drv ratio) (mods w) /\
     forall w', h_run h (s2l "modprobe " ++ uncore_drv ratio ++ s2l " ") w = (Ok tt, w') -> h_exists h base_dir w' = Ok true) ->
    exists o w1, uncore_open h true ratio w = (Ok o, w1) /\ forall w2, exists o' w3, uncore_close h ratio o w2 = (Ok o', w3).
  Proof.
    intros Hw [E|(E & Hn & Hx)]; unfold uncore_open; cbn [negb]; unfold mbind at 1, reads; change uncore_base with base_dir; rewrite E.
    - eexists _, _. split; [reflexivity|]. intros w2. eexists _, _. unfold uncore_close. now rewrite close_none.
    - destruct (load_works h mods (uncore_drv ratio) w Ht Hw Hn) as (w1 & E1 & E2). eexists _, _. split.
      + unfold probe_driver, mbind. change uncore_base with base_dir. destruct (is_loaded_ok h mods (uncore_drv ratio) w Ht) as (b & Eb & Hb). rewrite Eb.
        destruct b; [destruct Hn; now apply Hb|]. cbn [fst snd]. rewrite E1. rewrite (wait_at_once h _ _ _ w1); [reflexivity|lia|]. apply Hx. exact E2.
      + intros w2. now apply close_works.
  Qed.
  Lemma uncore_refused ratio w : uncore_open h false ratio w = (Exn ENotSupported, w) /\
    (h_exists h base_dir w = Ok false -> In (uncore_drv ratio) (mods w) -> uncore_open h true ratio w = (Exn ENotSupported, w)).
  Proof.
    split; [reflexivity|]. intros E Hi. unfold uncore_open; cbn [negb]; unfold mbind at 1, reads; change uncore_base with base_dir; rewrite E.
    unfold probe_driver, mbind. destruct (is_loaded_ok h mods (uncore_drv ratio) w Ht) as (b & Eb & Hb). rewrite Eb. apply Hb in Hi. now rewrite Hi.
  Qed.

  (** TPMI *)
  Variable mnts : W -> list (str * str).
  Hypothesis Hm : tells_mounts h mnts.
  Lemma tpmi_ok rest w f w1 : tpmi_open h rest w = (Ok f, w1) ->
    (f = false /\ mounted mnts (s2l "/sys/kernel/debug") w /\ rest w = (Ok tt, w1)) \/
    (f = true /\ ~ mounted mnts (s2l "/sys/kernel/debug") w /\
       exists w0, h_run h (mount_command (s2l "/sys/kernel/debug")) w = (Ok tt, w0) /\ rest w0 = (Ok tt, w1)).
  Proof.
    unfold tpmi_open, mbind. destruct (mount_ok h mnts (@None str) true w Hm) as [A B]. cbv zeta in A, B.
    assert (D : mounted mnts (s2l "/sys/kernel/debug") w \/ ~ mounted mnts (s2l "/sys/kernel/debug") w).
    { unfold mounted. generalize (mnts w) as l. intros l. induction l as [|[a b] l [IH|IH]]; [now right|left; now right|].
      destruct (str_eq_or a (s2l "/sys/kernel/debug")) as [-> |Ha]; [|right; intros [X|X]; [injection X as -> ->; now apply Ha|contradiction]].
      destruct (str_eq_or b (s2l "debugfs")) as [-> |Hb]; [left; now left|right; intros [X|X]; [injection X as ->; now apply Hb|contradiction]]. }
    destruct D as [D|D].
    - rewrite (A D). cbn [snd]. destruct (rest w) as [[[]|e] w2] eqn:E; [|discriminate]. intros H. injection H as <- <-. left. auto.
    - rewrite (B D eq_refl). destruct (h_run h (mount_command (s2l "/sys/kernel/debug")) w) as [[[]|e] w0] eqn:E; [|discriminate]. cbn [snd].
      destruct (rest w0) as [[[]|e] w2] eqn:E2; [|discriminate]. intros H. injection H as <- <-. right. split; [reflexivity|]. split; [exact D|]. eauto.
  Qed.
  Lemma tpmi_close_none w : tpmi_close h false w = (Ok tt, w).
  Proof. reflexivity. Qed.
End Obj.
