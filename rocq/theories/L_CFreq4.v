(** Settings of Linux CPU frequency drivers: base frequency, CPPC numbers and lists of frequencies. *)
From Coq Require Import Ascii String Sorting.Permutation Sorting.Sorted.
From Verif Require Import Base L_Base L_Monad M_Text S_Text L_Text M_Sysfs S_Sysfs L_Sysfs S_SysView L_SysView
  L_Uncore3 M_CFreq S_CFreq L_CFreq L_CFreq2 L_CFreq3.
From Coq Require Import ZifyBool.
Open Scope list_scope.

Section Numbers.
  Variable k : senv.

  Lemma kept_refl s : numbers_kept k s s.
  Proof. now repeat split. Qed.

  Lemma kept_trans a b c : numbers_kept k a b -> numbers_kept k b c -> numbers_kept k a c.
  Proof. intros (A1 & A2 & A3 & A4 & A5) (B1 & B2 & B3 & B4 & B5). repeat split; congruence. Qed.

  Lemma kept_unseen s s' : unseen k s s' -> numbers_kept k s s'.
  Proof. intros U. pose proof U as (_ & H2 & H3 & H4 & H5). repeat split; auto. intros p. now apply unseen_int. Qed.

  (** A reader of one number per CPU *)
  Definition nreads (f : Z -> M sstate Z) (g : sstate -> Z -> res Z) : Prop :=
    (forall s c, exists s', f c s = (g s c, s') /\ numbers_kept k s s') /\
    (forall s s' c, numbers_kept k s s' -> g s' c = g s c).

  Lemma nreads_all f g : nreads f g -> forall cpus s,
    exists s', mmap cpus (fun c => let! v := f c in ret (c, v)) s = (each (g s) cpus, s') /\ numbers_kept k s s'.
  Proof.
    intros [H1 H2]. induction cpus as [|c cpus IH]; intros s; [exists s; split; [reflexivity|apply kept_refl]|].
    cbn [mmap]. unfold each. cbn [rmap]. destruct (H1 s c) as (s1 & E1 & U1).
    unfold mbind at 1 2. rewrite E1. destruct (g s c) as [v|e]; [|exists s1; split; [reflexivity|exact U1]].
    unfold ret at 1. cbn [rbind]. unfold mbind at 1.
    destruct (IH s1) as (s2 & E2 & U2). rewrite E2. exists s2. split; [|eapply kept_trans; eassumption].
    assert (X : each (g s1) cpus = each (g s) cpus).
    { unfold each. apply rmap_same. intros x _. now rewrite (H2 s s1 x U1). }
    rewrite X. unfold each. destruct (rmap cpus _); reflexivity.
  Qed.

  Lemma nreads_iff f g : nreads f g -> forall cpus s,
    (forall l, (exists s', mmap cpus (fun c => let! v := f c in ret (c, v)) s = (Ok l, s')) <->
       one_each cpus l (fun c v => g s c = Ok v)) /\
    (forall r s', mmap cpus (fun c => let! v := f c in ret (c, v)) s = (r, s') -> numbers_kept k s s').
  Proof.
    intros H cpus s. destruct (nreads_all f g H cpus s) as (s1 & E1 & U1). split.
    - intros l. rewrite <- each_iff. split.
      + intros (s2 & E2). rewrite E1 in E2. now injection E2 as -> _.
      + intros X. exists s1. now rewrite E1, X.
    - intros r s2 E2. rewrite E1 in E2. injection E2 as _ <-. exact U1.
  Qed.

  (** A generator that reads as far as it can *)
  Lemma gen_read_run f g : nreads f g -> forall cpus s, exists l eo s',
    gen_read f cpus s = (l, eo, s') /\ numbers_kept k s s' /\ exists pre rest, cpus = pre ++ rest /\
    one_each pre l (fun c v => g s c = Ok v) /\
    match eo with None => rest = [] | Some e => exists c t, rest = c :: t /\ g s c = Exn e end.
  Proof.
    intros [H1 H2]. induction cpus as [|c cpus IH]; intros s; cbn [gen_read].
    - exists [], None, s. split; [reflexivity|]. split; [apply kept_refl|]. exists [], []. split; [reflexivity|].
      split; [split; [reflexivity|intros c v []]|reflexivity].
    - destruct (H1 s c) as (s1 & E1 & U1). rewrite E1. destruct (g s c) as [v|e] eqn:Eg.
      + destruct (IH s1) as (l & eo & s2 & E2 & U2 & pre & rest & Ec & [O1 O2] & Er). rewrite E2.
        exists ((c, v) :: l), eo, s2. split; [reflexivity|]. split; [eapply kept_trans; eassumption|].
        exists (c :: pre), rest. split; [now rewrite Ec|]. split.
        * split; [cbn; now rewrite O1|]. intros c' v' [[= <- <-]|Hin]; [exact Eg|].
          rewrite <- (H2 s s1) by exact U1. now apply O2.
        * destruct eo; [|exact Er]. destruct Er as (c1 & t & -> & X). exists c1, t. split; [reflexivity|].
          now rewrite (H2 s s1) in X.
      + exists [], (Some e), s1. split; [reflexivity|]. split; [exact U1|]. exists [], (c :: cpus). split; [reflexivity|].
        split; [split; [reflexivity|intros c' v []]|]. now exists c, cpus.
  Qed.

  Lemma number_reads (path : Z -> str) (m : Z) :
    nreads (fun c => let! f := s_read_int k (path c) in ret (f * m))
           (fun s c => match seen_int k s (path c) with Ok n => Ok (n * m) | Exn e => Exn e end).
  Proof.
    split.
    - intros s c. unfold mbind. destruct (s_read_int_run k (path c) s) as (s1 & E1 & U1). rewrite E1. exists s1.
      split; [|now apply kept_unseen]. destruct (seen_int k s (path c)); reflexivity.
    - intros s s' c (H & _). now rewrite H.
  Qed.

  (** ** Base frequency *)
  Lemma left_cpus pre rest : NoDup (pre ++ rest) ->
    filter (fun cpu => negb (existsb (Z.eqb cpu) pre)) (pre ++ rest) = rest.
  Proof.
    intros N. rewrite filter_app.
    assert (A : forall l, (forall x, In x l -> In x pre) -> filter (fun cpu => negb (existsb (Z.eqb cpu) pre)) l = []).
    { induction l as [|x l IH]; intros H; [reflexivity|]. cbn [filter].
      assert (existsb (Z.eqb x) pre = true) as ->. { apply existsb_exists. exists x. split; [apply H; now left|lia]. }
      cbn. apply IH. intros y Hy. apply H. now right. }
    rewrite A by auto. cbn.
    assert (B : forall l, (forall x, In x l -> ~ In x pre) -> filter (fun cpu => negb (existsb (Z.eqb cpu) pre)) l = l).
    { induction l as [|x l IH]; intros H; [reflexivity|]. cbn [filter].
      assert (existsb (Z.eqb x) pre = false) as ->.
      { destruct (existsb (Z.eqb x) pre) eqn:E; [|reflexivity]. apply existsb_exists in E as (y & Hy & E).
        assert (y = x) as -> by lia. exfalso. apply (H x); [now left|exact Hy]. }
      cbn. f_equal. apply IH. intros y Hy. apply H. now right. }
    apply B. intros x Hx Hp. clear A B. induction pre as [|y pre IH]; [destruct Hp|]. inversion N; subst.
    destruct Hp as [-> |Hp]; [apply H1, in_or_app; now right|now apply IH].
  Qed.

  Lemma bios_mmap cpus s : base_freq_bios k cpus s =
    mmap cpus (fun c => let! v := (let! f := s_read_int k (bios_limit_path c) in ret (f * 1000)) in ret (c, v)) s.
  Proof.
    unfold base_freq_bios. revert s. induction cpus as [|c cpus IH]; intros s; [reflexivity|]. cbn [mmap]. unfold mbind, ret.
    destruct (s_read_int k (bios_limit_path c) s) as [[v|e] s1]; [|reflexivity]. rewrite IH.
    destruct (mmap cpus _ s1) as [[l|e] s2]; reflexivity.
  Qed.

  Lemma base_run cpus s : NoDup cpus -> exists r s', get_base_freq k cpus s = (r, s') /\ numbers_kept k s s' /\
    exists pre rest, cpus = pre ++ rest /\
      (forall c, In c pre -> exists n, seen_int k s (base_path c) = Ok n) /\
      (forall c t, rest = c :: t -> exists e, seen_int k s (base_path c) = Exn e) /\
      match r with
      | Ok l => map fst l = cpus /\
          (forall c v, In (c, v) l -> In c pre -> exists n, seen_int k s (base_path c) = Ok n /\ v = n * 1000) /\
          (forall c v, In (c, v) l -> In c rest -> exists n, seen_int k s (bios_limit_path c) = Ok n /\ v = n * 1000) /\
          (forall c t, rest = c :: t -> seen_int k s (base_path c) = Exn ENotSupported)
      | Exn e => exists c t, rest = c :: t /\
          ((seen_int k s (base_path c) = Exn e /\ e <> ENotSupported) \/
           (seen_int k s (base_path c) = Exn ENotSupported /\ exists c', In c' rest /\ seen_int k s (bios_limit_path c') = Exn e))
      end.
  Proof.
    intros N. unfold get_base_freq, base_freq_pstate_cpu.
    destruct (gen_read_run _ _ (number_reads base_path 1000) cpus s) as (l & eo & s1 & E1 & U1 & pre & rest & Ec & [O1 O2] & Er).
    rewrite E1. clear E1.
    assert (P1 : forall c, In c pre -> exists n, seen_int k s (base_path c) = Ok n).
    { intros c Hc. rewrite <- O1 in Hc. apply in_map_iff in Hc as ([c' v] & E & Hin). cbn in E. subst c'.
      specialize (O2 c v Hin). cbn beta in O2. destruct (seen_int k s (base_path c)) as [n|]; [now exists n|discriminate]. }
    assert (P2 : forall c v, In (c, v) l -> exists n, seen_int k s (base_path c) = Ok n /\ v = n * 1000).
    { intros c v Hin. specialize (O2 c v Hin). cbn beta in O2.
      destruct (seen_int k s (base_path c)) as [n|]; [|discriminate]. exists n. split; [reflexivity|congruence]. }
    assert (D : forall c, In c pre -> ~ In c rest).
    { rewrite Ec in N. clear - N. induction pre as [|y pre IH]; [intros c []|]. inversion N; subst.
      intros c [-> |Hc] Hr; [apply H1, in_or_app; now right|now apply (IH H2 c)]. }
    destruct eo as [e|].
    - destruct Er as (c & t & Er & He). cbn beta in He.
      destruct (seen_int k s (base_path c)) as [n|e0] eqn:Eb; [discriminate|]. injection He as ->.
      assert (P3 : forall c0 t0, rest = c0 :: t0 -> exists e0, seen_int k s (base_path c0) = Exn e0).
      { intros c0 t0 X. rewrite Er in X. injection X as <- _. now exists e. }
      assert (Dec : {e = ENotSupported} + {e <> ENotSupported}) by (destruct e; (left; reflexivity) || (right; discriminate)).
      destruct Dec as [-> |Hne].
      + rewrite O1. rewrite Ec, left_cpus by now rewrite <- Ec. rewrite bios_mmap.
        destruct (nreads_all _ _ (number_reads bios_limit_path 1000) rest s1) as (s2 & E2 & U2). rewrite E2.
        destruct (each _ rest) as [l2|e2] eqn:E3.
        * exists (Ok (l ++ l2)), s2. split; [reflexivity|]. split; [eapply kept_trans; eassumption|].
          apply each_iff in E3 as [Q1 Q2].
          exists pre, rest. split; [reflexivity|]. split; [exact P1|]. split; [exact P3|]. split; [rewrite map_app, O1; now f_equal|].
          assert (P4 : forall c0 v, In (c0, v) l2 -> exists n, seen_int k s (bios_limit_path c0) = Ok n /\ v = n * 1000).
          { intros c0 v Hin. specialize (Q2 c0 v Hin). cbn beta in Q2. rewrite (proj1 U1) in Q2.
            destruct (seen_int k s (bios_limit_path c0)) as [n|]; [|discriminate]. exists n. split; [reflexivity|congruence]. }
          assert (L1 : forall c0 v, In (c0, v) l -> In c0 pre).
          { intros c0 v Hin. rewrite <- O1. apply in_map_iff. now exists (c0, v). }
          assert (L2 : forall c0 v, In (c0, v) l2 -> In c0 rest).
          { intros c0 v Hin. rewrite <- Q1. apply in_map_iff. now exists (c0, v). }
          split; [|split].
          -- intros c0 v Hin Hp. apply in_app_or in Hin as [Hin|Hin]; [now apply P2|]. exfalso. eapply D; [exact Hp|]. eapply L2; exact Hin.
          -- intros c0 v Hin Hp. apply in_app_or in Hin as [Hin|Hin]; [|now apply P4]. exfalso. eapply D; [eapply L1; exact Hin|exact Hp].
          -- intros c0 t0 X. rewrite Er in X. injection X as <- _. exact Eb.
        * exists (Exn e2), s2. split; [reflexivity|]. split; [eapply kept_trans; eassumption|].
          exists pre, rest. split; [reflexivity|]. split; [exact P1|]. split; [exact P3|]. exists c, t. split; [exact Er|]. right.
          split; [exact Eb|]. clear - E3 U1. unfold each in E3. induction rest as [|x rest IH]; [discriminate|]. cbn [rmap] in E3.
          rewrite (proj1 U1) in E3. destruct (seen_int k s (bios_limit_path x)) as [n|e] eqn:Ex.
          -- cbn [rbind] in E3. match type of E3 with rbind ?r _ = _ => destruct r as [y|z] eqn:Ey end; [discriminate|].
             destruct IH as (c' & Hc' & X). { exact E3. } exists c'. split; [now right|exact X].
          -- injection E3 as ->. exists x. split; [now left|exact Ex].
      + exists (Exn e), s1. split; [destruct e; reflexivity || congruence|]. split; [exact U1|]. exists pre, rest.
        split; [exact Ec|]. split; [exact P1|]. split; [exact P3|]. exists c, t. split; [exact Er|]. left. now split.
    - exists (Ok l), s1. split; [reflexivity|]. split; [exact U1|]. exists pre, rest. split; [exact Ec|]. split; [exact P1|].
      rewrite Er. split; [intros c t X; discriminate|]. split; [rewrite O1, Ec, Er; now rewrite app_nil_r|].
      split; [intros c v Hin _; now apply P2|]. split; [intros c v _ []|intros c t X; discriminate].
  Qed.

  Lemma base_ok cpus s l s' : NoDup cpus -> get_base_freq k cpus s = (Ok l, s') ->
    map fst l = cpus /\ numbers_kept k s s' /\
    exists pre rest, cpus = pre ++ rest /\
      (forall c v, In (c, v) l -> In c pre -> exists n, seen_int k s (base_file c) = Ok n /\ v = n * 1000) /\
      (forall c v, In (c, v) l -> In c rest -> exists n, seen_int k s (bios_file c) = Ok n /\ v = n * 1000) /\
      (forall c t, rest = c :: t -> seen_int k s (base_file c) = Exn ENotSupported).
  Proof.
    intros N E. destruct (base_run cpus s N) as (r & s1 & E1 & U & pre & rest & Ec & P1 & P2 & P3).
    rewrite E in E1. injection E1 as <- <-. destruct P3 as (A & B & C & D). split; [exact A|]. split; [exact U|].
    exists pre, rest. auto.
  Qed.

  Lemma base_from_file cpus s (f : Z -> Z) : NoDup cpus -> (forall c, In c cpus -> seen_int k s (base_file c) = Ok (f c)) ->
    exists s', get_base_freq k cpus s = (Ok (map (fun c => (c, f c * 1000)) cpus), s') /\ numbers_kept k s s'.
  Proof.
    intros N H. unfold get_base_freq, base_freq_pstate_cpu.
    destruct (gen_read_run _ _ (number_reads base_path 1000) cpus s) as (l & eo & s1 & E1 & U1 & pre & rest & Ec & [O1 O2] & Er).
    rewrite E1. exists s1. destruct eo as [e|].
    - destruct Er as (c & t & -> & X). cbn beta in X. change (base_path c) with (base_file c) in X.
      rewrite H in X; [discriminate|]. rewrite Ec. apply in_or_app. right. now left.
    - split; [|exact U1]. f_equal. f_equal. subst rest. rewrite app_nil_r in Ec. subst pre. rewrite <- O1, map_map.
      rewrite <- (map_id l) at 1. apply map_ext_in. intros [c v] Hin. cbn [fst]. specialize (O2 c v Hin). cbn beta in O2.
      change (base_path c) with (base_file c) in O2. rewrite H in O2; [congruence|]. rewrite <- O1. apply in_map_iff. now exists (c, v).
  Qed.

  Lemma base_from_bios cpus s (f : Z -> Z) : NoDup cpus ->
    (forall c, In c cpus -> seen_int k s (base_file c) = Exn ENotSupported /\ seen_int k s (bios_file c) = Ok (f c)) ->
    exists s', get_base_freq k cpus s = (Ok (map (fun c => (c, f c * 1000)) cpus), s') /\ numbers_kept k s s'.
  Proof.
    intros N H. destruct (base_run cpus s N) as (r & s1 & E1 & U & pre & rest & Ec & P1 & P2 & P3).
    exists s1. rewrite E1. split; [|exact U]. f_equal.
    assert (pre = []) as ->.
    { destruct pre as [|c pre]; [reflexivity|]. destruct (P1 c (or_introl eq_refl)) as (n & X).
      destruct (H c) as [Y _]; [rewrite Ec; now left|]. change (base_path c) with (base_file c) in X. congruence. }
    cbn in Ec. subst rest. destruct r as [l|e].
    - destruct P3 as (A & _ & B & _). f_equal. rewrite <- A, map_map. rewrite <- (map_id l) at 1. apply map_ext_in.
      intros [c v] Hin. cbn [fst]. assert (Hc : In c cpus) by (rewrite <- A; apply in_map_iff; now exists (c, v)).
      destruct (B c v Hin Hc) as (n & X & ->). change (bios_limit_path c) with (bios_file c) in X.
      destruct (H c Hc) as [_ Y]. congruence.
    - destruct P3 as (c & t & Ec2 & [(X & Hn)|(X & c' & Hc' & Y)]).
      + destruct (H c) as [Z _]; [rewrite Ec2; now left|]. change (base_path c) with (base_file c) in X. congruence.
      + destruct (H c' Hc') as [_ Z]. change (bios_limit_path c') with (bios_file c') in Y. congruence.
  Qed.

  (** ** CPPC *)
  Definition cppc_of (s : sstate) (c : Z) (fname : str) : res Z :=
    match seen_int k s (cppc_path c fname) with
    | Exn e => if catches_error e then Exn ENotSupported else Exn e
    | Ok v => if v =? 0 then Exn ENotSupported else Ok v
    end.

  Lemma read_cppc_run c fname s : exists s', read_cppc k c fname s = (cppc_of s c fname, s') /\ numbers_kept k s s'.
  Proof.
    unfold read_cppc, cppc_of. destruct (s_read_int_run k (cppc_path c fname) s) as (s1 & E1 & U1). rewrite E1.
    apply kept_unseen in U1. destruct (seen_int k s (cppc_path c fname)) as [v|e] eqn:Es; [|now exists s1].
    destruct (v =? 0); [now exists s1|]. unfold mbind.
    destruct (cache_add_run k (cppc_path c fname) (dec v) s1) as (s2 & E2 & A2 & F2 & B2 & I2 & L2 & C2). rewrite E2.
    exists s2. split; [reflexivity|]. eapply kept_trans; [exact U1|]. split; [|auto]. intros p.
    destruct (str_dec p (cppc_path c fname)) as [-> |Hn].
    - rewrite (proj1 U1), Es, seen_int_eq, seen_eq. destruct (se_cache k) eqn:Hc.
      + rewrite C2 by reflexivity. now rewrite str_to_int_dec_all.
      + rewrite <- Es, <- (proj1 U1), seen_int_eq, seen_eq, Hc. unfold on_disk. now rewrite F2.
    - apply untouched_int. apply at_same_untouched. now apply A2.
  Qed.

  Lemma cppc_reads fname m : nreads (fun c => let! v := read_cppc k c fname in ret (v * m))
    (fun s c => match cppc_of s c fname with Ok v => Ok (v * m) | Exn e => Exn e end).
  Proof.
    split.
    - intros s c. unfold mbind. destruct (read_cppc_run c fname s) as (s1 & E1 & U1). rewrite E1. exists s1.
      split; [|exact U1]. destruct (cppc_of s c fname); reflexivity.
    - intros s s' c (H & _). unfold cppc_of. now rewrite H.
  Qed.

  Lemma cppc_mmap fname m cpus s : cppc_read_all k fname m cpus s =
    mmap cpus (fun c => let! v := (let! v := read_cppc k c fname in ret (v * m)) in ret (c, v)) s.
  Proof.
    unfold cppc_read_all. revert s. induction cpus as [|c cpus IH]; intros s; [reflexivity|]. cbn [mmap]. unfold mbind, ret.
    destruct (read_cppc k c fname s) as [[v|e] s1]; [|reflexivity]. rewrite IH.
    destruct (mmap cpus _ s1) as [[l|e] s2]; reflexivity.
  Qed.

  Lemma seen_int_exn s p e : seen_int k s p = Exn e -> e = EError \/ e = ENotSupported.
  Proof.
    rewrite seen_int_eq, seen_eq. unfold on_disk.
    destruct (if se_cache k then _ else _) as [v|]; [destruct (str_to_int v); [discriminate|intros [= <-]; auto]|].
    destruct (ss_fs s p); [|intros [= <-]; auto]. destruct (k_unreadable k p); [intros [= <-]; auto|].
    destruct (str_to_int _); [discriminate|intros [= <-]; auto].
  Qed.

  Lemma cppc_of_iff s c fname n : cppc_of s c (s2l fname) = Ok n <-> cppc_number k s c fname n.
  Proof.
    unfold cppc_of, cppc_number. change (cppc_path c (s2l fname)) with (cppc_file c fname).
    destruct (seen_int k s (cppc_file c fname)) as [v|e].
    - destruct (v =? 0) eqn:E; split; [discriminate|intros [[= ->] X]; lia| |].
      + intros [= ->]. split; [reflexivity|lia].
      + intros [X _]. exact X.
    - split; [|intros [X _]; discriminate]. destruct (catches_error e); discriminate.
  Qed.

  Lemma cppc_of_exn s c fname e : cppc_of s c fname = Exn e -> e = ENotSupported.
  Proof.
    unfold cppc_of. destruct (seen_int k s (cppc_path c fname)) as [v|e0] eqn:Es.
    - destruct (v =? 0); congruence.
    - apply seen_int_exn in Es as [-> | ->]; cbn; congruence.
  Qed.

  Lemma cppc_all fname m cpus s :
    (forall l, (exists s', cppc_read_all k (s2l fname) m cpus s = (Ok l, s')) <->
       one_each cpus l (fun c v => exists n, cppc_number k s c fname n /\ v = n * m)) /\
    (forall r s', cppc_read_all k (s2l fname) m cpus s = (r, s') -> numbers_kept k s s' /\ forall e, r = Exn e -> e = ENotSupported).
  Proof.
    destruct (nreads_iff _ _ (cppc_reads (s2l fname) m) cpus s) as [A B].
    destruct (nreads_all _ _ (cppc_reads (s2l fname) m) cpus s) as (s1 & E1 & U1). rewrite cppc_mmap. split.
    - intros l. rewrite A. unfold one_each. apply and_iff_compat_l. split; intros H c v Hin; specialize (H c v Hin); cbn beta in *.
      + destruct (cppc_of s c (s2l fname)) as [n|] eqn:Ec; [|discriminate]. apply cppc_of_iff in Ec. exists n. split; [exact Ec|congruence].
      + destruct H as (n & Hn & ->). apply cppc_of_iff in Hn. now rewrite Hn.
    - intros r s' E. split; [now apply (B r)|]. intros e ->. rewrite E1 in E. injection E as E _.
      clear - E. unfold each in E. induction cpus as [|c cpus IH]; [discriminate|]. cbn [rmap] in E.
      destruct (cppc_of s c (s2l fname)) as [n|x] eqn:Ec.
      + cbn [rbind] in E. match type of E with rbind ?r _ = _ => destruct r as [y|z] end; [discriminate|]. apply IH. exact E.
      + apply cppc_of_exn in Ec. cbn in E. congruence.
  Qed.

  (** ** Frequencies from CPPC *)
  Definition perf_name (is_max : bool) : string := if is_max then "highest_perf" else "lowest_perf".
  Definition freq_name (is_max : bool) : string := if is_max then "highest_freq" else "lowest_freq".

  Lemma cppc_all_map fname m cpus s (f : Z -> Z) : (forall c, In c cpus -> cppc_number k s c fname (f c)) ->
    exists s', cppc_read_all k (s2l fname) m cpus s = (Ok (map (fun c => (c, f c * m)) cpus), s') /\ numbers_kept k s s'.
  Proof.
    intros H. destruct (cppc_all fname m cpus s) as [A B]. destruct (proj2 (A (map (fun c => (c, f c * m)) cpus))) as (s' & E).
    - split; [rewrite map_map; apply map_id|]. intros c v Hin. apply in_map_iff in Hin as (c0 & [= -> <-] & Hc). exists (f c). auto.
    - exists s'. split; [exact E|]. now apply (B _ _ E).
  Qed.

  Lemma number_kept s s' c name n : numbers_kept k s s' -> cppc_number k s c name n -> cppc_number k s' c name n.
  Proof. intros (H & _). unfold cppc_number. now rewrite H. Qed.

  (** Every CPU has the frequency itself *)
  Lemma cppc_freq_direct base is_max cpus s (f : Z -> Z) : (forall c, In c cpus -> cppc_number k s c (freq_name is_max) (f c)) ->
    exists s', cppc_freq k base is_max cpus s = (Ok (map (fun c => (c, f c * 1000000)) cpus), s') /\ numbers_kept k s s'.
  Proof.
    intros H. unfold cppc_freq. change (if is_max then "highest_freq"%string else "lowest_freq"%string) with (freq_name is_max).
    destruct (gen_read_run _ _ (cppc_reads (s2l (freq_name is_max)) 1000000) cpus s) as (l & eo & s1 & E1 & U1 & pre & rest & Ec & [O1 O2] & Er).
    rewrite E1. exists s1. destruct eo as [e|].
    - destruct Er as (c & t & -> & X). cbn beta in X.
      rewrite (proj2 (cppc_of_iff s c _ _) (H c ltac:(rewrite Ec; apply in_or_app; right; now left))) in X. discriminate.
    - split; [|exact U1]. f_equal. f_equal. subst rest. rewrite app_nil_r in Ec. subst pre. rewrite <- O1, map_map.
      rewrite <- (map_id l) at 1. apply map_ext_in. intros [c v] Hin. cbn [fst]. specialize (O2 c v Hin). cbn beta in O2.
      rewrite (proj2 (cppc_of_iff s c _ _) (H c ltac:(rewrite <- O1; apply in_map_iff; now exists (c, v)))) in O2. congruence.
  Qed.

  (** No CPU has it: the frequency is computed from the base frequency. *)
  Lemma cppc_freq_computed base is_max c cpus s (b n p : Z -> Z) :
    (forall m, ~ cppc_number k s c (freq_name is_max) m) ->
    (forall s1, numbers_kept k s s1 -> exists s2, base (c :: cpus) s1 = (Ok (map (fun c => (c, b c)) (c :: cpus)), s2) /\ numbers_kept k s1 s2) ->
    (forall c', In c' (c :: cpus) -> cppc_number k s c' "nominal_perf" (n c') /\ cppc_number k s c' (perf_name is_max) (p c')) ->
    exists s', cppc_freq k base is_max (c :: cpus) s = (Ok (map (fun c => (c, b c * p c / n c)) (c :: cpus)), s') /\ numbers_kept k s s'.
  Proof.
    intros Hn Hb Hp. unfold cppc_freq. cbn [gen_read].
    change (if is_max then "highest_freq"%string else "lowest_freq"%string) with (freq_name is_max).
    destruct (cppc_reads (s2l (freq_name is_max)) 1000000) as [R1 R2]. destruct (R1 s c) as (s1 & E1 & U1). cbv beta in E1. rewrite E1.
    assert (Ex : cppc_of s c (s2l (freq_name is_max)) = Exn ENotSupported).
    { destruct (cppc_of s c (s2l (freq_name is_max))) as [v|e] eqn:Ec; [apply cppc_of_iff in Ec; now apply Hn in Ec|].
      now rewrite (cppc_of_exn _ _ _ _ Ec). }
    rewrite Ex. destruct (Hb s1 U1) as (s2 & E2 & U2). unfold mbind at 1. rewrite E2.
    assert (U12 : numbers_kept k s s2) by (eapply kept_trans; eassumption).
    unfold mbind at 1, cppc_base_perf.
    destruct (cppc_all_map "nominal_perf" 1 (c :: cpus) s2 n) as (s3 & E3 & U3).
    { intros c' Hc'. eapply number_kept; [exact U12|]. now apply Hp. }
    rewrite E3. assert (U13 : numbers_kept k s s3) by (eapply kept_trans; eassumption).
    unfold mbind at 1.
    destruct (cppc_all_map (perf_name is_max) 1 (c :: cpus) s3 p) as (s4 & E4 & U4).
    { intros c' Hc'. eapply number_kept; [exact U13|]. now apply Hp. }
    assert (E5 : (if is_max then cppc_max_perf_limit k else cppc_min_perf_limit k) (c :: cpus) s3 =
      (Ok (map (fun c0 => (c0, p c0 * 1)) (c :: cpus)), s4)).
    { unfold perf_name in E4. destruct is_max; exact E4. }
    rewrite E5. exists s4. split; [|eapply kept_trans; eassumption]. unfold ret. f_equal. f_equal. cbn [app].
    generalize (c :: cpus) as l. clear. induction l as [|c l IH]; [reflexivity|]. cbn [map combine].
    rewrite IH. now rewrite !Z.mul_1_r.
  Qed.

  (** ** Lists of frequencies *)
  Lemma words_from_word w t cur : (forall c, In c w -> is_space c = false) -> words_from (w ++ t) cur = words_from t (rev w ++ cur).
  Proof.
    revert cur. induction w as [|c w IH]; intros cur H; [reflexivity|]. cbn [words_from app].
    rewrite (H c (or_introl eq_refl)). rewrite IH by (intros d Hd; apply H; now right). cbn. now rewrite <- app_assoc.
  Qed.

  Lemma words_join ws : Forall (fun w => w <> [] /\ forall c, In c w -> is_space c = false) ws -> words (join " " ws) = ws.
  Proof.
    unfold words. intros H. induction H as [|w ws [Hw Hs] H IH]; [reflexivity|].
    destruct ws as [|w2 ws].
    - cbn [join]. rewrite <- (app_nil_r w) at 1. rewrite words_from_word by exact Hs. cbn. rewrite app_nil_r.
      destruct (rev w) eqn:E; [|now rewrite <- E, rev_involutive]. apply (f_equal (@rev _)) in E. rewrite rev_involutive in E. now subst.
    - change (join " " (w :: w2 :: ws)) with (w ++ " "%char :: join " " (w2 :: ws)). rewrite words_from_word by exact Hs.
      cbn [words_from]. change (is_space " ") with true. cbv iota. rewrite app_nil_r.
      destruct (rev w) eqn:E; [apply (f_equal (@rev _)) in E; rewrite rev_involutive in E; now subst|].
      rewrite <- E, rev_involutive. f_equal. exact IH.
  Qed.

  Definition freqs_of (s : sstate) (c : Z) : res (list Z) :=
    match seen k s (frequencies_path c) with
    | Ok val => match rmap (words val) str_to_int with Ok l => Ok (zsort (map (fun f => f * 1000) l)) | Exn _ => Exn EError end
    | Exn e => Exn e
    end.

  Lemma freqs_reads : reads k (frequencies_cpu k) freqs_of.
  Proof.
    split.
    - intros s c. unfold frequencies_cpu, freqs_of, mbind. destruct (s_read_run k (frequencies_path c) s) as (s1 & E1 & U1).
      rewrite E1. exists s1. split; [|exact U1]. destruct (seen k s (frequencies_path c)); [|reflexivity].
      destruct (rmap _ _); reflexivity.
    - intros s s' c U. unfold freqs_of. now rewrite (proj1 U).
  Qed.

  Lemma numeral_words n : dec n <> [] /\ forall c, In c (dec n) -> is_space c = false.
  Proof.
    destruct (Z_lt_le_dec n 0) as [H|H].
    - assert (dec n = "-"%char :: dec (- n)) as ->.
      { unfold dec. replace (n <? 0) with true by lia. now replace (- n <? 0) with false by lia. }
      split; [discriminate|]. intros c [<-|Hc]; [reflexivity|].
      destruct (dec_numeral (- n) ltac:(lia)) as (_ & F & _). rewrite Forall_forall in F. apply F in Hc.
      revert Hc. unfold is_digit, is_space. lia.
    - destruct (dec_numeral n H) as (Hn & F & _). split; [exact Hn|]. intros c Hc. rewrite Forall_forall in F. apply F in Hc.
      revert Hc. unfold is_digit, is_space. lia.
  Qed.

  Lemma freqs_list s c ks : seen k s (policy_file c "scaling_available_frequencies") = Ok (join " " (map dec ks)) ->
    freqs_of s c = Ok (zsort (map (fun f => f * 1000) ks)).
  Proof.
    intros H. unfold freqs_of.
    change (frequencies_path c) with (policy_path c (s2l "scaling_available_frequencies")). rewrite policy_path_file, H.
    rewrite words_join by (apply Forall_forall; intros w Hw; apply in_map_iff in Hw as (n & <- & _); apply numeral_words).
    assert (rmap (map dec ks) str_to_int = Ok ks) as ->; [|reflexivity].
    induction ks as [|n ks IH]; [reflexivity|]. cbn [map rmap]. rewrite str_to_int_dec_all. cbn [rbind].
    assert (IH' : rmap (map dec ks) str_to_int = Ok ks).
    { clear. induction ks as [|n ks IH]; [reflexivity|]. cbn [map rmap]. rewrite str_to_int_dec_all. cbn [rbind]. now rewrite IH. }
    now rewrite IH'.
  Qed.

  Lemma freqs_get s cpus ks : (forall c, In c cpus -> seen k s (policy_file c "scaling_available_frequencies") = Ok (join " " (map dec (ks c)))) ->
    exists l s', get_available_frequencies k cpus s = (Ok l, s') /\ nothing_changed k s s' /\
    one_each cpus l (fun c fs => Sorted Z.le fs /\ Permutation fs (map (fun f => f * 1000) (ks c))).
  Proof.
    intros H. destruct (reads_get k _ _ freqs_reads cpus s) as [A B].
    destruct (proj2 (A (map (fun c => (c, zsort (map (fun f => f * 1000) (ks c)))) cpus))) as (s' & E).
    { split; [rewrite map_map; apply map_id|]. intros c v Hin. apply in_map_iff in Hin as (c0 & [= -> <-] & Hc). now apply freqs_list, H. }
    eexists _, s'. split; [exact E|]. split; [exact (B _ _ E)|]. split; [rewrite map_map; apply map_id|].
    intros c v Hin. apply in_map_iff in Hin as (c0 & [= -> <-] & Hc). split; [|apply zsort_perm].
    apply StronglySorted_Sorted, zsort_sorted.
  Qed.
End Numbers.

Lemma freq_loop_in n : forall f0 hi b, 0 < b -> forall f, In f (freq_loop n f0 hi b) <->
  exists i, 0 <= i < Z.of_nat n /\ f = f0 + i * b /\ f <= hi.
Proof.
  induction n as [|n IH]; intros f0 hi b Hb f; cbn [freq_loop].
  - split; [intros []|]. intros (i & Hi & _). lia.
  - destruct (f0 <=? hi) eqn:E.
    + cbn [In]. rewrite IH by exact Hb. split.
      * intros [<-|(i & Hi & -> & Hh)]; [exists 0; lia|]. exists (i + 1). lia.
      * intros (i & Hi & -> & Hh). destruct (Z.eq_dec i 0) as [-> |Hn]; [left; lia|]. right. exists (i - 1). lia.
    + split; [intros []|]. intros (i & Hi & -> & Hh). nia.
Qed.

Lemma freq_loop_sorted n : forall f0 hi b, 0 < b -> StronglySorted Z.lt (freq_loop n f0 hi b).
Proof.
  induction n as [|n IH]; intros f0 hi b Hb; cbn [freq_loop]; [constructor|]. destruct (f0 <=? hi); constructor; [now apply IH|].
  apply Forall_forall. intros f Hf. apply freq_loop_in in Hf as (i & Hi & -> & _); [nia|exact Hb].
Qed.

Lemma frequencies_doc lo hi b : 0 < b -> exists l, frequencies_intel (s2l "intel_pstate") lo hi b = Ok l /\
  StronglySorted Z.lt l /\ forall f, In f l <-> exists i, 0 <= i /\ f = lo + i * b /\ f <= hi.
Proof.
  intros Hb. unfold frequencies_intel. change (str_eqb (s2l "intel_pstate") intel_pstate) with true. cbn [negb].
  eexists. split; [reflexivity|]. split; [now apply freq_loop_sorted|]. intros f. rewrite freq_loop_in by exact Hb. split.
  - intros (i & Hi & -> & Hh). exists i. lia.
  - intros (i & Hi & -> & Hh). exists i. split; [|lia]. split; [exact Hi|]. rewrite Z2Nat.id by nia. nia.
Qed.

Lemma scaled_order b n lo hi : 0 <= b -> 0 < n -> lo <= n -> n <= hi -> b * lo / n <= b /\ b <= b * hi / n.
Proof.
  intros Hb Hn Hl Hh. split.
  - apply Z.div_le_upper_bound; [exact Hn|]. nia.
  - apply Z.div_le_lower_bound; [exact Hn|]. nia.
Qed.

Lemma cppc_freq_order k base c cpus s s1 s2 (b n lo hi : Z -> Z) lmin lmax :
  (forall m, ~ cppc_number k s c "lowest_freq" m) -> (forall m, ~ cppc_number k s c "highest_freq" m) ->
  (forall s1, numbers_kept k s s1 -> exists s2, base (c :: cpus) s1 = (Ok (map (fun c => (c, b c)) (c :: cpus)), s2) /\ numbers_kept k s1 s2) ->
  (forall c', In c' (c :: cpus) -> cppc_number k s c' "nominal_perf" (n c') /\
     cppc_number k s c' "lowest_perf" (lo c') /\ cppc_number k s c' "highest_perf" (hi c')) ->
  (forall c', In c' (c :: cpus) -> 0 <= b c' /\ 0 < n c' /\ lo c' <= n c' <= hi c') ->
  cppc_freq k base false (c :: cpus) s = (Ok lmin, s1) ->
  cppc_freq k base true (c :: cpus) s = (Ok lmax, s2) ->
  map fst lmin = c :: cpus /\ map fst lmax = c :: cpus /\
  forall c' x y, In (c', x) lmin -> In (c', y) lmax -> x <= b c' <= y.
Proof.
  intros H1 H2 Hb Hp Ho E1 E2.
  destruct (cppc_freq_computed k base false c cpus s b n lo H1 Hb) as (t1 & F1 & _); [intros c' Hc'; now destruct (Hp c' Hc') as (A & B & C)|].
  destruct (cppc_freq_computed k base true c cpus s b n hi H2 Hb) as (t2 & F2 & _); [intros c' Hc'; now destruct (Hp c' Hc') as (A & B & C)|].
  rewrite E1 in F1. rewrite E2 in F2. clear - F1 F2 Ho. remember (c :: cpus) as l eqn:El. clear El.
  injection F1 as -> _. injection F2 as -> _. rewrite !map_map. split; [apply map_id|]. split; [apply map_id|].
  intros c' x y Hx Hy. apply in_map_iff in Hx as (a & [= -> <-] & Ha). apply in_map_iff in Hy as (a & [= -> <-] & _).
  destruct (Ho c' Ha) as (A & B & C & D). destruct (scaled_order (b c') (n c') (lo c') (hi c') A B C D). lia.
Qed.
