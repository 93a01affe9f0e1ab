(** Uncore frequency access by CPU number. *)
From Verif Require Import Base L_Base L_Monad M_Text S_Text L_Text M_Kver M_Sysfs S_Sysfs L_Sysfs S_SysView L_SysView
  M_Uncore S_Uncore L_Uncore L_Uncore2 L_Uncore3.
From Coq Require Import ZifyBool.

Section ByCPU.
  Context {W : Type}.
  Variable io : uio W.
  Variable view : W -> str -> res Z.
  Variable fresh : W -> str -> Prop.
  Variable related : str -> str -> Prop.
  Variable e : uenv.
  Hypothesis Hio : behaves io view fresh related.
  Hypothesis Hrel : forall f g, related f g -> tpmi_related e f g.
  Hypothesis Hw : well_shown e.
  Variable levels : Z -> res (Z * Z).

  Definition die_of (cpu : Z) : Z * Z := match levels cpu with Ok pd => pd | Exn _ => (0, 0) end.

  Lemma die_of_eq cpu p d : levels cpu = Ok (p, d) -> die_of cpu = (p, d).
  Proof. unfold die_of. now intros ->. Qed.

  Lemma set_cpus_dies cpus freq key (s : ust W) :
    (forall c, In c cpus -> exists p d dir, levels c = Ok (p, d) /\ shows e dir p d) ->
    set_freq_cpus io e levels freq key cpus s =
    mfor (map die_of cpus) (fun pd => let! path := die_path e key (fst pd) (snd pd) false in
                            on_w (u_wr io path (freq / 1000))) s.
  Proof.
    unfold set_freq_cpus. revert s. induction cpus as [|c cpus IH]; intros s H; [reflexivity|].
    cbn [map mfor]. destruct (H c (or_introl eq_refl)) as (p & d & dir & El & _).
    rewrite (die_of_eq _ _ _ El). rewrite El. cbn [fst snd].
    set (m := let! path := die_path e key p d false in on_w (u_wr io path (freq / 1000))).
    assert (X : forall (f1 f2 : unit -> M (ust W) unit), (forall s1, f1 tt s1 = f2 tt s1) -> mbind m f1 s = mbind m f2 s).
    { intros f1 f2 Hf. unfold mbind. destruct (m s) as [[[]|x] s1]; [apply Hf|reflexivity]. }
    apply (X (fun _ => mfor cpus _) (fun _ => mfor (map die_of cpus) _)).
    intros s1. apply IH. intros c' Hc. apply H. now right.
  Qed.

  Lemma set_cpus_reads s s' freq key cpus : start_ok fresh e s ->
    (forall c, In c cpus -> exists p d dir, levels c = Ok (p, d) /\ shows e dir p d) ->
    set_freq_cpus io e levels freq key cpus s = (Ok tt, s') ->
    known e s' /\ (forall p d key' lim f, die_file e p d key' lim f -> fresh (us_w s') f) /\
    (forall c p d f, In c cpus -> levels c = Ok (p, d) -> die_file e p d key false f ->
       view (us_w s') f = Ok (freq / 1000)) /\
    (forall p d key' lim f, die_file e p d key' lim f ->
       ~ (key' = key /\ lim = false /\ exists c, In c cpus /\ levels c = Ok (p, d)) ->
       view (us_w s') f = view (us_w s) f).
  Proof.
    intros (Hk & Hdf & _) Hd E. rewrite set_cpus_dies in E by exact Hd.
    assert (Hin : forall p d, In (p, d) (map die_of cpus) <-> exists c, In c cpus /\ levels c = Ok (p, d)).
    { intros p d. rewrite in_map_iff. split.
      - intros (c & Ec & Hc). exists c. split; [exact Hc|]. destruct (Hd c Hc) as (p' & d' & dir & El & _).
        rewrite (die_of_eq _ _ _ El) in Ec. now rewrite El, Ec.
      - intros (c & Hc & El). exists c. split; [now apply die_of_eq|exact Hc]. }
    assert (Hd' : forall p d, In (p, d) (map die_of cpus) -> exists dir, shows e dir p d).
    { intros p d H. apply Hin in H as (c & Hc & El). destruct (Hd c Hc) as (p' & d' & dir & El' & Hs).
      rewrite El in El'. injection El' as <- <-. now exists dir. }
    pose proof (post_run _ _ _ _ _ _
      (set_loop_post io view fresh related e Hio Hrel Hw (freq / 1000) key (map die_of cpus) s Hk Hd') E)
      as (K & (_ & N) & V).
    assert (Hout : forall p d key' lim f, die_file e p d key' lim f ->
      ~ (key' = key /\ lim = false /\ In (p, d) (map die_of cpus)) ->
      view (us_w s') f = view (us_w s) f /\ fresh (us_w s') f).
    { intros p d key' lim f Hfl Hn. destruct (K f) as [A B].
      + intros [(p' & d' & Hi & X)|(p' & k' & Hu & (dir & d' & Hsh) & X)].
        * destruct (die_file_one e Hw _ _ _ _ _ _ _ _ _ Hfl X) as (-> & -> & -> & ->). tauto.
        * destruct (shows_pos e Hw _ _ _ Hsh).
          eapply (new_die_not_legacy e Hw); [exact Hu| | |exact Hfl|exact X]; lia.
      + split; [exact A|]. apply B. eapply Hdf, Hfl. }
    split; [now apply N|]. split; [|split].
    - intros p d key' lim f Hfl.
      assert (C : (key' = key /\ lim = false /\ In (p, d) (map die_of cpus)) \/
                  ~ (key' = key /\ lim = false /\ In (p, d) (map die_of cpus))).
      { destruct (in_dec (fun a b : Z * Z => ltac:(decide equality; apply Z.eq_dec) : {a = b} + {a <> b}) (p, d) (map die_of cpus)) as [Hi|Hi]; [|tauto].
        assert (Ek : key' = key \/ key' <> key) by (destruct key', key; (now left) || (right; discriminate)).
        destruct Ek as [-> |Hn]; [|tauto]. destruct lim; [right; intros (_ & X & _); discriminate|auto]. }
      destruct C as [(-> & -> & Hi)|Hn]; [now apply (V p d)|]. now apply (Hout p d key' lim).
    - intros c p d f Hc El Hfl. apply (V p d); [|exact Hfl]. apply Hin. now exists c.
    - intros p d key' lim f Hfl Hn. apply (Hout p d key' lim); [exact Hfl|].
      intros (A & B & C). apply Hn. split; [exact A|]. split; [exact B|]. now apply Hin.
  Qed.

  Lemma get_cpus_reads s key cpus lim : known e s ->
    (forall c, In c cpus -> exists p d f n, levels c = Ok (p, d) /\ die_file e p d key lim f /\
       fresh (us_w s) f /\ view (us_w s) f = Ok n) ->
    exists l s', get_freq_cpus io e levels key cpus lim s = (Ok l, s') /\ map fst l = cpus /\
      (forall c v, In (c, v) l -> exists p d f n, levels c = Ok (p, d) /\ die_file e p d key lim f /\
         view (us_w s) f = Ok n /\ v = n * 1000) /\
      forall f, view (us_w s') f = view (us_w s) f.
  Proof.
    intros Hk Hf.
    assert (P : post (get_freq_cpus io e levels key cpus lim) s
      (fun l s' => kept view fresh (nothing) s s' /\ tame e s s' /\ map fst l = cpus /\
         forall c v, In (c, v) l -> exists p d f n, levels c = Ok (p, d) /\ die_file e p d key lim f /\
           view (us_w s) f = Ok n /\ v = n * 1000)
      (fun _ _ => False)).
    { unfold get_freq_cpus.
      apply (post_mmap _ (fun done l s' => kept view fresh nothing s s' /\ tame e s s' /\ map fst l = done /\
         forall c v, In (c, v) l -> exists p d f n, levels c = Ok (p, d) /\ die_file e p d key lim f /\
           view (us_w s) f = Ok n /\ v = n * 1000)).
      - intros pre c rest El l s1 (K1 & T1 & M1 & V1).
        assert (Hin : In c cpus) by (rewrite El; apply in_or_app; right; now left).
        destruct (Hf c Hin) as (p & d & f & n & Lv & (dir & Hd & ->) & Fr0 & Vw0).
        rewrite Lv. apply post_bind. unfold post at 1, lift at 1. cbn [fst snd].
        apply post_bind.
        eapply post_conseq; [apply (path_post e Hw key p d lim dir s1); [now apply T1|exact Hd]| |intros ? ? []].
        intros g s2 (-> & W2 & T2). apply post_bind.
        assert (K12 : kept view fresh nothing s s2) by (eapply kept_trans; [exact K1|now apply same_w_kept]).
        assert (Fr : fresh (us_w s2) (uncore_path dir key lim)) by (apply K12; [intros []|exact Fr0]).
        assert (Vw : view (us_w s2) (uncore_path dir key lim) = view (us_w s) (uncore_path dir key lim))
          by (apply K12; intros []).
        eapply post_conseq; [apply (rd_post io view fresh related e Hio)| |].
        + intros v s3 (R & K3 & T3). apply post_ret. split; [eapply kept_trans; eassumption|].
          split; [eapply tame_trans; [eassumption|eapply tame_trans; eassumption]|].
          split; [rewrite map_app, M1; reflexivity|].
          intros c' v' H. apply in_app_or in H as [H|[[= <- <-]|[]]]; [auto|].
          exists p, d, (uncore_path dir key lim), v. split; [exact Lv|]. split; [now exists dir|]. split; [|reflexivity].
          rewrite <- Vw. auto.
        + intros x s3 (R & K3 & T3). specialize (R Fr). congruence.
      - split; [apply kept_refl|]. split; [apply tame_refl|]. split; [reflexivity|]. intros c v []. }
    unfold post in P. destruct (get_freq_cpus io e levels key cpus lim s) as [[l|x] s']; [|destruct P].
    destruct P as (K & _ & M & V). exists l, s'. split; [reflexivity|]. split; [exact M|]. split; [exact V|].
    intros f. apply K. intros [].
  Qed.

  Lemma set_then_get_cpus s s' freq key cpus : start_ok fresh e s ->
    (forall c, In c cpus -> exists p d dir, levels c = Ok (p, d) /\ shows e dir p d) ->
    set_freq_cpus io e levels freq key cpus s = (Ok tt, s') ->
    exists s'', get_freq_cpus io e levels key cpus false s' =
      (Ok (map (fun c => (c, freq / 1000 * 1000)) cpus), s'').
  Proof.
    intros Hs Hd E. destruct (set_cpus_reads s s' freq key cpus Hs Hd E) as (N & Fr & V & _).
    destruct (get_cpus_reads s' key cpus false N) as (l & s'' & E2 & M & V2 & _).
    { intros c Hc. destruct (Hd c Hc) as (p & d & dir & Lv & Hsh).
      exists p, d, (uncore_path dir key false), (freq / 1000). split; [exact Lv|].
      assert (Df : die_file e p d key false (uncore_path dir key false)) by now exists dir.
      split; [exact Df|]. split; [now apply (Fr p d key false)|now apply (V c p d)]. }
    exists s''. rewrite E2. f_equal. f_equal.
    assert (G : forall x, In x l -> x = (fst x, freq / 1000 * 1000)).
    { intros [c v] Hx. destruct (V2 c v Hx) as (p & d & f & n & Lv & Hf & Hn & ->). cbn [fst]. f_equal.
      assert (Hc : In c cpus) by (rewrite <- M; apply in_map_iff; now exists (c, n * 1000)).
      pose proof (V c p d f Hc Lv Hf) as A. congruence. }
    rewrite <- M. clear - G. induction l as [|x l IH]; [reflexivity|]. cbn [map]. rewrite <- G by now left. f_equal.
    apply IH. intros; apply G; now right.
  Qed.

  Lemma set_cpus_works (J : W -> Prop) : always_works io e J ->
    forall freq key cpus s, J (us_w s) -> known e s ->
    (forall c, In c cpus -> exists p d dir, levels c = Ok (p, d) /\ shows e dir p d) ->
    exists s', set_freq_cpus io e levels freq key cpus s = (Ok tt, s') /\ J (us_w s').
  Proof.
    intros HJ freq key cpus s Hj Hk Hd.
    assert (P : post (set_freq_cpus io e levels freq key cpus) s
      (fun _ s' => J (us_w s') /\ known e s') (fun _ _ => False)).
    { unfold set_freq_cpus. apply (post_mfor _ (fun _ s' => J (us_w s') /\ known e s')); [|now split].
      intros pre c rest El s1 (J1 & K1).
      assert (Hin : In c cpus) by (rewrite El; apply in_or_app; right; now left).
      destruct (Hd c Hin) as (p & d & dir & Lv & Hsh).
      rewrite Lv. apply post_bind. unfold post at 1, lift at 1. cbn [fst snd]. apply post_bind.
      eapply post_conseq; [apply (path_post e Hw key p d false dir s1); [exact K1|exact Hsh]| |intros ? ? []].
      intros g s2 (-> & W2 & T2). cbn beta.
      assert (Df : driver_file e (uncore_path dir key false)) by (left; exists p, d, key, false; now exists dir).
      rewrite <- W2 in J1. destruct (proj2 (HJ _ Df _ J1) (freq / 1000)) as (w' & E1 & J2).
      unfold post, on_w. rewrite E1. cbn. split; [exact J2|]. apply T2 in K1. exact K1. }
    unfold post in P. destruct (set_freq_cpus io e levels freq key cpus s) as [[[]|x] s']; [|destruct P].
    exists s'. split; [reflexivity|]. apply P.
  Qed.
End ByCPU.
