(** Settings of Linux CPU frequency drivers: reading. *)
From Coq Require Import Ascii String.
From Verif Require Import Base L_Base L_Monad M_Text S_Text L_Text M_Sysfs S_Sysfs L_Sysfs S_SysView L_SysView
  M_CFreq S_CFreq.
From Coq Require Import ZifyBool.
Open Scope list_scope.

Lemma str_eqb_iff a b : str_eqb a b = true <-> a = b.
Proof. apply str_eqb_eq. Qed.

Lemma policy_path_file cpu n : policy_path cpu (s2l n) = policy_file cpu n.
Proof. reflexivity. Qed.

Lemma rmap_same {A B} (f g : A -> res B) l : (forall x, In x l -> f x = g x) -> rmap l f = rmap l g.
Proof.
  induction l as [|x l IH]; intros H; [reflexivity|]. cbn [rmap]. rewrite (H x) by now left.
  destruct (g x); cbn [rbind]; [|reflexivity]. rewrite IH; [reflexivity|]. intros; apply H; now right.
Qed.

Section Reads.
  Variable k : senv.

  Lemma unseen_nothing s s' : unseen k s s' <-> nothing_changed k s s'.
  Proof. reflexivity. Qed.

  (** ** Reading something for every CPU *)
  Definition each {A} (g : Z -> res A) (cpus : list Z) : res (list (Z * A)) :=
    rmap cpus (fun c => rbind (g c) (fun v => Ok (c, v))).

  Lemma each_iff {A} (g : Z -> res A) cpus : forall l,
    each g cpus = Ok l <-> one_each cpus l (fun c v => g c = Ok v).
  Proof.
    unfold each, one_each. induction cpus as [|c cpus IH]; intros l; cbn [rmap].
    - split; [intros [= <-]; split; [reflexivity|intros ? ? []]|].
      intros [H _]. destruct l; [reflexivity|discriminate].
    - destruct (g c) as [v|e] eqn:Eg; cbn [rbind].
      + destruct (rmap cpus (fun c => rbind (g c) (fun v => Ok (c, v)))) as [l'|e] eqn:Er; cbn [rbind].
        * destruct (proj1 (IH l') eq_refl) as [H1 H2]. split.
          -- intros [= <-]. cbn [map fst]. split; [now rewrite H1|]. intros c' v' [[= <- <-]|H]; auto.
          -- intros [H3 H4]. destruct l as [|[c' v'] t]; [discriminate|]. injection H3 as -> H3.
             assert (E : g c = Ok v') by (apply H4; now left). rewrite Eg in E. injection E as ->.
             do 2 f_equal. assert (X : Ok l' = Ok t) by (apply IH; split; [exact H3|intros; apply H4; now right]).
             now injection X.
        * split; [discriminate|]. intros [H3 H4]. destruct l as [|[c' v'] t]; [discriminate|]. injection H3 as -> H3.
          assert (X : Exn e = Ok t) by (apply IH; split; [exact H3|intros; apply H4; now right]). discriminate.
      + split; [discriminate|]. intros [H3 H4]. destruct l as [|[c' v'] t]; [discriminate|]. injection H3 as -> H3.
        assert (E : g c = Ok v') by (apply H4; now left). congruence.
  Qed.

  Definition reads {A} (f : Z -> M sstate A) (g : sstate -> Z -> res A) : Prop :=
    (forall s c, exists s', f c s = (g s c, s') /\ unseen k s s') /\
    (forall s s' c, unseen k s s' -> g s' c = g s c).

  Lemma reads_each {A} (f : Z -> M sstate A) g : reads f g ->
    forall cpus s, exists s', mmap cpus (fun c => let! v := f c in ret (c, v)) s = (each (g s) cpus, s') /\ unseen k s s'.
  Proof.
    intros [Hf Hg]. induction cpus as [|c cpus IH]; intros s.
    - exists s. split; [reflexivity|apply unseen_refl].
    - cbn [mmap]. unfold each. cbn [rmap]. destruct (Hf s c) as (s1 & E1 & U1).
      unfold mbind at 1 2. rewrite E1. destruct (g s c) as [v|e]; [|exists s1; split; [reflexivity|exact U1]].
      unfold ret at 1. cbn [rbind]. unfold mbind at 1.
      destruct (IH s1) as (s2 & E2 & U2). rewrite E2. exists s2. split; [|eapply unseen_trans; eassumption].
      assert (X : each (g s1) cpus = each (g s) cpus).
      { unfold each. apply rmap_same. intros x _. now rewrite (Hg s s1 x U1). }
      rewrite X. unfold each. destruct (rmap cpus _); reflexivity.
  Qed.

  Lemma reads_get {A} (f : Z -> M sstate A) g : reads f g -> forall cpus s,
    (forall l, (exists s', mmap cpus (fun c => let! v := f c in ret (c, v)) s = (Ok l, s')) <->
       one_each cpus l (fun c v => g s c = Ok v)) /\
    forall r s', mmap cpus (fun c => let! v := f c in ret (c, v)) s = (r, s') -> nothing_changed k s s'.
  Proof.
    intros R cpus s. destruct (reads_each f g R cpus s) as (s' & E & U). split.
    - intros l. rewrite <- each_iff. split.
      + intros (s2 & E2). rewrite E in E2. now injection E2 as -> _.
      + intros H. exists s'. now rewrite E, H.
    - intros r s2 E2. rewrite E in E2. injection E2 as _ <-. exact U.
  Qed.

  (** ** Driver *)
  Variable has_dir : bool.

  Definition drv (s : sstate) (cpu : Z) : res str :=
    match seen k s (driver_path cpu) with
    | Ok name => Ok (if str_eqb name intel_cpufreq then intel_pstate else name)
    | Exn ENotSupported => if has_dir then Ok intel_pstate else Exn ENotSupported
    | Exn e => Exn e
    end.

  Lemma drv_reads : reads (driver_cpu k has_dir) drv.
  Proof.
    split.
    - intros s c. destruct (s_read_run k (driver_path c) s) as (s' & E & U). exists s'. split; [|exact U].
      unfold driver_cpu, drv. rewrite E. destruct (seen k s (driver_path c)) as [n|[]]; reflexivity.
    - intros s s' c U. unfold drv. now rewrite (proj1 U).
  Qed.

  Lemma drv_iff s cpu d : drv s cpu = Ok d <-> has_driver k has_dir s cpu d.
  Proof.
    unfold drv, has_driver. change (policy_file cpu "scaling_driver") with (driver_path cpu).
    destruct (seen k s (driver_path cpu)) as [n|e] eqn:E.
    - destruct (str_eqb n intel_cpufreq) eqn:En.
      + apply str_eqb_eq in En. subst n. split.
        * intros [= <-]. left. exists intel_cpufreq. split; [reflexivity|left; now split].
        * intros [(n & [= <-] & [(_ & ->)|(H & _)])|(H & _)]; [reflexivity|now destruct H|discriminate].
      + assert (Hn : n <> intel_cpufreq) by (intros ->; rewrite str_eqb_refl in En; discriminate). split.
        * intros [= <-]. left. exists n. split; [reflexivity|right; now split].
        * intros [(n' & [= <-] & [(H & _)|(_ & ->)])|(H & _)]; [now destruct Hn|reflexivity|discriminate].
    - split.
      + intros H. right. destruct e; try discriminate. destruct has_dir; [|discriminate]. injection H as <-. auto.
      + intros [(n & H & _)|([= ->] & -> & ->)]; [discriminate|reflexivity].
  Qed.

  Lemma drv_untouched s s' cpu : untouched k s s' (driver_path cpu) -> drv s' cpu = drv s cpu.
  Proof. intros [_ H]. unfold drv. now rewrite H. Qed.

  (** ** Mode *)
  Definition mode_of (s : sstate) (cpu : Z) : res str :=
    match drv s cpu with
    | Ok d => if str_eqb d intel_pstate then seen k s status_path else Exn ENotSupported
    | Exn e => Exn e
    end.

  Lemma mode_reads : reads (mode_cpu k has_dir) mode_of.
  Proof.
    destruct drv_reads as [D1 D2]. split.
    - intros s c. unfold mode_cpu, mode_of, mbind. destruct (D1 s c) as (s1 & E1 & U1). rewrite E1.
      destruct (drv s c) as [d|e]; [|exists s1; now split].
      destruct (str_eqb d intel_pstate); cbn [negb]; [|exists s1; now split].
      destruct (s_read_run k status_path s1) as (s2 & E2 & U2). exists s2. rewrite E2, (proj1 U1).
      split; [reflexivity|eapply unseen_trans; eassumption].
    - intros s s' c U. unfold mode_of. now rewrite (D2 _ _ _ U), (proj1 U).
  Qed.

  Lemma mode_iff s cpu m : mode_of s cpu = Ok m <-> has_driver k has_dir s cpu (s2l "intel_pstate") /\ seen k s status_file = Ok m.
  Proof.
    rewrite <- drv_iff. unfold mode_of. change status_file with status_path. change (s2l "intel_pstate") with intel_pstate.
    destruct (drv s cpu) as [d|e]; [|split; [discriminate|intros [H _]; discriminate]].
    destruct (str_eqb d intel_pstate) eqn:E.
    - apply str_eqb_eq in E. subst d. tauto.
    - split; [discriminate|]. intros [[= ->] _]. rewrite str_eqb_refl in E. discriminate.
  Qed.

  (** ** Turbo *)
  Definition turbo_fail (s : sstate) (cpu : Z) (e : exc) : exc :=
    if negb (catches_error e) then e
    else match mode_of s cpu with
         | Exn x => if catches_error x then EError else x
         | Ok m => if str_eqb m m_off then ENotSupported else e
         end.

  Lemma turbo_failed_run {A} s cpu e : exists s', @turbo_failed k has_dir cpu e A s = (Exn (turbo_fail s cpu e), s') /\ unseen k s s'.
  Proof.
    unfold turbo_failed, turbo_fail. destruct (catches_error e); cbn [negb]; [|exists s; split; [reflexivity|apply unseen_refl]].
    destruct mode_reads as [Mo _]. destruct (Mo s cpu) as (s' & E & U). rewrite E. exists s'. split; [|exact U].
    destruct (mode_of s cpu) as [m|x]; [destruct (str_eqb m m_off)|destruct (catches_error x)]; reflexivity.
  Qed.

  Definition turbo_of (s : sstate) (cpu : Z) : res str :=
    match drv s cpu with
    | Ok d =>
        if str_eqb d intel_pstate then
          match seen_int k s no_turbo_path with
          | Ok n => Ok (on_off (n =? 0))
          | Exn e => Exn (turbo_fail s cpu e)
          end
        else if str_eqb d acpi_cpufreq then
          match seen_int k s boost_path with Ok n => Ok (on_off (negb (n =? 0))) | Exn e => Exn e end
        else Exn ENotSupported
    | Exn e => Exn e
    end.

  Lemma turbo_fail_unseen s s' c e : unseen k s s' -> turbo_fail s' c e = turbo_fail s c e.
  Proof. intros U. unfold turbo_fail. now rewrite (proj2 mode_reads _ _ _ U). Qed.

  Lemma turbo_reads : reads (turbo_cpu k has_dir) turbo_of.
  Proof.
    destruct drv_reads as [D1 D2]. split.
    - intros s c. unfold turbo_cpu, turbo_of, mbind. destruct (D1 s c) as (s1 & E1 & U1). rewrite E1.
      destruct (drv s c) as [d|e]; [|exists s1; now split].
      destruct (str_eqb d intel_pstate).
      + destruct (s_read_int_run k no_turbo_path s1) as (s2 & E2 & U2). rewrite E2, (unseen_int k _ _ _ U1).
        assert (U12 : unseen k s s2) by (eapply unseen_trans; eassumption).
        destruct (seen_int k s no_turbo_path) as [n|e]; [exists s2; now split|].
        destruct (@turbo_failed_run str s2 c e) as (s3 & E3 & U3). exists s3. rewrite E3.
        split; [now rewrite (turbo_fail_unseen _ _ _ _ U12)|eapply unseen_trans; eassumption].
      + destruct (str_eqb d acpi_cpufreq); [|exists s1; now split].
        destruct (s_read_int_run k boost_path s1) as (s2 & E2 & U2). rewrite E2, (unseen_int k _ _ _ U1).
        exists s2. split; [|eapply unseen_trans; eassumption]. destruct (seen_int k s boost_path); reflexivity.
    - intros s s' c U. unfold turbo_of. rewrite (D2 _ _ _ U), !(unseen_int k _ _ _ U).
      destruct (drv s c) as [d|]; [|reflexivity]. destruct (str_eqb d intel_pstate); [|reflexivity].
      destruct (seen_int k s no_turbo_path); [reflexivity|]. now rewrite (turbo_fail_unseen _ _ _ _ U).
  Qed.

  Lemma turbo_iff s cpu v : turbo_of s cpu = Ok v <->
    exists d b, has_driver k has_dir s cpu d /\ turbo_is k s d b /\ v = onoff_text b.
  Proof.
    unfold turbo_of. split.
    - intros H. destruct (drv s cpu) as [d|] eqn:Ed; [|discriminate]. apply drv_iff in Ed.
      destruct (str_eqb d intel_pstate) eqn:E1; [|destruct (str_eqb d acpi_cpufreq) eqn:E2; [|discriminate]].
      + apply str_eqb_eq in E1. subst d. destruct (seen_int k s no_turbo_path) as [n|] eqn:En; [|discriminate].
        injection H as <-. exists intel_pstate, (n =? 0). split; [exact Ed|]. split; [|destruct (n =? 0); reflexivity].
        exists no_turbo_path, n. split; [exact En|]. destruct (n =? 0) eqn:E0; [left|right]; (split; [lia|constructor]).
      + apply str_eqb_eq in E2. subst d. destruct (seen_int k s boost_path) as [n|] eqn:En; [|discriminate].
        injection H as <-. exists acpi_cpufreq, (negb (n =? 0)). split; [exact Ed|]. split; [|destruct (n =? 0); reflexivity].
        exists boost_path, n. split; [exact En|]. destruct (n =? 0) eqn:E0; [left|right]; (split; [lia|constructor]).
    - intros (d & b & Hd & (f & n & Hn & Hk) & ->). apply drv_iff in Hd. rewrite Hd.
      assert (X1 : str_eqb (s2l "intel_pstate") intel_pstate = true) by reflexivity.
      assert (X2 : str_eqb (s2l "acpi-cpufreq") intel_pstate = false) by reflexivity.
      assert (X3 : str_eqb (s2l "acpi-cpufreq") acpi_cpufreq = true) by reflexivity.
      destruct Hk as [(H0 & T)|(H0 & T)]; inversion T; subst d b f; clear T; rewrite ?X1, ?X2, ?X3.
      1, 3: change (seen_int k s no_turbo_path = Ok n) in Hn; rewrite Hn.
      3, 4: change (seen_int k s boost_path = Ok n) in Hn; rewrite Hn.
      all: try (subst n; reflexivity); rewrite (proj2 (Z.eqb_neq _ _) H0); reflexivity.
  Qed.

  (** ** Governor *)
  Lemma governor_reads : reads (fun cpu => s_read k (governor_path cpu)) (fun s cpu => seen k s (governor_path cpu)).
  Proof. split; [intros s c; apply s_read_run|]. intros s s' c U. apply (proj1 U). Qed.

  Definition govs_of (s : sstate) (cpu : Z) : res (list str) :=
    match seen k s (governors_path cpu) with
    | Ok t => Ok (split_csv_line " "%char false false t)
    | Exn e => Exn e
    end.

  Lemma governors_reads : reads (governors_cpu k) govs_of.
  Proof.
    split.
    - intros s c. unfold governors_cpu, govs_of, mbind. destruct (s_read_run k (governors_path c) s) as (s1 & E1 & U1).
      rewrite E1. exists s1. split; [|exact U1]. destruct (seen k s (governors_path c)); reflexivity.
    - intros s s' c U. unfold govs_of. now rewrite (proj1 U).
  Qed.
End Reads.
