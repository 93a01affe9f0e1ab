(** Settings of Linux CPU frequency drivers: turbo and governors. *)
From Coq Require Import Ascii String.
From Verif Require Import Base L_Base L_Monad M_Text S_Text L_Text M_Sysfs S_Sysfs L_Sysfs S_SysView L_SysView
  M_CPUFreq L_Uncore L_Uncore3 L_PMQoS L_CPUFreq M_CFreq S_CFreq L_CFreq.
From Coq Require Import ZifyBool.
Open Scope list_scope.

(** ** Files *)
Lemma policy_not_pstate c f r : policy_path c f <> sysfs_base ++ s2l "/intel_pstate/" ++ r.
Proof. intros E. apply app_inv_head in E. discriminate. Qed.

Lemma policy_not_boost c f : policy_path c f <> boost_path.
Proof. intros E. unfold policy_path, boost_path in E. apply app_inv_head in E. discriminate. Qed.

Lemma policy_not_status c f : policy_path c f <> status_path.
Proof. apply (policy_not_pstate c f (s2l "status")). Qed.

Lemma policy_not_no_turbo c f : policy_path c f <> no_turbo_path.
Proof. apply (policy_not_pstate c f (s2l "no_turbo")). Qed.

Lemma policy_path_inj c f c' f' : 0 <= c -> 0 <= c' -> policy_path c f = policy_path c' f' -> c = c' /\ f = f'.
Proof.
  intros H H' E. unfold policy_path in E. do 2 apply app_inv_head in E.
  apply split_slash in E as [E1 E2]; [|now apply dec_noslash..]. apply dec_inj in E1; [|assumption..]. now split.
Qed.

Lemma knob_file d b f n : turbo_knob d b f n -> f = no_turbo_path \/ f = boost_path.
Proof. intros H; inversion H; subst; [left|left|right|right]; reflexivity. Qed.

Lemma knob_fun d b f n f' n' : turbo_knob d b f n -> turbo_knob d b f' n' -> f = f' /\ n = n'.
Proof. intros H H'; inversion H; subst; inversion H'; subst; auto. Qed.

Section Turbo.
  Variable k : senv.
  Variable has_dir : bool.

  (** ** A plain write *)
  Lemma unseen_at s s' p : unseen k s s' -> untouched k s s' p.
  Proof. apply unseen_untouched. Qed.

  Definition wrote (p v : str) (s s' : sstate) : Prop :=
    (forall q, q <> p -> untouched k s s' q) /\ ss_intr s' = ss_intr s /\
    (shows_written k s p v -> seen k s' p = Ok v) /\
    (ss_intr s = false -> stores k p v -> contents s' p = Some v) /\
    (ss_intr s = false -> ss_log s' = ss_log s ++ [(p, v)]) /\
    (ss_intr s = true -> ss_fs s' = ss_fs s /\ ss_log s' = ss_log s).

  Definition not_wrote (p : str) (s s' : sstate) : Prop :=
    (forall q, q <> p -> untouched k s s' q) /\ ss_intr s' = ss_intr s /\ ss_fs s' = ss_fs s /\ ss_log s' = ss_log s.

  Lemma write_wrote p v w s : post (s_write k p v w) s (fun _ s' => wrote p v s s')
    (fun e s' => not_wrote p s s' /\ ss_buf s' = ss_buf s /\ (e = EError \/ e = ENotSupported)).
  Proof.
    eapply post_conseq; [apply write_post| |].
    - intros _ s' ((O & I) & Sc & A & B). split; [intros q Hq; apply at_same_untouched; now apply O|].
      split; [exact I|]. split; [|split; [|split]].
      + intros [Hc|(Hi & Hu & Hs)]; [now apply Sc|]. destruct (se_cache k) eqn:Hc; [now apply Sc|].
        destruct (A Hi) as (_ & _ & old & c & F & Kw & F'). rewrite seen_eq, Hc. unfold on_disk.
        rewrite F', Hu. now rewrite (Hs old c Kw).
      + intros Hi Hs. destruct (A Hi) as (_ & _ & old & c & F & Kw & F'). unfold contents. rewrite F'. cbn.
        now rewrite (Hs old c Kw).
      + intros Hi. now destruct (A Hi) as (_ & L & _).
      + intros Hi. destruct (B Hi) as (F & L & _). now split.
    - intros e s' ((O & I) & B & F & L & X). split; [|now split].
      split; [intros q Hq; apply at_same_untouched; now apply O|]. now repeat split.
  Qed.

  Lemma write_can p v w s : can_write k s p v w -> exists s', s_write k p v (Some (s2l w)) s = (Ok tt, s').
  Proof.
    intros [(Hi & Hf & Hk)|(Hi & Hc & Hb)]; [now apply write_live|].
    destruct (write_verify_tr k p v (Some (s2l w)) 0 0 s Hi Hc) as (s' & E).
    { intros ti Ht. destruct (Hb ti Ht) as (v' & ->). auto. }
    exists s'. rewrite <- E. unfold s_write, s_write_verify, mbind.
    destruct (cache_remove_run k p s) as (s1 & E1 & _ & _ & _ & I1 & _). rewrite E1. unfold gets. rewrite I1, Hi.
    reflexivity.
  Qed.

  Lemma write_can_again p v w s s' : can_write k s p v w -> s_write k p v (Some (s2l w)) s = (Ok tt, s') ->
    can_write k s' p v w.
  Proof.
    intros Cw E. pose proof (post_run _ _ _ _ _ _ (write_post k p v (Some (s2l w)) s) E) as ((O & I) & _ & A & B).
    destruct Cw as [(Hi & Hf & Hk)|(Hi & Hc & Hb)].
    - left. split; [congruence|]. split; [|exact Hk]. destruct (A Hi) as (_ & _ & old & c & _ & _ & F). congruence.
    - right. split; [congruence|]. split; [exact Hc|]. destruct (B Hi) as (_ & _ & ->).
      rewrite (dget_dset_same str_eqb str_eqb_spec). intros ti [= <-]. now exists v.
  Qed.

  Lemma can_unseen p v w s s' : unseen k s s' -> can_write k s p v w -> can_write k s' p v w.
  Proof.
    intros (_ & F & B & I & _). unfold can_write, accepts. now rewrite F, B, I.
  Qed.

  (** Writing one file leaves the others as they are *)
  Lemma can_other p q v w v' w' s s' : q <> p -> s_write k p v w s = (Ok tt, s') ->
    can_write k s q v' w' -> can_write k s' q v' w'.
  Proof.
    intros Hq E. pose proof (post_run _ _ _ _ _ _ (write_post k p v w s) E) as ((O & I) & _ & A & B).
    destruct (O q Hq) as [F _]. intros [(Hi & Hf & Hk)|(Hi & Hc & Hb)].
    - left. split; [congruence|]. split; [congruence|exact Hk].
    - right. split; [congruence|]. split; [exact Hc|]. destruct (B Hi) as (_ & _ & ->).
      rewrite (dget_dset_other str_eqb str_eqb_spec) by exact Hq. exact Hb.
  Qed.

  Lemma wrote_after s1 s p v s' : unseen k s s1 -> wrote p v s1 s' -> wrote p v s s'.
  Proof.
    intros U (W1 & W2 & W3 & W4 & W5 & W6). destruct U as (U1 & U2 & U3 & U4 & U5).
    split; [|split; [congruence|split; [|split; [|split]]]].
    - intros q Hq. eapply untouched_trans; [|now apply W1]. split; [now rewrite U2|apply U1].
    - intros H. apply W3. unfold shows_written in *. now rewrite U4.
    - rewrite <- U4. exact W4.
    - rewrite <- U4, <- U5. exact W5.
    - rewrite <- U4, <- U5, <- U2. exact W6.
  Qed.

  Lemma not_wrote_after s1 s p s' : unseen k s s1 -> not_wrote p s1 s' -> not_wrote p s s'.
  Proof.
    intros U (W1 & W2 & W3 & W4). destruct U as (U1 & U2 & U3 & U4 & U5).
    split; [|split; [congruence|split; congruence]].
    intros q Hq. eapply untouched_trans; [|now apply W1]. split; [now rewrite U2|apply U1].
  Qed.

  Lemma not_wrote_then p s s1 s' : not_wrote p s s1 -> unseen k s1 s' -> not_wrote p s s'.
  Proof.
    intros (W1 & W2 & W3 & W4) U. pose proof U as (U1 & U2 & U3 & U4 & U5).
    split; [|split; [congruence|split; congruence]].
    intros q Hq. eapply untouched_trans; [now apply W1|]. now apply unseen_at.
  Qed.

  (** ** Turbo *)
  Lemma bool_text_dec b : bool_text b = dec (if b then 1 else 0).
  Proof. destruct b; reflexivity. Qed.

  Lemma set_turbo_cpu_post enable cpu s :
    post (set_turbo_cpu k has_dir enable cpu) s
      (fun _ s' => exists d f n, drv k has_dir s cpu = Ok d /\ turbo_knob d enable f n /\ wrote f (dec n) s s')
      (fun _ s' => not_wrote no_turbo_path s s' \/ not_wrote boost_path s s').
  Proof.
    unfold set_turbo_cpu. destruct (drv_reads k has_dir) as [D1 _]. destruct (D1 s cpu) as (s1 & E1 & U1).
    unfold post, mbind. rewrite E1.
    assert (N0 : forall p, not_wrote p s s1).
    { intros p. destruct U1 as (U1 & U2 & U3 & U4 & U5). split; [|auto]. intros q _. split; [now rewrite U2|apply U1]. }
    destruct (drv k has_dir s cpu) as [d|e]; [|now left].
    destruct (str_eqb d intel_pstate) eqn:Ep; [|destruct (str_eqb d acpi_cpufreq) eqn:Ea].
    - apply str_eqb_eq in Ep. subst d. pose proof (write_wrote no_turbo_path (bool_text (negb enable)) turbo_what s1) as P.
      unfold post in P. destruct (s_write k no_turbo_path _ turbo_what s1) as [[[]|e] s2].
      + exists intel_pstate, no_turbo_path, (if enable then 0 else 1). split; [reflexivity|].
        split; [destruct enable; constructor|]. apply (wrote_after s1); [exact U1|].
        rewrite bool_text_dec in P. destruct enable; exact P.
      + destruct P as (P & _). destruct (@turbo_failed_run k has_dir unit s2 cpu e) as (s3 & E3 & U3). rewrite E3. left.
        eapply not_wrote_then; [|exact U3]. now apply (not_wrote_after s1).
    - apply str_eqb_eq in Ea. subst d. pose proof (write_wrote boost_path (bool_text enable) turbo_what s1) as P.
      unfold post in P. destruct (s_write k boost_path _ turbo_what s1) as [[[]|e] s2].
      + exists acpi_cpufreq, boost_path, (if enable then 1 else 0). split; [reflexivity|].
        split; [destruct enable; constructor|]. apply (wrote_after s1); [exact U1|].
        rewrite bool_text_dec in P. destruct enable; exact P.
      + right. destruct P as (P & _). now apply (not_wrote_after s1).
    - now left.
  Qed.

  (** The state of a loop that writes one value to each of several files. [files]: the files written so far. *)
  Definition loop_inv (fs : str -> str -> Prop) (s0 s : sstate) : Prop :=
    (forall q, (forall v, ~ fs q v) -> untouched k s0 s q) /\ ss_intr s = ss_intr s0 /\
    (forall p v, fs p v -> (forall v', fs p v' -> v' = v) -> (shows_written k s0 p v -> seen k s p = Ok v) /\
       (ss_intr s0 = false -> stores k p v -> contents s p = Some v)) /\
    (ss_intr s0 = true -> ss_fs s = ss_fs s0 /\ ss_log s = ss_log s0).

  Lemma loop_inv_start s : loop_inv (fun _ _ => False) s s.
  Proof.
    split; [intros; apply untouched_refl|]. split; [reflexivity|]. split; [intros p v []|]. auto.
  Qed.

  Lemma loop_inv_step (fs fs' : str -> str -> Prop) s0 s s' p v : loop_inv fs s0 s -> wrote p v s s' ->
    (forall q w, fs' q w <-> fs q w \/ (q = p /\ w = v)) -> loop_inv fs' s0 s'.
  Proof.
    intros (L1 & L2 & L3 & L4) (W1 & W2 & W3 & W4 & _ & W6) Hf. split; [|split; [congruence|split]].
    - intros q Hq. destruct (str_dec q p) as [-> |Hn].
      + exfalso. apply (Hq v). apply Hf. auto.
      + eapply untouched_trans; [apply L1|now apply W1]. intros w Hw. apply (Hq w). apply Hf. auto.
    - intros q w Hw Hu. destruct (str_dec q p) as [-> |Hn].
      + assert (v = w) as <- by (apply Hu, Hf; auto). split.
        * intros H. apply W3. unfold shows_written in *. now rewrite L2.
        * rewrite <- L2. exact W4.
      + assert (Hq : fs q w) by (apply Hf in Hw as [H|[-> _]]; [exact H|now destruct Hn]).
        destruct (L3 q w Hq) as [A B]; [intros w' H; apply Hu, Hf; auto|].
        destruct (W1 q Hn) as [F S]. split; [intros H; rewrite S; auto|]. unfold contents in *. rewrite F. exact B.
    - intros Hi. destruct (L4 Hi) as [A B]. rewrite <- L2 in Hi. destruct (W6 Hi) as [C D]. split; congruence.
  Qed.

  Definition turbo_written (s : sstate) (enable : bool) (cpus : list Z) (f v : str) : Prop :=
    exists c d n, In c cpus /\ drv k has_dir s c = Ok d /\ turbo_knob d enable f n /\ v = dec n.

  Lemma drv_kept fs s0 s c : loop_inv fs s0 s -> (forall p v, fs p v -> p = no_turbo_path \/ p = boost_path \/ p = status_path) ->
    drv k has_dir s c = drv k has_dir s0 c.
  Proof.
    intros (L1 & _) Hf. apply drv_untouched, L1. intros v Hv. destruct (Hf _ _ Hv) as [E|[E|E]]; revert E.
    - apply policy_not_no_turbo.
    - apply policy_not_boost.
    - apply policy_not_status.
  Qed.

  Lemma turbo_written_file s enable cpus f v : turbo_written s enable cpus f v -> f = no_turbo_path \/ f = boost_path \/ f = status_path.
  Proof. intros (c & d & n & _ & _ & K & _). apply knob_file in K. tauto. Qed.

  Lemma set_turbo_post enable cpus s :
    post (set_turbo k has_dir enable cpus) s
      (fun _ s' => loop_inv (turbo_written s enable cpus) s s' /\
         (forall c, In c cpus -> exists d f n, drv k has_dir s c = Ok d /\ turbo_knob d enable f n))
      (fun _ s' => forall q, q <> no_turbo_path -> q <> boost_path -> untouched k s s' q).
  Proof.
    unfold set_turbo. apply (post_mfor _ (fun done s' => loop_inv (turbo_written s enable done) s s' /\
         (forall c, In c done -> exists d f n, drv k has_dir s c = Ok d /\ turbo_knob d enable f n))).
    - intros pre c rest _ s1 (L & H). pose proof (set_turbo_cpu_post enable c s1) as P.
      eapply post_conseq; [exact P| |].
      + intros _ s2 (d & f & n & Hd & Kn & Wr).
        rewrite (drv_kept _ _ _ c L (turbo_written_file s enable pre)) in Hd. split.
        * eapply loop_inv_step; [exact L|exact Wr|]. intros q w. unfold turbo_written. split.
          -- intros (c' & d' & n' & Hc & Hd' & Kn' & ->). apply in_app_or in Hc as [Hc|[<-|[]]].
             ++ left. now exists c', d', n'.
             ++ right. assert (d' = d) as -> by congruence. destruct (knob_fun _ _ _ _ _ _ Kn' Kn) as [-> ->]. auto.
          -- intros [(c' & d' & n' & Hc & Hd' & Kn' & ->)|[-> ->]].
             ++ exists c', d', n'. split; [apply in_or_app; now left|auto].
             ++ exists c, d, n. split; [apply in_or_app; right; now left|auto].
        * intros c' Hc. apply in_app_or in Hc as [Hc|[<-|[]]]; [now apply H|]. now exists d, f, n.
      + intros e s2 Hn q Q1 Q2. eapply untouched_trans.
        * apply L. intros v Hv. destruct Hv as (c' & d' & n' & _ & _ & Kn & _). apply knob_file in Kn as [-> | ->]; auto.
        * destruct Hn as [Hn|Hn]; now apply Hn.
    - split; [|intros c []]. destruct (loop_inv_start s) as (A & B & C & D). split; [|split; [exact B|split; [|exact D]]].
      + intros q _. apply untouched_refl.
      + intros p v (c & d & n & [] & _).
  Qed.

  Lemma set_turbo_ok enable cpus s s' : set_turbo k has_dir enable cpus s = (Ok tt, s') ->
    (forall c, In c cpus -> exists d f n, has_driver k has_dir s c d /\ has_driver k has_dir s' c d /\
       turbo_knob d enable f n /\ (shows_written k s f (dec n) -> seen k s' f = Ok (dec n)) /\
       (ss_intr s = false -> stores k f (dec n) -> contents s' f = Some (dec n))) /\
    (forall p, (forall c d f n, In c cpus -> has_driver k has_dir s c d -> turbo_knob d enable f n -> p <> f) ->
       untouched k s s' p) /\
    (ss_intr s = true -> ss_fs s' = ss_fs s /\ ss_log s' = ss_log s).
  Proof.
    intros E. pose proof (post_run _ _ _ _ _ _ (set_turbo_post enable cpus s) E) as (L & H).
    split; [|split].
    - intros c Hc. destruct (H c Hc) as (d & f & n & Hd & Kn). exists d, f, n. split; [now apply drv_iff|].
      split; [apply drv_iff; now rewrite (drv_kept _ _ _ c L (turbo_written_file s enable cpus))|]. split; [exact Kn|].
      destruct L as (_ & _ & L & _). apply L.
      + now exists c, d, n.
      + intros v' (c' & d' & n' & _ & _ & Kn' & ->). f_equal.
        inversion Kn; subst; inversion Kn'; subst; reflexivity.
    - intros p Hp. apply L. intros v (c & d & n & Hc & Hd & Kn & _). apply (Hp c d p n Hc); [now apply drv_iff|exact Kn|reflexivity].
    - intros Hi. destruct L as (_ & _ & _ & L). now apply L.
  Qed.

  Lemma set_turbo_fails enable cpus s s' e : set_turbo k has_dir enable cpus s = (Exn e, s') ->
    forall q, q <> s2l "/sys/devices/system/cpu/intel_pstate/no_turbo" -> q <> s2l "/sys/devices/system/cpu/cpufreq/boost" ->
    untouched k s s' q.
  Proof.
    intros E q. exact (post_run _ _ _ _ _ _ (set_turbo_post enable cpus s) E q).
  Qed.

  Lemma seen_int_dec s p n : seen k s p = Ok (dec n) -> seen_int k s p = Ok n.
  Proof. intros H. rewrite seen_int_eq, H, str_to_int_dec_all. reflexivity. Qed.

  Lemma turbo_is_knob s d b f n : turbo_knob d b f n -> seen k s f = Ok (dec n) -> turbo_is k s d b.
  Proof.
    intros K H. exists f, n. split; [now apply seen_int_dec|]. inversion K; subst; [left|right|right|left]; (split; [lia|assumption]).
  Qed.

  Lemma set_turbo_get enable cpus s s' : set_turbo k has_dir enable cpus s = (Ok tt, s') ->
    (forall c d f n, In c cpus -> has_driver k has_dir s c d -> turbo_knob d enable f n -> shows_written k s f (dec n)) ->
    forall others, (forall c', In c' others -> exists c d, In c cpus /\ has_driver k has_dir s c d /\ has_driver k has_dir s c' d) ->
    exists s'', get_turbo k has_dir others s' = (Ok (map (fun c => (c, onoff_text enable)) others), s'').
  Proof.
    intros E Hs others Ho. destruct (set_turbo_ok _ _ _ _ E) as (H & F & _).
    apply (proj1 (reads_get k _ _ (turbo_reads k has_dir) others s')). split.
    - rewrite map_map. cbn [fst]. apply map_id.
    - intros c' v Hin. apply in_map_iff in Hin as (c0 & [= -> <-] & Hin). destruct (Ho c' Hin) as (c & d & Hc & Hd & Hd').
      destruct (H c Hc) as (d1 & f & n & D1 & _ & Kn & Sn & _).
      assert (d1 = d) as ->. { apply drv_iff in D1, Hd. congruence. }
      apply turbo_iff. exists d, enable. split; [|split; [|reflexivity]].
      + apply drv_iff. rewrite (drv_untouched k has_dir s s'); [now apply drv_iff|]. apply F.
        intros c1 d1 f1 n1 _ _ K1. apply knob_file in K1 as [-> | ->]; [apply policy_not_no_turbo|apply policy_not_boost].
      + eapply turbo_is_knob; [exact Kn|]. apply Sn. now apply (Hs c d).
  Qed.

  Lemma set_turbo_unsupported enable c cpus s d : has_driver k has_dir s c d ->
    (forall f n, ~ turbo_knob d enable f n) ->
    exists s', set_turbo k has_dir enable (c :: cpus) s = (Exn ENotSupported, s') /\ nothing_changed k s s'.
  Proof.
    intros Hd Hn. apply drv_iff in Hd. unfold set_turbo. cbn [mfor]. unfold mbind at 1, set_turbo_cpu. unfold mbind at 1.
    destruct (drv_reads k has_dir) as [D1 _]. destruct (D1 s c) as (s1 & E1 & U1). rewrite E1, Hd. exists s1.
    destruct (str_eqb d intel_pstate) eqn:Ep; [|destruct (str_eqb d acpi_cpufreq) eqn:Ea].
    - apply str_eqb_eq in Ep. subst d. exfalso. destruct enable; eapply Hn; constructor.
    - apply str_eqb_eq in Ea. subst d. exfalso. destruct enable; eapply Hn; constructor.
    - split; [reflexivity|exact U1].
  Qed.

  Lemma set_turbo_mode_off enable c cpus s : has_driver k has_dir s c (s2l "intel_pstate") ->
    seen k s status_file = Ok (s2l "off") -> ss_fs s no_turbo_path = None -> ss_intr s = false ->
    exists s', set_turbo k has_dir enable (c :: cpus) s = (Exn ENotSupported, s') /\ ss_fs s' = ss_fs s /\ ss_log s' = ss_log s.
  Proof.
    intros Hd Hm Hf Hi. apply drv_iff in Hd. unfold set_turbo. cbn [mfor]. unfold mbind at 1, set_turbo_cpu. unfold mbind at 1.
    destruct (drv_reads k has_dir) as [D1 _]. destruct (D1 s c) as (s1 & E1 & U1). rewrite E1, Hd.
    change (str_eqb (s2l "intel_pstate") intel_pstate) with true. cbv iota beta.
    pose proof (write_post k no_turbo_path (bool_text (negb enable)) turbo_what s1) as P. unfold post in P.
    pose proof (write_wrote no_turbo_path (bool_text (negb enable)) turbo_what s1) as P2. unfold post in P2.
    destruct (s_write k no_turbo_path _ turbo_what s1) as [[[]|e] s2].
    - destruct P as (_ & _ & A & _). destruct U1 as (_ & U2 & _ & U4 & _). destruct A as (_ & _ & old & c0 & X & _); congruence.
    - destruct P2 as ((W1 & W2 & W3 & W4) & _ & He).
      destruct (@turbo_failed_run k has_dir unit s2 c e) as (s3 & E3 & U3). rewrite E3. exists s3.
      assert (Mo : mode_of k has_dir s2 c = Ok (s2l "off")).
      { apply mode_iff. split.
        - apply drv_iff. rewrite (drv_untouched k has_dir s s2); [exact Hd|].
          eapply untouched_trans; [apply (unseen_at s s1); exact U1|]. apply W1. apply policy_not_no_turbo.
        - rewrite <- Hm. rewrite <- (proj1 U1). apply (W1 status_file). intros X. discriminate X. }
      assert (T : turbo_fail k has_dir s2 c e = ENotSupported).
      { unfold turbo_fail. rewrite Mo. destruct He as [-> | ->]; reflexivity. }
      rewrite T. split; [reflexivity|]. destruct U1 as (_ & F1 & _ & _ & L1), U3 as (_ & F3 & _ & _ & L3). split; congruence.
  Qed.

  Lemma set_turbo_works enable cpus s :
    (forall c, In c cpus -> exists d f n, has_driver k has_dir s c d /\ turbo_knob d enable f n /\
       can_write k s f (dec n) "turbo on/off status") ->
    exists s', set_turbo k has_dir enable cpus s = (Ok tt, s').
  Proof.
    unfold set_turbo. revert s. induction cpus as [|c cpus IH]; intros s H; [now exists s|].
    destruct (H c (or_introl eq_refl)) as (d & f & n & Hd & Kn & Cw). apply drv_iff in Hd.
    assert (St : exists s1 s2, unseen k s s1 /\ s_write k f (dec n) turbo_what s1 = (Ok tt, s2) /\
      set_turbo_cpu k has_dir enable c s = (Ok tt, s2) /\ can_write k s1 f (dec n) "turbo on/off status").
    { unfold set_turbo_cpu, mbind. destruct (drv_reads k has_dir) as [D1 _]. destruct (D1 s c) as (s1 & E1 & U1).
      rewrite E1, Hd. apply (can_unseen _ _ _ _ _ U1) in Cw. destruct (write_can _ _ _ _ Cw) as (s2 & E2).
      exists s1, s2. split; [exact U1|]. split; [exact E2|]. split; [|exact Cw].
      change (Some (s2l "turbo on/off status")) with turbo_what in E2.
      inversion Kn; subst d enable f n.
      - change (str_eqb (s2l "intel_pstate") intel_pstate) with true. cbv iota. cbv beta.
        change (s_write k no_turbo_path (bool_text (negb true)) turbo_what s1) with
          (s_write k (s2l "/sys/devices/system/cpu/intel_pstate/no_turbo") (dec 0) turbo_what s1). now rewrite E2.
      - change (str_eqb (s2l "intel_pstate") intel_pstate) with true. cbv iota. cbv beta.
        change (s_write k no_turbo_path (bool_text (negb false)) turbo_what s1) with
          (s_write k (s2l "/sys/devices/system/cpu/intel_pstate/no_turbo") (dec 1) turbo_what s1). now rewrite E2.
      - exact E2.
      - exact E2. }
    destruct St as (s1 & s2 & U1 & E2 & E3 & Cw1). cbn [mfor]. unfold mbind at 1. rewrite E3. apply IH.
    intros c' Hc'. destruct (H c' (or_intror Hc')) as (d' & f' & n' & Hd' & Kn' & Cw').
    exists d', f', n'. apply drv_iff in Hd'. split; [|split; [exact Kn'|]].
    - apply drv_iff. rewrite <- Hd'. apply drv_untouched. eapply untouched_trans; [apply (unseen_at s s1); exact U1|].
      pose proof (post_run _ _ _ _ _ _ (write_wrote f (dec n) turbo_what s1) E2) as (W & _). apply W.
      apply knob_file in Kn as [-> | ->]; [apply policy_not_no_turbo|apply policy_not_boost].
    - apply (can_unseen _ _ _ _ _ U1) in Cw'. destruct (str_dec f' f) as [-> |Hn].
      + assert (n' = n) as -> by (inversion Kn; subst; inversion Kn'; subst; reflexivity).
        eapply write_can_again; [exact Cw1|exact E2].
      + eapply can_other; [exact Hn|exact E2|exact Cw'].
  Qed.
End Turbo.
