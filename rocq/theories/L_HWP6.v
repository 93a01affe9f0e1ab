(** Lemmas about the HWP request registers: histories. *)
From Coq Require Import Ascii String ZifyBool.
From Verif Require Import Base L_Base L_Monad M_CPUInfo S_CPUInfo L_CPUInfo L_CPUInfo2
  M_Text M_MSR S_MSR L_Bits L_MSR L_MSR2 L_MSR3 L_MSR4 L_MSR5 M_FMSR S_FMSR L_Text L_FMSR L_FMSR2 L_FMSR3 L_FMSR4 X_FMSR
  M_HWP S_HWP L_Quiet L_OpTarget L_CPUFreq2 L_HWP L_HWP2 L_HWP3 L_HWP4 L_HWP5.

Section Hist.
  Variable env : menv.
  Notation dom := (me_dom env).
  Notation ci := (me_ci env).
  Notation online := (ci_online (me_ci env)).
  Variable sc : Z -> scope.
  Notation view := (view env).
  Hypothesis Hwf : wf_ci ci.
  Hypothesis Hsc : forall a, scope_right env a (sc a).
  Hypothesis Hfaith : faithful env.
  Variable x : hwp.
  Hypothesis Hx : hwp_ok env sc x.
  Notation reg s c := (view s REQ (dom REQ c)).

  (** What the history guarantees for the state, and for the operations to come. *)
  Definition fine (rep : Z -> Z -> Z) (tx : bool) (o : hop) : Prop :=
    match o with
    | HMsr o => op_scoped sc o /\ (tx = false -> o <> OStart) /\ (tx = true -> op_rep env rep o)
    | HSetFreq _ f _ => 0 <= f
    | HSetEpp v _ => 0 <= v
    | _ => True
    end.
  Definition hinv (rep : Z -> Z -> Z) (tx : bool) (s : mstate) : Prop :=
    Inv env rep sc s /\ (tx = false -> ms_intr s = false) /\ (tx = true -> forall c, In c online -> rep REQ (dom REQ c) = c).

  Lemma disciplined_fine ops : hdisciplined env sc ops ->
    exists rep tx, (forall o, In o ops -> fine rep tx o) /\ (tx = true -> forall c, In c online -> rep REQ (dom REQ c) = c).
  Proof.
    intros (Hs & Hf & He & [Hn|(rep & Hr & Hrep)]).
    - exists (fun _ _ => 0), false. split; [|discriminate]. intros [o|k cs|k f cs|c|v c] Hin; cbn [fine]; eauto.
      split; [now apply Hs|]. split; [|discriminate]. intros _ ->. exact (Hn Hin).
    - exists rep, true. split; [|auto]. intros [o|k cs|k f cs|c|v c] Hin; cbn [fine]; eauto.
      split; [now apply Hs|]. split; [discriminate|]. auto.
  Qed.

  Lemma hinv_init rep tx hw faults : (tx = true -> forall c, In c online -> rep REQ (dom REQ c) = c) -> hinv rep tx (msr_init hw faults).
  Proof. intros H. split; [split; [apply Coh_init|discriminate]|]. split; [reflexivity|exact H]. Qed.

  Lemma hinv_keeps rep tx s s' : hinv rep tx s -> Inv env rep sc s' -> keeps env rep sc s s' -> hinv rep tx s'.
  Proof. intros (HI & H1 & H2) I' K. split; [exact I'|]. split; [|exact H2]. intros E. rewrite (k_intr _ _ _ _ _ K). auto. Qed.

  Lemma msr_fine rep tx o s : hinv rep tx s -> fine rep tx (HMsr o) -> hinv rep tx (snd (mstep env o s)) /\
    forall a d, ~ op_touches env o a d -> view (snd (mstep env o s)) a d = view s a d.
  Proof.
    intros (HI & H1 & H2) (F1 & F2 & F3).
    assert (Hro : ms_intr s = true -> op_rep env rep o) by (intros Ei; apply F3; destruct tx; [reflexivity|rewrite H1 in Ei by reflexivity; discriminate]).
    pose proof (mstep_post env rep sc Hwf Hsc Hfaith o s (proj1 HI) F1 Hro) as P.
    pose proof (mstep_intr env rep sc Hwf Hsc Hfaith o s (proj1 HI) F1 Hro) as Pi.
    assert (HC : Coh env rep sc (snd (mstep env o s))) by (unfold post in P; destruct (mstep env o s) as [[r|e] s']; apply P).
    split.
    - split; [split; [exact HC|]|split; [|exact H2]].
      + intros Ei. destruct tx; [auto|]. rewrite Pi in Ei; [discriminate|auto|auto].
      + intros ->. apply Pi; auto.
    - intros a d Ht. apply (mrun_view env rep sc Hwf Hsc Hfaith [o] a d s (proj1 HI)).
      + intros o' [<-|[]]; exact F1.
      + destruct tx; [right; intros o' [<-|[]]; auto|]. left. split; [auto|]. intros [E|[]]. now apply F2.
      + intros o' [<-|[]]; exact Ht.
  Qed.

  Lemma hstep_fine rep tx o s : hinv rep tx s -> fine rep tx o -> hinv rep tx (hstep env x s o).
  Proof.
    intros HH Hf. pose proof (proj1 HH) as HI. destruct o as [o|k cs|k f cs|c|v c]; cbn [hstep fine] in *.
    - now apply msr_fine.
    - pose proof (get_freq_post env rep sc Hwf Hsc x Hx k cs s HI) as P. unfold post in P.
      destruct (get_freq_msr env x k cs s) as [[r|e] s']; cbn [snd]; eapply hinv_keeps; eauto; try apply P.
    - pose proof (set_freq_post env rep sc Hwf Hsc Hfaith x Hx k f cs s Hf HI) as P. unfold post in P.
      destruct (set_freq_msr env x k f cs s) as [[r|e] s']; cbn [snd]; destruct P as ((K & I' & _) & _); eapply hinv_keeps; eauto.
    - pose proof (epp_read_post env rep sc Hwf Hsc x Hx c s HI) as P. unfold post in P.
      destruct (epp_read_msr env x c s) as [[r|e] s']; cbn [snd]; eapply hinv_keeps; eauto; try apply P.
    - pose proof (epp_write_post env rep sc Hwf Hsc Hfaith x Hx v c s Hf HI) as P. unfold post in P.
      destruct (epp_write_msr env x v c s) as [[r|e] s']; cbn [snd]; destruct P as ((K & I' & _) & _); eapply hinv_keeps; eauto.
  Qed.

  Lemma hrun_fine rep tx ops : forall s, hinv rep tx s -> (forall o, In o ops -> fine rep tx o) -> hinv rep tx (hrun env x ops s).
  Proof.
    induction ops as [|o t IH]; intros s HH Hf; [exact HH|]. cbn [hrun fold_left]. apply IH; [|intros; apply Hf; now right].
    apply hstep_fine; [exact HH|]. apply Hf. now left.
  Qed.

  Lemma hreached ops hw faults : hdisciplined env sc ops -> exists rep, Inv env rep sc (hrun env x ops (msr_init hw faults)).
  Proof.
    intros H. destruct (disciplined_fine ops H) as (rep & tx & Hf & Hr). exists rep.
    apply (hrun_fine rep tx ops _ (hinv_init rep tx hw faults Hr) Hf).
  Qed.

  Lemma hrun_app a b s : hrun env x (a ++ b) s = hrun env x b (hrun env x a s).
  Proof. apply fold_left_app. Qed.

  (** ** A setting that the CPU decides about stays until it is written *)
  Definition holds (s : mstate) (k : hset) (c p b : Z) : Prop :=
    pkg_decides env x (view s) k c = false /\ is_field (hbits k) (reg s c) p /\ bus_clock env x (view s) c b.

  Lemma bus_clock_view1 L L' c b : L' FSB (dom FSB c) = L FSB (dom FSB c) -> bus_clock env x L c b -> bus_clock env x L' c b.
  Proof.
    unfold bus_clock. intros H. destruct (hw_fsb x); [|auto]. intros (fe & khz & code & A & B & C). exists fe, khz, code. now rewrite H.
  Qed.

  Lemma holds_view s s' k c p b : reg s' c = reg s c -> view s' FSB (dom FSB c) = view s FSB (dom FSB c) ->
    holds s k c p b -> holds s' k c p b.
  Proof.
    intros H1 H2 (A & B & C). unfold holds. split; [unfold pkg_decides in *; now rewrite H1|]. split; [now rewrite H1|].
    eapply bus_clock_view1; eauto.
  Qed.

  Lemma decides_evolves s s' k P k' c : evolves k P (reg s c) (reg s' c) -> pkg_decides env x (view s) k' c = false ->
    pkg_decides env x (view s') k' c = false.
  Proof.
    intros E Hd. unfold pkg_decides in *. rewrite (evolves_pkg _ _ _ _ E).
    assert (D : k' = k \/ k' <> k) by (destruct k, k'; auto; right; discriminate). destruct D as [->|Hk].
    - destruct (Z.testbit (reg s c) (valid_bit k)) eqn:Ev.
      + rewrite (evolves_valid _ _ _ _ E Ev). cbn. now rewrite andb_false_r.
      + cbn [negb] in Hd. rewrite andb_true_r in Hd. now rewrite Hd.
    - now rewrite (evolves_valid_other _ _ _ _ k' E Hk).
  Qed.

  Lemma holds_tidy rep s s' k P k' c p b : tidy env rep sc k P s s' -> In c online -> (k' <> k \/ ~ P c) ->
    holds s k' c p b -> holds s' k' c p b.
  Proof.
    intros (_ & _ & F & E) Hc Hk (A & B & C). specialize (E c Hc). split; [eapply decides_evolves; eauto|].
    split; [eapply evolves_field; eauto|]. eapply bus_clock_view1; [|exact C]. apply F. discriminate.
  Qed.

  Lemma hset_dec (k k' : hset) : k = k' \/ k <> k'.
  Proof. destruct k, k'; auto; right; discriminate. Qed.

  Lemma holds_step rep tx o s k c p b : hinv rep tx s -> fine rep tx o -> In c online -> ~ hop_touches env k c o ->
    holds s k c p b -> holds (hstep env x s o) k c p b.
  Proof.
    intros HH Hf Hc Ht H. pose proof (proj1 HH) as HI. destruct o as [o|k' cs|k' f cs|c'|v c']; cbn [hstep fine hop_touches] in *.
    - destruct (msr_fine rep tx o s HH Hf) as (_ & V). eapply holds_view; [| |exact H]; apply V; tauto.
    - pose proof (get_freq_post env rep sc Hwf Hsc x Hx k' cs s HI) as P. unfold post in P.
      destruct (get_freq_msr env x k' cs s) as [[r|e] s']; cbn [snd]; destruct P as ((V & _) & _); eapply holds_view; eauto.
    - pose proof (set_freq_post env rep sc Hwf Hsc Hfaith x Hx k' f cs s Hf HI) as P. unfold post in P.
      assert (Hk : k <> k' \/ ~ In c cs) by (destruct (hset_dec k k'); [subst; tauto|auto]).
      destruct (set_freq_msr env x k' f cs s) as [[r|e] s']; cbn [snd]; destruct P as (T & _); eapply holds_tidy; eauto.
    - pose proof (epp_read_post env rep sc Hwf Hsc x Hx c' s HI) as P. unfold post in P.
      destruct (epp_read_msr env x c' s) as [[r|e] s']; cbn [snd]; destruct P as ((V & _) & _); eapply holds_view; eauto.
    - pose proof (epp_write_post env rep sc Hwf Hsc Hfaith x Hx v c' s Hf HI) as P. unfold post in P.
      assert (Hk : k <> HEpp \/ ~ c = c') by (destruct (hset_dec k HEpp); [subst; right; intros ->; apply Ht; auto|auto]).
      destruct (epp_write_msr env x v c' s) as [[r|e] s']; cbn [snd]; destruct P as (T & _); eapply holds_tidy; eauto.
  Qed.

  Lemma holds_run rep tx ops k c p b : In c online -> forall s, hinv rep tx s -> (forall o, In o ops -> fine rep tx o) ->
    (forall o, In o ops -> ~ hop_touches env k c o) -> holds s k c p b -> holds (hrun env x ops s) k c p b.
  Proof.
    intros Hc. induction ops as [|o t IH]; intros s HH Hf Ht H; [exact H|]. cbn [hrun fold_left]. apply IH.
    - apply hstep_fine; [exact HH|]. apply Hf. now left.
    - intros; apply Hf; now right.
    - intros; apply Ht; now right.
    - eapply holds_step; eauto; [apply Hf; now left|apply Ht; now left].
  Qed.

  (** ** What is read *)
  Lemma setting_fun L k c v w : setting env x L k c v -> setting env x L k c w -> v = w.
  Proof. unfold setting. intros H1 H2. eapply is_field_functional; eauto. apply hbits_ok. Qed.

  Lemma freq_fun L k c f g : freq_in_effect env x L k c f -> freq_in_effect env x L k c g -> f = g.
  Proof.
    intros (b & p & B & S & F) (b' & p' & B' & S' & F'). rewrite (bus_clock_fun env sc x Hx _ _ _ _ B' B) in F'.
    rewrite (setting_fun _ _ _ _ _ S' S) in F'. eapply level_freq_fun; eauto. eapply bus_clock_positive; eauto.
  Qed.

  Lemma holds_effect s k c p b : holds s k c p b -> forall g, freq_in_effect env x (view s) k c g <-> level_freq x c b p g.
  Proof.
    intros (A & B & C) g. split.
    - intros (b' & p' & B' & S' & F'). rewrite (bus_clock_fun env sc x Hx _ _ _ _ C B').
      assert (p' = p) as <-; [|exact F']. unfold setting in S'. rewrite A in S'. eapply is_field_functional; eauto. apply hbits_ok.
    - intros F. exists b, p. split; [exact C|]. split; [|exact F]. unfold setting. now rewrite A.
  Qed.

  (** ** Properties *)
  Section Props.
  Variables (ops : list hop) (hw : Z -> Z -> Z) (faults : list bool).
  Hypothesis Hd : hdisciplined env sc ops.

  Lemma C27_read_freq_l k cpus r s' : get_freq_msr env x k cpus (hrun env x ops (msr_init hw faults)) = (Ok r, s') ->
    (NoDup cpus -> map fst r = cpus) /\
    forall c f, In (c, f) r <-> In c cpus /\ freq_in_effect env x (view (hrun env x ops (msr_init hw faults))) k c f.
  Proof.
    destruct (hreached ops hw faults Hd) as (rep & HI). set (s := hrun _ _ _ _) in *. intros E.
    pose proof (get_freq_post env rep sc Hwf Hsc x Hx k cpus s HI) as P. unfold post in P. rewrite E in P.
    destruct P as (_ & _ & Hm & Hn & Hr). split; [exact Hn|]. intros c f. split.
    - intros Hin. split; [|auto]. apply Hm. apply (in_map fst _ _ Hin).
    - intros (Hc & Hf). apply Hm in Hc. apply in_map_iff in Hc. destruct Hc as ([c' f'] & E' & Hin). cbn in E'. subst c'.
      now rewrite (freq_fun _ _ _ _ _ Hf (Hr _ _ Hin)).
  Qed.

  Lemma C27_read_epp_l c v s' : epp_read_msr env x c (hrun env x ops (msr_init hw faults)) = (Ok (Some v), s') ->
    setting env x (view (hrun env x ops (msr_init hw faults))) HEpp c v.
  Proof.
    destruct (hreached ops hw faults Hd) as (rep & HI). set (s := hrun _ _ _ _) in *. intros E.
    pose proof (epp_read_post env rep sc Hwf Hsc x Hx c s HI) as P. unfold post in P. rewrite E in P. now apply P.
  Qed.

  Lemma C27_read_only_l a d : let s := hrun env x ops (msr_init hw faults) in
    (forall k cpus, view (snd (get_freq_msr env x k cpus s)) a d = view s a d) /\
    (forall c, view (snd (epp_read_msr env x c s)) a d = view s a d).
  Proof.
    destruct (hreached ops hw faults Hd) as (rep & HI). intros s. split.
    - intros k cpus. pose proof (get_freq_post env rep sc Hwf Hsc x Hx k cpus s HI) as P. unfold post in P.
      destruct (get_freq_msr env x k cpus s) as [[r|e] s']; cbn [snd]; apply P.
    - intros c. pose proof (epp_read_post env rep sc Hwf Hsc x Hx c s HI) as P. unfold post in P.
      destruct (epp_read_msr env x c s) as [[r|e] s']; cbn [snd]; apply P.
  Qed.

  (** What setting the frequency leaves alone, whether it succeeds or not. *)
  Lemma C27_set_others_l k f cpus r s' c : 0 <= f ->
    set_freq_msr env x k f cpus (hrun env x ops (msr_init hw faults)) = (r, s') -> In c online ->
    let s := hrun env x ops (msr_init hw faults) in
    (forall k' v, k' <> k -> setting env x (view s') k' c v <-> setting env x (view s) k' c v) /\
    (~ In c cpus -> pkg_decides env x (view s) k c = false -> same_settings env x (view s) (view s') c) /\
    (forall a d, a <> REQ -> view s' a d = view s a d).
  Proof.
    intros Hf E Hc s. destruct (hreached ops hw faults Hd) as (rep & HI). fold s in E, HI.
    pose proof (set_freq_post env rep sc Hwf Hsc Hfaith x Hx k f cpus s Hf HI) as P. unfold post in P. rewrite E in P.
    assert (T : tidy env rep sc k (fun c => In c cpus) s s') by (destruct r; apply P). clear P.
    destruct T as (_ & _ & F & Ev). specialize (Ev c Hc).
    assert (Other : forall k' v, k' <> k -> setting env x (view s') k' c v <-> setting env x (view s) k' c v).
    { intros k' v Hk. unfold setting. assert (pkg_decides env x (view s') k' c = pkg_decides env x (view s) k' c) as ->.
      { unfold pkg_decides. now rewrite (evolves_pkg _ _ _ _ Ev), (evolves_valid_other _ _ _ _ k' Ev Hk). }
      destruct (pkg_decides env x (view s) k' c); [rewrite F by discriminate; reflexivity|].
      split; [eapply evolves_field_back|eapply evolves_field]; eauto. }
    split; [exact Other|]. split; [|exact F]. intros Hn Hdec k' v. destruct (hset_dec k' k) as [->|Hk]; [|now apply Other].
    unfold setting. rewrite (decides_evolves _ _ _ _ _ _ Ev Hdec), Hdec.
    split; [eapply evolves_field_back|eapply evolves_field]; eauto.
  Qed.

  Lemma C27_set_failed_l k f cpus e s' c : 0 <= f ->
    set_freq_msr env x k f cpus (hrun env x ops (msr_init hw faults)) = (Exn e, s') -> In c online ->
    let s := hrun env x ops (msr_init hw faults) in pkg_decides env x (view s) k c = false ->
    (forall v, setting env x (view s') k c v <-> setting env x (view s) k c v) \/
    (In c cpus /\ exists b p, bus_clock env x (view s) c b /\ freq_level x c b f p /\ forall v, setting env x (view s') k c v <-> v = p).
  Proof.
    intros Hf E Hc s Hdec. destruct (hreached ops hw faults Hd) as (rep & HI). fold s in E, HI.
    pose proof (set_freq_post env rep sc Hwf Hsc Hfaith x Hx k f cpus s Hf HI) as P. unfold post in P. rewrite E in P.
    destruct P as ((_ & _ & F & Ev) & Mix). specialize (Ev c Hc). pose proof (decides_evolves _ _ _ _ _ _ Ev Hdec) as Hdec'.
    assert (U : forall v w, is_field (hbits k) (reg s' c) v -> is_field (hbits k) (reg s' c) w -> v = w).
    { intros v w. apply is_field_functional, hbits_ok. }
    destruct (Mix c Hc) as [M|(b & p & Hin & Hb & Hp & Hfl)].
    - left. intros v. unfold setting. rewrite Hdec, Hdec'. split; [|apply M]. intros H.
      destruct (field_val_spec (hbits k) (reg s c) (hbits_ok k)) as (_ & H0). now rewrite (U _ _ H (M _ H0)).
    - right. split; [exact Hin|]. exists b, p. split; [eapply bus_clock_view1; [|exact Hb]; symmetry; apply F; discriminate|]. split; [exact Hp|].
      intros v. unfold setting. rewrite Hdec'. split; [intros H; eauto|now intros ->].
  Qed.

  (** EPP *)
  Lemma C27_epp_others_l v c r s' c' : 0 <= v ->
    epp_write_msr env x v c (hrun env x ops (msr_init hw faults)) = (r, s') -> In c' online ->
    let s := hrun env x ops (msr_init hw faults) in
    (c' <> c -> same_settings env x (view s) (view s') c') /\
    (forall k w, k <> HEpp -> setting env x (view s') k c' w <-> setting env x (view s) k c' w) /\
    (forall a d, a <> REQ -> view s' a d = view s a d).
  Proof.
    intros Hv E Hc s. destruct (hreached ops hw faults Hd) as (rep & HI). fold s in E, HI.
    pose proof (epp_write_post env rep sc Hwf Hsc Hfaith x Hx v c s Hv HI) as P. unfold post in P. rewrite E in P.
    assert (T : tidy env rep sc HEpp (fun c' => c' = c) s s') by (destruct r; apply P).
    assert (G : c' <> c -> reg s' c' = reg s c') by (destruct r; apply P; exact Hc). clear P.
    destruct T as (_ & _ & F & Ev). specialize (Ev c' Hc). split; [|split; [|exact F]].
    - intros Hn k w. unfold setting, pkg_decides. rewrite (G Hn). rewrite F by discriminate. reflexivity.
    - intros k w Hk. unfold setting. assert (pkg_decides env x (view s') k c' = pkg_decides env x (view s) k c') as ->.
      { unfold pkg_decides. now rewrite (evolves_pkg _ _ _ _ Ev), (evolves_valid_other _ _ _ _ k Ev Hk). }
      destruct (pkg_decides env x (view s) k c'); [rewrite F by discriminate; reflexivity|].
      split; [eapply evolves_field_back|eapply evolves_field]; eauto.
  Qed.
  End Props.

  (** Set, other calls, read. *)
  Lemma set_later k f cpus ops ops2 hw faults s1 c : k <> HEpp -> uniform env x ->
    hdisciplined env sc (ops ++ HSetFreq k f cpus :: ops2) ->
    set_freq_msr env x k f cpus (hrun env x ops (msr_init hw faults)) = (Ok tt, s1) -> In c cpus ->
    (forall o, In o ops2 -> ~ hop_touches env k c o) ->
    exists b p, bus_clock env x (view s1) c b /\ freq_level x c b f p /\ holds (hrun env x ops2 s1) k c p b.
  Proof.
    intros Hk Hu Hd E Hc Ht. destruct (disciplined_fine _ Hd) as (rep & tx & Hf & Hr).
    assert (H0 : hinv rep tx (hrun env x ops (msr_init hw faults))).
    { apply hrun_fine; [now apply hinv_init|]. intros o Ho. apply Hf, in_app_iff. now left. }
    assert (Hf0 : fine rep tx (HSetFreq k f cpus)) by (apply Hf, in_app_iff; right; now left).
    pose proof (hstep_fine rep tx _ _ H0 Hf0) as H1. cbn [hstep] in H1. rewrite E in H1. cbn [snd] in H1.
    pose proof (set_freq_post env rep sc Hwf Hsc Hfaith x Hx k f cpus _ Hf0 (proj1 H0)) as P. unfold post in P. rewrite E in P.
    destruct P as (_ & P1 & P2). destruct (P2 c Hc) as (Ho & b & p & Hb & Hp & Hfl). exists b, p. split; [exact Hb|]. split; [exact Hp|].
    eapply holds_run; eauto.
    - intros o Hin. apply Hf, in_app_iff. right. now right.
    - split; [auto|]. auto.
  Qed.

  Lemma C27_set_freq_l k f cpus ops ops2 hw faults s1 c : k <> HEpp -> uniform env x ->
    hdisciplined env sc (ops ++ HSetFreq k f cpus :: ops2) ->
    set_freq_msr env x k f cpus (hrun env x ops (msr_init hw faults)) = (Ok tt, s1) -> In c cpus ->
    (forall o, In o ops2 -> ~ hop_touches env k c o) ->
    exists b p, bus_clock env x (view s1) c b /\ freq_level x c b f p /\
      setting env x (view (hrun env x ops2 s1)) k c p /\
      forall g, freq_in_effect env x (view (hrun env x ops2 s1)) k c g <-> level_freq x c b p g.
  Proof.
    intros Hk Hu Hd E Hc Ht. destruct (set_later _ _ _ _ _ _ _ _ _ Hk Hu Hd E Hc Ht) as (b & p & Hb & Hp & H).
    exists b, p. split; [exact Hb|]. split; [exact Hp|]. split; [|now apply holds_effect].
    destruct H as (A & B & _). unfold setting. now rewrite A.
  Qed.

  Lemma hrun_after ops ops2 k f cpus hw faults s1 : set_freq_msr env x k f cpus (hrun env x ops (msr_init hw faults)) = (Ok tt, s1) ->
    hrun env x ops2 s1 = hrun env x (ops ++ HSetFreq k f cpus :: ops2) (msr_init hw faults).
  Proof. intros E. rewrite hrun_app. cbn [hrun fold_left hstep]. rewrite E. reflexivity. Qed.

  Lemma read_back k f cpus ops ops2 hw faults s1 c cpus' r s2 g : k <> HEpp -> uniform env x ->
    hdisciplined env sc (ops ++ HSetFreq k f cpus :: ops2) ->
    set_freq_msr env x k f cpus (hrun env x ops (msr_init hw faults)) = (Ok tt, s1) -> In c cpus ->
    (forall o, In o ops2 -> ~ hop_touches env k c o) ->
    get_freq_msr env x k cpus' (hrun env x ops2 s1) = (Ok r, s2) -> In (c, g) r ->
    exists b p, 0 < b /\ bus_clock env x (view s1) c b /\ freq_level x c b f p /\ level_freq x c b p g.
  Proof.
    intros Hk Hu Hd E Hc Ht E2 Hin. destruct (C27_set_freq_l _ _ _ _ _ _ _ _ _ Hk Hu Hd E Hc Ht) as (b & p & Hb & Hp & _ & H).
    exists b, p. split; [eapply bus_clock_positive; eauto|]. split; [exact Hb|]. split; [exact Hp|]. apply H.
    rewrite (hrun_after _ _ _ _ _ _ _ _ E) in *.
    apply (C27_read_freq_l (ops ++ HSetFreq k f cpus :: ops2) hw faults Hd k cpus' r s2 E2) in Hin. apply Hin.
  Qed.

  Lemma pcore_clock L c b : inb c (hw_pcores x) = true -> bus_clock env x L c b -> b = 100000000 /\ 0 < hw_factor x < b.
  Proof.
    intros Hp Hb. destruct (ho_hybrid _ _ _ Hx) as (E & Hf); [intros E; rewrite E in Hp; discriminate|].
    unfold bus_clock in Hb. rewrite E in Hb. destruct Hb as (_ & ->). split; [reflexivity|]. cbn in Hf. lia.
  Qed.

  Lemma C26_roundtrip_l k f cpus ops ops2 hw faults s1 c cpus' r s2 g b : k <> HEpp -> uniform env x ->
    hdisciplined env sc (ops ++ HSetFreq k f cpus :: ops2) ->
    set_freq_msr env x k f cpus (hrun env x ops (msr_init hw faults)) = (Ok tt, s1) -> In c cpus ->
    (forall o, In o ops2 -> ~ hop_touches env k c o) ->
    get_freq_msr env x k cpus' (hrun env x ops2 s1) = (Ok r, s2) -> In (c, g) r ->
    bus_clock env x (view s1) c b -> (exists q, f = q * b) -> g = f.
  Proof.
    intros Hk Hu Hd E Hc Ht E2 Hin Hb (q & Eq). destruct (read_back _ _ _ _ _ _ _ _ _ _ _ _ _ Hk Hu Hd E Hc Ht E2 Hin) as (b' & p & Pos & Hb' & Hp & Hl).
    rewrite (bus_clock_fun env sc x Hx _ _ _ _ Hb' Hb) in *. unfold freq_level, level_freq in *.
    destruct (inb c (hw_pcores x)) eqn:Ep.
    - destruct (pcore_clock _ _ _ Ep Hb) as (_ & Hf). destruct Hl as ((q' & ->) & Hl). subst f. f_equal.
      assert (q' * b < (q + 1) * b) by nia. assert (q * b < (q' + 1) * b) by nia. nia.
    - subst g f. f_equal. nia.
  Qed.

  Lemma C26_floor_partial_l k f cpus ops ops2 hw faults s1 c cpus' r s2 g b : k <> HEpp -> uniform env x ->
    hdisciplined env sc (ops ++ HSetFreq k f cpus :: ops2) ->
    set_freq_msr env x k f cpus (hrun env x ops (msr_init hw faults)) = (Ok tt, s1) -> In c cpus ->
    (forall o, In o ops2 -> ~ hop_touches env k c o) ->
    get_freq_msr env x k cpus' (hrun env x ops2 s1) = (Ok r, s2) -> In (c, g) r ->
    bus_clock env x (view s1) c b ->
    (exists q, g = q * b) /\ Z.abs (g - f) < b /\ (~ In c (hw_pcores x) -> g <= f).
  Proof.
    intros Hk Hu Hd E Hc Ht E2 Hin Hb. destruct (read_back _ _ _ _ _ _ _ _ _ _ _ _ _ Hk Hu Hd E Hc Ht E2 Hin) as (b' & p & Pos & Hb' & Hp & Hl).
    rewrite (bus_clock_fun env sc x Hx _ _ _ _ Hb' Hb) in *. unfold freq_level, level_freq in *.
    destruct (inb c (hw_pcores x)) eqn:Ep.
    - destruct (pcore_clock _ _ _ Ep Hb) as (_ & Hf). destruct Hl as (Hq & Hl). split; [exact Hq|].
      split; [nia|]. intros Hn. elim Hn. now apply inb_In.
    - subst g. split; [eauto|]. split; [nia|]. lia.
  Qed.

  (** EPP: set, other calls, read. *)
  Lemma C27_epp_l v c ops ops2 hw faults s1 : hdisciplined env sc (ops ++ HSetEpp v c :: ops2) ->
    epp_write_msr env x v c (hrun env x ops (msr_init hw faults)) = (Ok tt, s1) ->
    (forall o, In o ops2 -> ~ hop_touches env HEpp c o) ->
    (forall w, setting env x (view (hrun env x ops2 s1)) HEpp c w <-> w = v) /\
    forall r s2, epp_read_msr env x c (hrun env x ops2 s1) = (Ok r, s2) -> r = Some v.
  Proof.
    intros Hd E Ht. destruct (disciplined_fine _ Hd) as (rep & tx & Hf & Hr).
    assert (H0 : hinv rep tx (hrun env x ops (msr_init hw faults))).
    { apply hrun_fine; [now apply hinv_init|]. intros o Ho. apply Hf, in_app_iff. now left. }
    assert (Hf0 : fine rep tx (HSetEpp v c)) by (apply Hf, in_app_iff; right; now left).
    pose proof (hstep_fine rep tx _ _ H0 Hf0) as H1. cbn [hstep] in H1. rewrite E in H1. cbn [snd] in H1.
    pose proof (epp_write_post env rep sc Hwf Hsc Hfaith x Hx v c _ Hf0 (proj1 H0)) as P. unfold post in P. rewrite E in P.
    destruct P as (_ & _ & Ho & Hdec & Hfl & fr & Hfr & Hh).
    assert (Hf2 : forall o, In o ops2 -> fine rep tx o) by (intros o Hin; apply Hf, in_app_iff; right; now right).
    assert (H2 : pkg_decides env x (view (hrun env x ops2 s1)) HEpp c = false /\ is_field (hbits HEpp) (reg (hrun env x ops2 s1) c) v).
    { clear - Hwf Hsc Hfaith Hx H1 Hf2 Ht Ho Hdec Hfl. revert s1 H1 Hdec Hfl Hf2 Ht.
      induction ops2 as [|o t IH]; intros s HH A B Hf Ht; [split; assumption|]. cbn [hrun fold_left].
      assert (Fo : fine rep tx o) by (apply Hf; now left). assert (To : ~ hop_touches env HEpp c o) by (apply Ht; now left).
      assert (HI : Inv env rep sc s) by apply HH.
      assert (R : pkg_decides env x (view (hstep env x s o)) HEpp c = false /\ is_field (hbits HEpp) (reg (hstep env x s o) c) v).
      { destruct o as [o|k' cs|k' f cs|c'|v' c']; cbn [hstep fine hop_touches] in *.
        - destruct (msr_fine rep tx o s HH Fo) as (_ & V). unfold pkg_decides in *. rewrite V by tauto. auto.
        - pose proof (get_freq_post env rep sc Hwf Hsc x Hx k' cs s HI) as P. unfold post in P.
          destruct (get_freq_msr env x k' cs s) as [[r|e] s']; cbn [snd]; destruct P as ((V & _) & _); unfold pkg_decides in *; rewrite V; auto.
        - pose proof (set_freq_post env rep sc Hwf Hsc Hfaith x Hx k' f cs s Fo HI) as P. unfold post in P.
          assert (Hk : HEpp <> k' \/ ~ In c cs) by (destruct (hset_dec HEpp k'); [subst; tauto|auto]).
          destruct (set_freq_msr env x k' f cs s) as [[r|e] s']; cbn [snd]; destruct P as ((_ & _ & _ & Ev) & _); specialize (Ev c Ho);
            (split; [eapply decides_evolves; eauto|eapply evolves_field; eauto]).
        - pose proof (epp_read_post env rep sc Hwf Hsc x Hx c' s HI) as P. unfold post in P.
          destruct (epp_read_msr env x c' s) as [[r|e] s']; cbn [snd]; destruct P as ((V & _) & _); unfold pkg_decides in *; rewrite V; auto.
        - pose proof (epp_write_post env rep sc Hwf Hsc Hfaith x Hx v' c' s Fo HI) as P. unfold post in P.
          assert (Hk : HEpp <> HEpp \/ ~ c = c') by (right; intros ->; apply To; auto).
          destruct (epp_write_msr env x v' c' s) as [[r|e] s']; cbn [snd]; destruct P as ((_ & _ & _ & Ev) & _); specialize (Ev c Ho);
            (split; [eapply decides_evolves; eauto|eapply evolves_field; eauto]). }
      destruct R as (R1 & R2). apply IH; auto; [now apply hstep_fine| |]; intros; [apply Hf|apply Ht]; now right. }
    destruct H2 as (A & B).
    assert (U : forall w, setting env x (view (hrun env x ops2 s1)) HEpp c w <-> w = v).
    { intros w. unfold setting. rewrite A. split; [|now intros ->]. intros H. eapply is_field_functional; eauto. apply hbits_ok. }
    split; [exact U|]. intros r s2 E2.
    assert (Er : hrun env x ops2 s1 = hrun env x (ops ++ HSetEpp v c :: ops2) (msr_init hw faults)).
    { rewrite hrun_app. cbn [hrun fold_left hstep]. rewrite E. reflexivity. }
    assert (H2 : hinv rep tx (hrun env x ops2 s1)) by (now apply hrun_fine).
    pose proof (epp_read_post env rep sc Hwf Hsc x Hx c _ (proj1 H2)) as Pr. unfold post in Pr. rewrite E2 in Pr.
    destruct Pr as (_ & _ & Pr & Pn). destruct r as [w|]; [f_equal; apply U; now apply Pr|].
    rewrite (Pn eq_refl fr Hfr A) in Hh. discriminate.
  Qed.
End Hist.
