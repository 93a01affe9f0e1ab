(** Lemmas about the 'cpu-hotplug' command. *)
From Coq Require Import ZifyBool Sorting.Sorted Sorting.Permutation.
From Verif Require Import Base L_Base M_Text S_Text L_Text M_CPUInfo S_CPUInfo L_CPUInfo L_Hotplug
  M_OpTarget S_OpTarget L_OpTarget3 L_OpTarget5 M_Online S_Online L_Online M_HpCmd S_HpCmd.

Definition fresh (s : ost) : ost := set_oci s (topo_init (o_sys s) (o_online s)).

Lemma seen_fresh s : o_ci (fresh s) = seen s.
Proof. reflexivity. Qed.

Lemma fresh_ok s : host_ok s -> machine_ok (fresh s).
Proof.
  intros (H1 & H2 & _). split; [exact H1|]. split; [exact H2|].
  exists (o_online s), []. split; [exact H2|]. split; [constructor|reflexivity].
Qed.

Lemma seen_wf s : host_ok s -> wf_ci (seen s).
Proof. intros (H1 & H2 & _). apply hotplug_wf_l; auto. Qed.

Lemma ok_host s s' : host_ok s -> same_machine s s' -> machine_ok s' -> host_ok s'.
Proof.
  intros (_ & _ & H3) (E & _) (H1 & H2 & _). split; [exact H1|]. split; [exact H2|]. now rewrite E.
Qed.

Lemma same_fresh s s' : same_machine (fresh s) s' -> same_machine s s'.
Proof. intros H. exact H. Qed.

(** *** info *)
Lemma le_lt_sorted l : NoDup l -> StronglySorted Z.le l -> StronglySorted Z.lt l.
Proof.
  intros Hn Hs. induction Hs as [|x t Hs IH Hx]; [constructor|].
  apply NoDup_cons_iff in Hn as (Hn1 & Hn2). constructor; [now apply IH|].
  apply Forall_forall. intros y Hy. rewrite Forall_forall in Hx. specialize (Hx y Hy).
  assert (x <> y) by (intros ->; contradiction). lia.
Qed.

Lemma tells_line l P : NoDup l -> Forall (fun c => 0 <= c) l -> (forall c, In c l <-> P c) -> tells (hp_line l) P.
Proof.
  intros Hn Hp HP. destruct l as [|x t]; cbn [hp_line tells].
  - intros c Hc. now apply HP in Hc.
  - split; [exists x; apply HP; now left|].
    destruct (rangify_round_trip (x :: t) Hp) as (r & E & Pm & S). exists r. split; [exact E|]. split.
    + apply le_lt_sorted; [|exact S]. eapply Permutation_NoDup; eauto.
    + intros c. rewrite <- HP. split; intros H; [eapply Permutation_in; [symmetry|]; eauto|
        eapply Permutation_in; eauto].
Qed.

Lemma C63_info_l s : host_ok s -> exists lon loff s',
  hp_run HInfo s = (Ok (Some (lon, loff)), s') /\ untouched s s' /\
  tells lon (on_now s) /\ tells loff (fun c => present s c /\ ~ on_now s c).
Proof.
  intros (H1 & (H2 & H2') & H3). do 3 eexists. split; [reflexivity|]. split; [repeat split|].
  split; apply tells_line.
  - unfold get_cpus. eapply Permutation_NoDup; [symmetry; apply zsort_perm|]. exact H2.
  - apply Forall_forall. intros c Hc. unfold get_cpus in Hc. apply (proj1 (zsort_In _ _)) in Hc.
    rewrite Forall_forall in H3. apply H3, H2'. exact Hc.
  - intros c. unfold get_cpus. rewrite zsort_In. reflexivity.
  - unfold get_offline_cpus. apply NoDup_filter. apply H1.
  - apply Forall_forall. intros c Hc. apply filter_In in Hc as (Hc & _).
    rewrite Forall_forall in H3. apply H3. exact Hc.
  - intros c. unfold get_offline_cpus. rewrite filter_In, Bool.negb_true_iff.
    unfold present, on_now. change (ci_online _) with (o_online s). change (ci_all _) with (sys_present (o_sys s)).
    rewrite inb_false. reflexivity.
Qed.

(** *** online *)
Lemma online_run text s : text <> [] ->
  hp_run (HOnline (Some text)) s =
  match parse_cpus_string text with
  | Exn e => (Exn e, fresh s)
  | Ok l => match ostep (OCall true l false) (fresh s) with
            | (Ok _, s') => (Ok None, s')
            | (Exn e, s') => (Exn e, s')
            end
  end.
Proof.
  intros H. destruct text as [|x t]; [contradiction|]. cbn [hp_run hp_online].
  unfold mbind, new_cpuinfo, modify, lift. fold (fresh s).
  destruct (parse_cpus_string (x :: t)) as [l|e]; [|reflexivity].
  cbn [ostep]. destruct (cpus_online l false (fresh s)) as [[[]|e] s']; reflexivity.
Qed.

Lemma C63_online_missing_l s : forall c, c = None \/ c = Some [] -> hp_run (HOnline c) s = (Exn EError, s).
Proof. intros c [-> | ->]; reflexivity. Qed.

Definition list_char (c : ascii) : Prop :=
  is_digit c \/ (c = " "%char \/ c = "009"%char) \/ c = "-"%char \/ c = ","%char.

Lemma written_chars i w : written i w -> Forall list_char w.
Proof.
  assert (B : forall b, blanks b -> Forall list_char b).
  { intros b. apply Forall_impl. intros c H. right. now left. }
  assert (N : forall n s, numeral s n -> Forall list_char s).
  { intros n s (_ & H & _). revert H. apply Forall_impl. intros c H. now left. }
  intros [n s b1 b2 H1 H2 H3|a b s t b1 b2 b3 b4 H1 H2 H3 H4 H5 H6|].
  - rewrite !Forall_app. split; [auto|]. split; [eapply N; eauto|auto].
  - rewrite !Forall_app. split; [auto|]. split; [eapply N; eauto|]. split; [auto|].
    constructor; [right; right; now left|]. rewrite !Forall_app. split; [auto|]. split; [eapply N; eauto|auto].
  - constructor.
Qed.

Lemma commas_chars its ts : Forall2 written its ts -> Forall list_char (commas ts).
Proof.
  intros F. induction F as [|i w its ts Hw F IH]; [constructor|]. cbn [commas].
  destruct ts as [|w' ts].
  - eapply written_chars; eauto.
  - rewrite Forall_app. split; [eapply written_chars; eauto|]. constructor; [right; right; now right|exact IH].
Qed.

Lemma written_not_all its ts : Forall2 written its ts -> commas ts <> s2l "all".
Proof.
  intros F E. apply commas_chars in F. rewrite E in F. apply Forall_inv in F.
  destruct F as [F|[[F|F]|[F|F]]]; try discriminate. unfold is_digit in F. vm_compute in F. lia.
Qed.

Lemma str_eqb_refl a : str_eqb a a = true.
Proof. unfold str_eqb. destruct (list_eq_dec ascii_dec a a); [reflexivity|contradiction]. Qed.
Lemma str_eqb_ne a b : a <> b -> str_eqb a b = false.
Proof. intros H. unfold str_eqb. destruct (list_eq_dec ascii_dec a b); [contradiction|reflexivity]. Qed.

Lemma parse_numbers its ts : Forall2 written its ts -> Forall (fun i => ~ descending i) its ->
  exists l, parse_cpus_string (commas ts) = Ok (Some l) /\ forall n, In n l <-> In n (flat_map meaning its).
Proof.
  intros F D. destruct (parse_dedup_members [ts] its) as (r & E & H); [cbn; now rewrite app_nil_r|exact D|].
  exists r. split; [|exact H]. unfold parse_cpus_string.
  rewrite (str_eqb_ne _ _ (written_not_all _ _ F)). cbn [map] in E. now rewrite E.
Qed.

Lemma in_meaning_nonempty its ts : Forall2 written its ts -> flat_map meaning its <> [] -> commas ts <> [].
Proof.
  intros F H E. apply H. destruct F as [|i w its ts Hw F]; [reflexivity|].
  assert (Ew : forall i w, written i w -> w = [] -> meaning i = []).
  { intros j v Hj Ev. destruct Hj as [n s b1 b2 (N & _) _ _|a b s u b1 b2 b3 b4 (N & _) _ _ _ _ _|]; [| |reflexivity].
    - destruct b1; [destruct s; [contradiction|discriminate]|discriminate].
    - destruct b1; [destruct s; [contradiction|discriminate]|discriminate]. }
  cbn [commas] in E. destruct F as [|i' w' its ts Hw' F].
  - cbn [flat_map]. now rewrite (Ew _ _ Hw E).
  - destruct w; discriminate.
Qed.

Lemma now_are_toggled P l online s s' : (forall c, P c <-> wanted s l c) -> toggled_to l online s s' ->
  now_are P online s s'.
Proof.
  intros E (T1 & T2). split.
  - intros c Hc. apply T1. now apply E.
  - intros c [Hc|Hc]; apply T2; [left|now right]. now rewrite <- E.
Qed.

Lemma online_success l s s' : host_ok s -> ostep (OCall true l false) (fresh s) = (Ok tt, s') ->
  toggled_to l true s s' /\ same_machine s s' /\ host_ok s' /\
  (forall c, wanted s l c -> o_file s c = false -> l <> None -> on_now s c).
Proof.
  intros Hok H. destruct (C17_success_l _ _ _ _ _ (fresh_ok s Hok) H) as (T & S & M & _).
  split; [split; [exact (tt_done _ _ _ _ T)|exact (tt_kept _ _ _ _ T)]|].
  split; [exact S|]. split; [eapply ok_host; eauto|].
  intros c Hc Hf Hl. destruct l as [l|]; [|contradiction].
  destruct (in_state_dec (fresh s) c true) as [Hi|Hi]; [exact Hi|]. exfalso.
  destruct (C17_rejects_l true l false (fresh s) c (fresh_ok s Hok) Hc) as (e & s2 & E); [|congruence].
  right. split; [exact Hf|]. split; [exact Hi|now left].
Qed.

Lemma C63_online_l its ts s r s' :
  host_ok s -> Forall2 written its ts -> Forall (fun i => ~ descending i) its ->
  hp_run (HOnline (Some (commas ts))) s = (Ok r, s') ->
  now_are (fun c => In c (flat_map meaning its)) true s s' /\ same_machine s s' /\
  (forall c, In c (flat_map meaning its) -> present s c /\ on_now s' c).
Proof.
  intros Hok F D H. destruct (parse_numbers its ts F D) as (l & E & Hl).
  assert (Hne : commas ts <> []) by (intros E0; rewrite E0 in H; discriminate).
  rewrite (online_run _ _ Hne), E in H.
  destruct (ostep (OCall true (Some l) false) (fresh s)) as [[[]|e] s2] eqn:E2; [|discriminate].
  injection H as _ <-. destruct (online_success _ _ _ Hok E2) as (T & S & M & K).
  split; [eapply now_are_toggled; [|exact T]; intros c; symmetry; apply Hl|]. split; [exact S|].
  intros c Hc. apply Hl in Hc. split.
  - destruct (in_dec Z.eq_dec c (sys_present (o_sys s))) as [Hi|Hi]; [exact Hi|]. exfalso.
    destruct (C17_rejects_l true l false (fresh s) c (fresh_ok s Hok) Hc (or_introl Hi)) as (e & s3 & E3). congruence.
  - destruct (o_file s c) eqn:Hf; [now apply (tt_done _ _ _ _ T)|].
    apply (tt_kept _ _ _ _ T); [now right|]. apply K; [exact Hc|exact Hf|discriminate].
Qed.

Lemma C63_online_all_l s r s' :
  host_ok s -> hp_run (HOnline (Some (s2l "all"))) s = (Ok r, s') ->
  now_are (present s) true s s' /\ same_machine s s'.
Proof.
  intros Hok H. rewrite online_run in H by discriminate.
  assert (E : parse_cpus_string (s2l "all") = Ok None) by (vm_compute; reflexivity). rewrite E in H.
  destruct (ostep (OCall true None false) (fresh s)) as [[[]|e] s2] eqn:E2; [|discriminate].
  injection H as _ <-. destruct (online_success _ _ _ Hok E2) as (T & S & M & K).
  split; [eapply now_are_toggled; [|exact T]; intros c; reflexivity|exact S].
Qed.

Lemma run_ok_tt (x : res unit * ost) s' : x = (Ok tt, s') ->
  match x with (Ok _, s1) => (Ok (@None (option str * option str)), s1) | (Exn e, s1) => (Exn e, s1) end = (Ok None, s').
Proof. now intros ->. Qed.

Lemma C63_online_succeeds_l its ts s :
  host_ok s -> Forall2 written its ts -> Forall (fun i => ~ descending i) its -> flat_map meaning its <> [] ->
  (forall c, In c (flat_map meaning its) -> present s c /\ (o_file s c = true \/ on_now s c) /\ o_beh s c true = KObey) ->
  exists s', hp_run (HOnline (Some (commas ts))) s = (Ok None, s').
Proof.
  intros Hok F D Hne Hc. destruct (parse_numbers its ts F D) as (l & E & Hl).
  rewrite (online_run _ _ (in_meaning_nonempty _ _ F Hne)), E.
  destruct (C17_succeeds_l true (Some l) false (fresh s) (fresh_ok s Hok)) as (s' & E').
  - intros c Hi. now apply Hc, Hl.
  - intros c Hi Hf Hn. apply Hl in Hi. destruct (Hc c Hi) as (_ & [K|K] & _); [|contradiction].
    change (o_file s c = false) in Hf. congruence.
  - intros c Hi. now apply Hc, Hl.
  - exists s'. now apply run_ok_tt.
Qed.

Lemma C63_online_all_succeeds_l s :
  host_ok s -> (forall c, present s c -> o_dir s c = true /\ o_beh s c true = KObey) ->
  exists s', hp_run (HOnline (Some (s2l "all"))) s = (Ok None, s').
Proof.
  intros Hok Hc. rewrite online_run by discriminate.
  assert (E : parse_cpus_string (s2l "all") = Ok None) by (vm_compute; reflexivity). rewrite E.
  destruct (C17_succeeds_l true None false (fresh s) (fresh_ok s Hok)) as (s' & E').
  - intros c Hi. exact Hi.
  - intros c Hi Hf Hn. split; [now apply Hc|now right].
  - intros c Hi. now apply Hc.
  - exists s'. now apply run_ok_tt.
Qed.

(** A text that is not a number list, or that names a CPU which does not exist. *)
Lemma C63_online_rejected_l text s : host_ok s ->
  text = [] \/ (text <> s2l "all" /\
    match parse_int_list "," true [NStr text] with Ok l => exists c, In c l /\ ~ present s c | Exn _ => True end) ->
  exists e s', hp_run (HOnline (Some text)) s = (Exn e, s') /\ untouched s s'.
Proof.
  intros Hok H. destruct text as [|x t] eqn:Et.
  { exists EError, s. split; [reflexivity|repeat split]. }
  rewrite <- Et in *. assert (Hne : text <> []) by (rewrite Et; discriminate).
  destruct H as [H|(Ha & H)]; [contradiction|].
  rewrite (online_run _ _ Hne).
  assert (P : parse_cpus_string text =
              match parse_int_list "," true [NStr text] with Ok l => Ok (Some l) | Exn e => Exn e end).
  { unfold parse_cpus_string. rewrite (str_eqb_ne _ _ Ha). now destruct (parse_int_list "," true [NStr text]). }
  rewrite P. clear P. destruct (parse_int_list "," true [NStr text]) as [l|e].
  - destruct H as (c & Hc & Hp).
    destruct (C17_unknown_l true l false (fresh s) c (fresh_ok s Hok) Hc Hp) as (e & s' & E & E1 & E2).
    destruct (C17_writes_l _ _ _ _ _ _ (fresh_ok s Hok) E) as (S & _).
    exists e, s'. rewrite E. split; [reflexivity|]. split; [exact S|]. split; [exact E1|exact E2].
  - exists e, (fresh s). split; [reflexivity|repeat split].
Qed.

(** *** offline *)
Lemma offline_run a s :
  hp_run (HOffline a) s =
  match ot_init (seen s) (off_args a) with
  | Exn e => (Exn e, fresh s)
  | Ok ot => match fst (ot_get_cpus (seen s) ot) with
             | Exn e => (Exn e, fresh s)
             | Ok l => match ostep (OCall false (Some l) (skips_unsupported a)) (fresh s) with
                       | (Ok _, s') => (Ok None, s')
                       | (Exn e, s') => (Exn e, s')
                       end
             end
  end.
Proof.
  change (off_args a) with (online_only a).
  cbn [hp_run]. unfold hp_offline, mbind, new_cpuinfo, modify, lift, gets. fold (fresh s).
  change (o_ci (fresh s)) with (seen s). destruct (ot_init (seen s) (online_only a)) as [ot|e]; [|reflexivity].
  destruct (fst (ot_get_cpus (seen s) ot)) as [l|e]; [|reflexivity].
  cbn [ostep]. destruct (cpus_offline (Some l) (skips_unsupported a) (fresh s)) as [[[]|e] s']; reflexivity.
Qed.

Lemma proper_only a : args_proper a -> args_proper (off_args a).
Proof. intros H. exact H. Qed.

Lemma target_on ci a c : wf_ci ci -> oa_offline_ok a = false -> target_cpu ci a c -> In c (ci_online ci).
Proof.
  intros wf Ho (H & _). destruct H as [(_ & H)|[(pk & _ & t & H1 & H2 & H3 & _)|[(t & H1 & H2 & H3 & _)|
    [(pd & _ & t & H1 & H2 & H3 & _)|(_ & _ & p & _ & t & H1 & H2 & H3 & _)]]]];
    [now rewrite Ho in H| | | |]; apply (wf_online ci wf); eauto.
Qed.

Lemma off_target_on s a c : host_ok s -> off_target s a c -> on_now s c.
Proof. intros Hok H. exact (target_on (seen s) (off_args a) c (seen_wf s Hok) eq_refl H). Qed.

(** The three ways an 'offline' run starts. *)
Lemma off_cases s a : off_ok s a ->
  (~ valid_args (seen s) (off_args a) /\ exists e, ot_init (seen s) (off_args a) = Exn e) \/
  (valid_args (seen s) (off_args a) /\ exists ot, ot_init (seen s) (off_args a) = Ok ot /\
    (((~ exists c, off_target s a c) /\ exists e, fst (ot_get_cpus (seen s) ot) = Exn e) \/
     exists l, fst (ot_get_cpus (seen s) ot) = Ok l /\ l <> [] /\ NoDup l /\ forall c, In c l <-> off_target s a c)).
Proof.
  intros (Hok & Hio & Hon & Hsib & Hpr).
  pose proof (seen_wf s Hok) as wf.
  assert (Hon' : ci_online (seen s) <> []) by exact Hon.
  assert (Hpr' : args_proper (off_args a)) by exact Hpr.
  destruct (ot_init (seen s) (off_args a)) as [ot|e] eqn:E.
  - right. split; [apply (ot_init_iff (seen s) (off_args a) wf Hpr'); eauto|]. exists ot. split; [reflexivity|].
    assert (As : S_OpTarget.asked (seen s) (off_args a) [] ot) by (exists ot; split; [exact E|reflexivity]).
    destruct (ot_get_cpus (seen s) ot) as [[l|e] ot'] eqn:E2.
    + right. exists l. split; [reflexivity|].
      exact (cpus_l (seen s) (off_args a) [] ot wf Hio Hon' Hsib Hpr' As l ot' E2).
    + left. split; [|eexists; reflexivity].
      exact (proj1 (no_cpus_l (seen s) (off_args a) [] ot wf Hio Hon' Hsib Hpr' As e ot' E2)).
  - left. split; [|eauto]. intros V. apply (ot_init_iff (seen s) (off_args a) wf Hpr') in V as (ot & V). congruence.
Qed.

Lemma C63_offline_l a s r s' : off_ok s a -> hp_run (HOffline a) s = (Ok r, s') ->
  now_are (off_target s a) false s s' /\ same_machine s s' /\
  valid_args (seen s) (off_args a) /\ (exists c, off_target s a c) /\
  (numbers_given a -> forall c, off_target s a c -> o_file s c = true).
Proof.
  intros Ha H. rewrite offline_run in H. pose proof (proj1 Ha) as Hok.
  destruct (off_cases s a Ha) as [(V & e & E)|(V & ot & E & [(N & e & E2)|(l & E2 & Hne & Hnd & Hl)])];
    rewrite E in H; [discriminate|rewrite E2 in H; discriminate|]. rewrite E2 in H.
  destruct (ostep (OCall false (Some l) (skips_unsupported a)) (fresh s)) as [[[]|e] s2] eqn:E3; [|discriminate].
  injection H as _ <-. destruct (C17_success_l _ _ _ _ _ (fresh_ok s Hok) E3) as (T & S & M & _).
  split.
  { apply (now_are_toggled _ (Some l)); [intros c; symmetry; apply Hl|].
    split; [exact (tt_done _ _ _ _ T)|exact (tt_kept _ _ _ _ T)]. }
  split; [exact S|]. split; [exact V|]. split.
  { destruct l as [|c l]; [contradiction|]. exists c. apply Hl. now left. }
  intros (nl & Hn) c Hc. destruct (o_file s c) eqn:Hf; [reflexivity|]. exfalso.
  assert (Hs : skips_unsupported a = false) by (unfold skips_unsupported; now rewrite Hn).
  destruct (C17_rejects_l false l (skips_unsupported a) (fresh s) c (fresh_ok s Hok)) as (e & s3 & E4);
    [now apply Hl| |congruence].
  right. split; [exact Hf|]. split; [|now left]. intros K. apply K. exact (off_target_on s a c Hok Hc).
Qed.

Lemma C63_offline_rejected_l a s : off_ok s a ->
  ~ valid_args (seen s) (off_args a) \/ (~ exists c, off_target s a c) ->
  exists e s', hp_run (HOffline a) s = (Exn e, s') /\ untouched s s'.
Proof.
  intros Ha H. rewrite offline_run.
  destruct (off_cases s a Ha) as [(V & e & E)|(V & ot & E & [(N & e & E2)|(l & E2 & Hne & Hnd & Hl)])]; rewrite E.
  - exists e, (fresh s). split; [reflexivity|repeat split].
  - rewrite E2. exists e, (fresh s). split; [reflexivity|repeat split].
  - exfalso. destruct H as [H|H]; [contradiction|]. apply H. destruct l as [|c l]; [contradiction|].
    exists c. apply Hl. now left.
Qed.

Lemma C63_offline_unsupported_l a s c : off_ok s a -> numbers_given a -> off_target s a c -> o_file s c = false ->
  exists e s', hp_run (HOffline a) s = (Exn e, s').
Proof.
  intros Ha Hn Hc Hf. destruct (hp_run (HOffline a) s) as [[r|e] s'] eqn:E; [|eauto]. exfalso.
  destruct (C63_offline_l a s r s' Ha E) as (_ & _ & _ & _ & K). rewrite (K Hn c Hc) in Hf. discriminate.
Qed.

Lemma C63_offline_succeeds_l a s : off_ok s a -> valid_args (seen s) (off_args a) ->
  (exists c, off_target s a c) ->
  (forall c, off_target s a c -> o_beh s c false = KObey /\ (o_file s c = true \/ (~ numbers_given a /\ o_dir s c = true))) ->
  exists s', hp_run (HOffline a) s = (Ok None, s').
Proof.
  intros Ha V Ht Hb. rewrite offline_run. pose proof (proj1 Ha) as Hok.
  destruct (off_cases s a Ha) as [(V' & e & E)|(_ & ot & E & [(N & e & E2)|(l & E2 & Hne & Hnd & Hl)])];
    [contradiction|contradiction|]. rewrite E, E2.
  destruct (C17_succeeds_l false (Some l) (skips_unsupported a) (fresh s) (fresh_ok s Hok)) as (s' & E').
  - intros c Hc. apply Hl in Hc. destruct Hok as (_ & (_ & Hi) & _). apply Hi.
    exact (off_target_on s a c (proj1 Ha) Hc).
  - intros c Hc Hf Hi. apply Hl in Hc. change (o_file s c = false) in Hf.
    destruct (Hb c Hc) as (_ & [K|(K1 & K2)]); [congruence|]. split; [exact K2|left].
    unfold skips_unsupported. destruct (oa_cpus a) as [[nl|]|] eqn:En; [|reflexivity|reflexivity].
    exfalso. apply K1. now exists nl.
  - intros c Hc. apply Hl in Hc. now apply Hb.
  - exists s'. now apply run_ok_tt.
Qed.

(** Whatever the outcome: only targets with a control file are written to, each at most once. *)
Lemma C63_offline_writes_l a s r s' : off_ok s a -> hp_run (HOffline a) s = (r, s') ->
  same_machine s s' /\
  exists w, o_log s' = o_log s ++ map (fun c => (c, false)) w /\ NoDup w /\
    (forall c, In c w -> off_target s a c /\ o_file s c = true) /\
    (forall c, ~ In c w -> (on_now s' c <-> on_now s c)).
Proof.
  intros Ha H. rewrite offline_run in H. pose proof (proj1 Ha) as Hok.
  assert (U : forall e, (@Exn (option (option str * option str)) e, fresh s) = (r, s') ->
    same_machine s s' /\
    exists w, o_log s' = o_log s ++ map (fun c => (c, false)) w /\ NoDup w /\
      (forall c, In c w -> off_target s a c /\ o_file s c = true) /\
      (forall c, ~ In c w -> (on_now s' c <-> on_now s c))).
  { intros e K. injection K as _ <-. split; [repeat split|]. exists []. cbn [map]. rewrite app_nil_r.
    split; [reflexivity|]. split; [constructor|]. split; [intros c []|]. intros c _. reflexivity. }
  destruct (off_cases s a Ha) as [(V & e & E)|(V & ot & E & [(N & e & E2)|(l & E2 & Hne & Hnd & Hl)])];
    rewrite E in H; [eapply U; eauto|rewrite E2 in H; eapply U; eauto|]. rewrite E2 in H. clear U.
  destruct (ostep (OCall false (Some l) (skips_unsupported a)) (fresh s)) as [q s2] eqn:E3.
  assert (s2 = s') by (destruct q; congruence). subst s2.
  destruct (C17_writes_l _ _ _ _ _ _ (fresh_ok s Hok) E3) as (S & _ & w & W1 & W2 & W3 & W4 & _).
  split; [exact S|]. exists w. split; [exact W1|]. split; [exact W2|]. split; [|exact W4].
  intros c Hc. destruct (W3 c Hc) as (K1 & _ & K3 & _). split; [now apply Hl|exact K3].
Qed.

(** *** Histories *)
Lemma hp_step_facts c s r s' : host_ok s -> hp_run c s = (r, s') ->
  host_ok s' /\ same_machine s s' /\ (forall x, o_file s x = false -> (on_now s' x <-> on_now s x)).
Proof.
  intros Hok H.
  assert (F : s' = s \/ s' = fresh s \/ exists online l skip q,
            ostep (OCall online l skip) (fresh s) = (q, s')).
  { destruct c as [|[text|]|a].
    - right; left. cbn in H. injection H as _ <-. reflexivity.
    - destruct text as [|x t]; [left; cbn in H; congruence|].
      rewrite online_run in H by discriminate.
      destruct (parse_cpus_string (x :: t)) as [l|e]; [|right; left; congruence].
      right; right. exists true, l, false.
      destruct (ostep (OCall true l false) (fresh s)) as [[[]|e] s2] eqn:E; [exists (Ok tt)|exists (Exn e)]; congruence.
    - left. cbn in H. congruence.
    - rewrite offline_run in H. destruct (ot_init (seen s) (off_args a)) as [ot|e]; [|right; left; congruence].
      destruct (fst (ot_get_cpus (seen s) ot)) as [l|e]; [|right; left; congruence].
      right; right. exists false, (Some l), (skips_unsupported a).
      destruct (ostep (OCall false (Some l) (skips_unsupported a)) (fresh s)) as [[[]|e] s2] eqn:E; [exists (Ok tt)|exists (Exn e)]; congruence. }
  destruct F as [-> |[-> |(online & l & skip & q & E)]].
  - split; [exact Hok|]. split; [repeat split|]. reflexivity.
  - split; [exact Hok|]. split; [repeat split|]. reflexivity.
  - destruct (C17_writes_l _ _ _ _ _ _ (fresh_ok s Hok) E) as (S & M & w & _ & _ & W3 & W4 & _).
    split; [eapply ok_host; eauto|]. split; [exact S|]. intros x Hx. apply W4. intros Hw.
    destruct (W3 x Hw) as (_ & _ & K & _). change (o_file s x = true) in K. congruence.
Qed.

Lemma C63_history_l cmds : forall s, host_ok s ->
  host_ok (hp_runs cmds s) /\ same_machine s (hp_runs cmds s) /\
  (forall c, o_file s c = false -> (on_now (hp_runs cmds s) c <-> on_now s c)).
Proof.
  induction cmds as [|c t IH]; intros s Hok.
  - split; [exact Hok|]. split; [repeat split|]. reflexivity.
  - change (hp_runs (c :: t) s) with (hp_runs t (snd (hp_run c s))).
    destruct (hp_run c s) as [r s1] eqn:E. cbn [snd].
    destruct (hp_step_facts c s r s1 Hok E) as (H1 & S & K).
    destruct (IH s1 H1) as (H2 & S2 & K2). destruct S as (A1 & A2 & A3 & A4). destruct S2 as (B1 & B2 & B3 & B4).
    split; [exact H2|]. split; [repeat split; congruence|].
    intros x Hx. rewrite K2 by congruence. now apply K.
Qed.
