(** The frequency theorems in the form in which they are stated. *)
From Coq Require Import QArith.
From Verif Require Import Base M_Text M_Human M_Sysfs S_Sysfs S_SysView M_CPUFreq M_Uncore S_Uncore M_PStates S_PStates
  L_CPUFreq3 L_Uncore4.

Lemma pair_min_first : forall k hwp rd spec, special_ok k rd spec ->
  forall m cpus u setp, set_with [(m, cpu_sysfs_io k true hwp rd)] cpus u setp ->
  forall mn mx w, cpu_pair k hwp spec cpus mn mx w ->
  (forall c, In c cpus -> in_order (cpu_view k spec) w true c mn) \/
  (forall c, In c cpus -> in_order (cpu_view k spec) w false c mx) ->
  exists l w', set_props setp (s_start k) (s_commit k) [(PFreq u true, VNum mn); (PFreq u false, VNum mx)] w = (Ok l, w') /\
    files_ok k hwp false w' /\ ss_buf w' = [] /\
    both_set (cpu_view k spec) (fun c => 0 <= c) cpus mn mx w w' /\
    (forall p, (forall b c, In c cpus -> p <> cpufreq_path b c false) -> ss_fs w' p = ss_fs w p).
Proof.
  intros k hwp rd spec SP m cpus u setp Hs mn mx w (H1 & H2 & H3 & H4 & H5 & H6 & H7 & H8) Ho.
  now apply (cpu_min_first k hwp rd spec SP H1 m).
Qed.

Lemma pair_alike : forall k hwp rd spec, special_ok k rd spec ->
  forall m cpus u setp, set_with [(m, cpu_sysfs_io k true hwp rd)] cpus u setp ->
  forall mn mx w, cpu_pair k hwp spec cpus mn mx w ->
  (forall c c' b, In c cpus -> In c' cpus -> v_cur (cpu_view k spec) w b c = v_cur (cpu_view k spec) w b c') ->
  exists l w', set_props setp (s_start k) (s_commit k) [(PFreq u true, VNum mn); (PFreq u false, VNum mx)] w = (Ok l, w') /\
    files_ok k hwp false w' /\ ss_buf w' = [] /\
    both_set (cpu_view k spec) (fun c => 0 <= c) cpus mn mx w w' /\
    (forall p, (forall b c, In c cpus -> p <> cpufreq_path b c false) -> ss_fs w' p = ss_fs w p).
Proof.
  intros k hwp rd spec SP m cpus u setp Hs mn mx w P Ha. apply (pair_min_first k hwp rd spec SP m); [exact Hs|exact P|].
  destruct P as (H1 & H2 & H3 & H4 & H5 & H6 & H7 & H8).
  now apply (cpu_alike k hwp rd spec H1 m cpus u setp Hs mn mx).
Qed.

Lemma pair_max_first : forall k hwp rd spec, special_ok k rd spec ->
  forall m cpus u setp, set_with [(m, cpu_sysfs_io k true hwp rd)] cpus u setp ->
  forall mn mx w, cpu_pair k hwp spec cpus mn mx w ->
  exists r w', set_props setp (s_start k) (s_commit k) [(PFreq u false, VNum mx); (PFreq u true, VNum mn)] w = (r, w') /\
    (((exists l, r = Ok l) /\ files_ok k hwp false w' /\ ss_buf w' = [] /\
      both_set (cpu_view k spec) (fun c => 0 <= c) cpus mn mx w w' /\
      (forall p, (forall b c, In c cpus -> p <> cpufreq_path b c false) -> ss_fs w' p = ss_fs w p)) \/
     (r = Exn EFreqOrder /\ (forall p, seen k w' p = seen k w p) /\ ss_fs w' = ss_fs w /\ ss_log w' = ss_log w /\
      ~ (forall c, In c cpus -> in_order (cpu_view k spec) w false c mx))).
Proof.
  intros k hwp rd spec SP m cpus u setp Hs mn mx w (H1 & H2 & H3 & H4 & H5 & H6 & H7 & H8).
  now apply (cpu_max_first k hwp rd spec SP H1 m).
Qed.

Section Dies.
  Context {W : Type}.
  Variable io : uio W.
  Variable view : W -> str -> res Z.
  Variable fresh : W -> str -> Prop.
  Variable e : uenv.
  Variable dirof : Z * Z -> str.
  Variable J : W -> Prop.
  Hypothesis Hok : uncore_ok io view fresh e.
  Hypothesis HJ : always_works io e J.

  Lemma dies_refused : forall b val dies s, start_ok fresh e s -> Forall (has_dir e dirof) dies ->
    ~ acceptable (uncore_view view dirof) s b val dies ->
    exists x s', set_freq (uncore_io io e) b val dies s = (Exn x, s') /\ uncore_same view s s' /\
      (readable (uncore_view view dirof) s b val dies -> x = EFreqRange \/ x = EFreqOrder).
  Proof. destruct Hok as [Hw Hb]. now apply (die_refused io view fresh (tpmi_related e) e dirof Hb (fun _ _ h => h) Hw J HJ). Qed.

  Lemma dies_exact : forall b val dies s s', start_ok fresh e s -> Forall (has_dir e dirof) dies ->
    set_freq (uncore_io io e) b val dies s = (Ok tt, s') ->
    acceptable (uncore_view view dirof) s b val dies /\
    exactly_set (uncore_view view dirof) (has_dir e dirof) die_khz b val dies s s' /\ start_ok fresh e s'.
  Proof. destruct Hok as [Hw Hb]. now apply (die_exact io view fresh (tpmi_related e) e dirof Hb (fun _ _ h => h) Hw J HJ). Qed.

  Lemma dies_succeeds : forall b val dies s, start_ok fresh e s -> Forall (has_dir e dirof) dies ->
    acceptable (uncore_view view dirof) s b val dies -> J (us_w s) ->
    exists s', set_freq (uncore_io io e) b val dies s = (Ok tt, s').
  Proof. destruct Hok as [Hw Hb]. now apply (die_succeeds io view fresh (tpmi_related e) e dirof Hb (fun _ _ h => h) Hw J HJ). Qed.

  Lemma dies_history : unchanged_on_failure io view fresh ->
    forall all ops s, start_ok fresh e s -> unlockable e J s -> Forall (has_dir e dirof) all ->
    (forall pd, In pd all -> limited (uncore_view view dirof) s pd) ->
    Forall (fun op : bool * fval * list (Z * Z) => incl (snd op) all) ops ->
    forall pd, In pd all ->
      limited (uncore_view view dirof) (freq_history (uncore_io io e) ops s) pd /\
      forall b, v_limit (uncore_view view dirof) (freq_history (uncore_io io e) ops s) b pd = v_limit (uncore_view view dirof) s b pd.
  Proof. destruct Hok as [Hw Hb]. now apply (uncore_history io view fresh (tpmi_related e) e dirof Hb (fun _ _ h => h) Hw J HJ). Qed.

  Lemma dies_min_first : forall m rest dies u setp, set_with ((m, uncore_io io e) :: rest) dies u setp ->
    forall mn mx s, die_pair view fresh e dirof J dies mn mx s ->
    (forall c, In c dies -> in_order (uncore_view view dirof) s true c mn) \/
    (forall c, In c dies -> in_order (uncore_view view dirof) s false c mx) ->
    exists l s', set_props setp (ret tt) (ret tt) [(PFreq u true, VNum mn); (PFreq u false, VNum mx)] s = (Ok l, s') /\
      start_ok fresh e s' /\ both_set (uncore_view view dirof) (has_dir e dirof) dies mn mx s s'.
  Proof.
    destruct Hok as [Hw Hb]. intros m rest dies u setp Hs mn mx s (H1 & H2 & H3 & H4 & H5 & H6) Ho.
    now apply (die_min_first io view fresh (tpmi_related e) e dirof Hb (fun _ _ h => h) Hw J HJ m rest dies u setp).
  Qed.

  Lemma dies_max_first : forall m rest dies u setp, set_with ((m, uncore_io io e) :: rest) dies u setp ->
    forall mn mx s, die_pair view fresh e dirof J dies mn mx s ->
    exists r s', set_props setp (ret tt) (ret tt) [(PFreq u false, VNum mx); (PFreq u true, VNum mn)] s = (r, s') /\
      (((exists l, r = Ok l) /\ start_ok fresh e s' /\ both_set (uncore_view view dirof) (has_dir e dirof) dies mn mx s s') \/
       (r = Exn EFreqOrder /\ uncore_same view s s' /\
        ~ (forall c, In c dies -> in_order (uncore_view view dirof) s false c mx))).
  Proof.
    destruct Hok as [Hw Hb]. intros m rest dies u setp Hs mn mx s (H1 & H2 & H3 & H4 & H5 & H6).
    now apply (die_max_first io view fresh (tpmi_related e) e dirof Hb (fun _ _ h => h) Hw J HJ m rest dies u setp).
  Qed.

  Lemma dies_restore : forall m rest u setn (s0 s : ust W) dies sav b1 pre g1 mid g2 suf,
    restored_with ((m, uncore_io io e) :: rest) u setn ->
    Forall (has_dir e dirof) dies ->
    (forall c, In c dies -> limited (uncore_view view dirof) s0 c /\ forall b, v_cur (uncore_view view dirof) s0 b c = Ok (sav b c)) ->
    start_ok fresh e s -> J (us_w s) ->
    (forall c, In c dies -> limited (uncore_view view dirof) s c /\
       forall b, v_limit (uncore_view view dirof) s b c = v_limit (uncore_view view dirof) s0 b c) ->
    (forall pv, In pv (pre ++ mid ++ suf) -> (forall b, fst pv <> PFreq u b) /\
       unrelated (uncore_view view dirof) (start_ok fresh e) (has_dir e dirof) (die_taken J) setn (fst pv)) ->
    groups_of sav b1 dies g1 -> groups_of sav (negb b1) dies g2 ->
    exists s', restore_props (ret tt) (ret tt) setn VMin VMax
        (pre ++ (PFreq u b1, g1) :: mid ++ (PFreq u (negb b1), g2) :: suf) s = (Ok tt, s') /\
      start_ok fresh e s' /\
      (forall b c, In c dies -> v_cur (uncore_view view dirof) s' b c = v_cur (uncore_view view dirof) s0 b c) /\
      (forall b c, has_dir e dirof c -> ~ In c dies -> v_cur (uncore_view view dirof) s' b c = v_cur (uncore_view view dirof) s b c) /\
      (forall b c, has_dir e dirof c -> v_limit (uncore_view view dirof) s' b c = v_limit (uncore_view view dirof) s b c).
  Proof.
    destruct Hok as [Hw Hb]. intros.
    now apply (die_restore io view fresh (tpmi_related e) e dirof Hb (fun _ _ h => h) Hw J HJ m rest) with (sav := sav).
  Qed.
End Dies.

Lemma cpus_restore : forall k hwp rd spec, special_ok k rd spec ->
  forall m rest u setn w0 w cpus sav b1 pre g1 mid g2 suf,
  restored_with ((m, cpu_sysfs_io k true hwp rd) :: rest) u setn ->
  Forall (fun c => 0 <= c) cpus ->
  (forall c, In c cpus -> limited (cpu_view k spec) w0 c /\ forall b, v_cur (cpu_view k spec) w0 b c = Ok (sav b c)) ->
  files_ok k hwp false w ->
  (forall c, In c cpus -> limited (cpu_view k spec) w c /\
     (forall b, v_limit (cpu_view k spec) w b c = v_limit (cpu_view k spec) w0 b c) /\
     (forall b, freq_taken k w b (sav b c) c) /\
     (forall b f, v_limit (cpu_view k spec) w b c = Ok f -> freq_taken k w b f c)) ->
  (forall pv, In pv (pre ++ mid ++ suf) -> (forall b, fst pv <> PFreq u b) /\
     unrelated (cpu_view k spec) (files_ok k hwp false) (fun c => 0 <= c) (fun w1 b f c => freq_taken k w1 b f c) setn (fst pv)) ->
  groups_of sav b1 cpus g1 -> groups_of sav (negb b1) cpus g2 ->
  exists w', restore_props (ret tt) (ret tt) setn VMin VMax
      (pre ++ (PFreq u b1, g1) :: mid ++ (PFreq u (negb b1), g2) :: suf) w = (Ok tt, w') /\
    files_ok k hwp false w' /\
    (forall b c, In c cpus -> v_cur (cpu_view k spec) w' b c = v_cur (cpu_view k spec) w0 b c) /\
    (forall b c, 0 <= c -> ~ In c cpus -> v_cur (cpu_view k spec) w' b c = v_cur (cpu_view k spec) w b c) /\
    (forall b c, 0 <= c -> v_limit (cpu_view k spec) w' b c = v_limit (cpu_view k spec) w b c).
Proof.
  intros. now apply (cpu_restore k hwp rd spec H m rest u setn (ret tt) (ret tt) w0 w cpus sav).
Qed.
