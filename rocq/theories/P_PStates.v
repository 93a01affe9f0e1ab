(** Setting frequencies.

    C22: setting the minimum or the maximum frequency of CPUs (dies) is refused, and nothing is changed, unless
    the frequency is within the limits and in order for each of them; otherwise exactly the requested ones get it.
    C23: any sequence of settings keeps minimum <= maximum, within the limits.
    C24: setting both to a valid pair succeeds.
    C25: restoring saved frequencies puts everything back.

    [set_freq io is_min val keys]: set the minimum (maximum) of the keys. [set_freq_mechs]: the same, trying one
    mechanism after the other. [set_props]: "pepc pstates config". [restore_props]: "pepc pstates restore". *)
From Coq Require Import QArith.
From Verif Require Import Base M_Text M_Human M_Sysfs S_Sysfs S_SysView M_CPUFreq M_Uncore S_Uncore M_PStates S_PStates
  L_CPUFreq3 L_Uncore4 L_PStates3 X_Uncore X_PStates.

(** CPUs through sysfs: refused, nothing changes. [tr]: in a transaction or not. *)
Theorem C22_cpu_refused : forall k hwp rd spec, special_ok k rd spec ->
  forall tr is_min val cpus w, files_ok k hwp tr w -> Forall (fun c => 0 <= c) cpus ->
  ~ acceptable (cpu_view k spec) w is_min val cpus ->
  exists x w', set_freq (cpu_sysfs_io k true hwp rd) is_min val cpus w = (Exn x, w') /\ no_change k w w' /\
    (readable (cpu_view k spec) w is_min val cpus -> x = EFreqRange \/ x = EFreqOrder).
Proof. exact cpu_refused. Qed.
Print Assumptions C22_cpu_refused.

(** Exactly the requested CPUs get the frequency (in kHz). *)
Theorem C22_cpu_exact : forall k hwp rd spec, special_ok k rd spec ->
  forall tr is_min val cpus w w', files_ok k hwp tr w -> Forall (fun c => 0 <= c) cpus ->
  set_freq (cpu_sysfs_io k true hwp rd) is_min val cpus w = (Ok tt, w') ->
  acceptable (cpu_view k spec) w is_min val cpus /\
  exactly_set (cpu_view k spec) (fun c => 0 <= c) khz is_min val cpus w w' /\ files_ok k hwp tr w'.
Proof. exact cpu_exact. Qed.
Print Assumptions C22_cpu_exact.

(** What is acceptable, and taken by the kernel, is set. *)
Theorem C22_cpu_succeeds : forall k hwp rd spec, special_ok k rd spec ->
  forall tr is_min val cpus w, files_ok k hwp tr w -> Forall (fun c => 0 <= c) cpus ->
  acceptable (cpu_view k spec) w is_min val cpus ->
  tr = true \/ (forall c f, In c cpus -> means (cpu_view k spec) w val cpus c = Ok f -> freq_taken k w is_min f c) ->
  exists w', set_freq (cpu_sysfs_io k true hwp rd) is_min val cpus w = (Ok tt, w').
Proof. exact cpu_succeeds. Qed.
Print Assumptions C22_cpu_succeeds.

(** Any mechanisms, tried one after the other: refused by all of them. *)
Theorem C22_mechanisms_refused : forall (W K : Type) (mechs : list (Z * freq_io W K)) (quiet : W -> W -> Prop) (good : W -> Prop) (dom : K -> Prop)
  is_min val keys, Forall dom keys -> (forall w, quiet w w) -> (forall a b c, quiet a b -> quiet b c -> quiet a c) ->
  forall w, good w ->
  (forall m io, In (m, io) mechs -> exists v rnd live,
     relied v io quiet good dom rnd live /\ ~ acceptable v w is_min val keys) ->
  exists x w', set_freq_mechs mechs is_min val keys w = (Exn x, w') /\ quiet w w' /\ good w'.
Proof. exact @mechs_refused_l. Qed.
Print Assumptions C22_mechanisms_refused.

(** The files the theorems speak about, by their names. *)
Theorem C22_files : forall cpu,
  let dir := s2l "/sys/devices/system/cpu/cpufreq/policy" ++ dec cpu in
  cpufreq_path true cpu false = dir ++ s2l "/scaling_min_freq" /\
  cpufreq_path false cpu false = dir ++ s2l "/scaling_max_freq" /\
  cpufreq_path true cpu true = dir ++ s2l "/cpuinfo_min_freq" /\
  cpufreq_path false cpu true = dir ++ s2l "/cpuinfo_max_freq".
Proof. exact cpufreq_files. Qed.
Print Assumptions C22_files.

(** Two CPUs of 1..2 GHz and 2.6..2.8 GHz: 2.5 GHz is refused as the minimum and as the maximum, 2.7 GHz is
    acceptable as the maximum, and "min" as the minimum. *)
Example C22_cpu_case : special_ok xpk xrd xspec /\ files_ok xpk xhwp false xps /\
  ~ acceptable xpv xps false (VNum 2500000000) [0; 1] /\
  ~ acceptable xpv xps true (VNum 2500000000) [0; 1] /\
  ~ acceptable xpv xps false (VNum 3100000000) [0; 1] /\
  acceptable xpv xps false (VNum 2700000000) [0; 1] /\
  acceptable xpv xps true VMin [0; 1] /\
  (forall c f, In c [0; 1] -> means xpv xps VMin [0; 1] c = Ok f -> freq_taken xpk xps true f c).
Proof. exact (conj xspec_ok (conj xfiles_ok set_case)). Qed.

(** Dies: refused, nothing changes. *)
Theorem C22_die_refused : forall (W : Type) (io : uio W) view fresh e dirof J, uncore_ok io view fresh e -> always_works io e J ->
  forall b val dies s, start_ok fresh e s -> Forall (has_dir e dirof) dies ->
  ~ acceptable (uncore_view view dirof) s b val dies ->
  exists x s', set_freq (uncore_io io e) b val dies s = (Exn x, s') /\ uncore_same view s s' /\
    (readable (uncore_view view dirof) s b val dies -> x = EFreqRange \/ x = EFreqOrder).
Proof. exact @dies_refused. Qed.
Print Assumptions C22_die_refused.

(** Exactly the requested dies get the frequency. *)
Theorem C22_die_exact : forall (W : Type) (io : uio W) view fresh e dirof J, uncore_ok io view fresh e -> always_works io e J ->
  forall b val dies s s', start_ok fresh e s -> Forall (has_dir e dirof) dies ->
  set_freq (uncore_io io e) b val dies s = (Ok tt, s') ->
  acceptable (uncore_view view dirof) s b val dies /\
  exactly_set (uncore_view view dirof) (has_dir e dirof) die_khz b val dies s s' /\ start_ok fresh e s'.
Proof. exact @dies_exact. Qed.
Print Assumptions C22_die_exact.

(** What is acceptable is set if the files can be read and written. *)
Theorem C22_die_succeeds : forall (W : Type) (io : uio W) view fresh e dirof J, uncore_ok io view fresh e -> always_works io e J ->
  forall b val dies s, start_ok fresh e s -> Forall (has_dir e dirof) dies ->
  acceptable (uncore_view view dirof) s b val dies -> J (us_w s) ->
  exists s', set_freq (uncore_io io e) b val dies s = (Ok tt, s').
Proof. exact @dies_succeeds. Qed.
Print Assumptions C22_die_succeeds.

(** Two dies of 800 MHz..1.5 GHz and 800 MHz..1.2 GHz: "mdl" is 1.4 GHz, acceptable as the maximum only. *)
Example C22_die_case : uncore_ok xuio kview kfresh xe /\ always_works xuio xe xthere /\ xthere (us_w xus) /\
  start_ok kfresh xe xus /\ Forall (has_dir xe xdir) [(0, 0); (0, 1)] /\
  acceptable xuv xus false (VSpecial SMdl) [(0, 0); (0, 1)] /\
  ~ acceptable xuv xus true (VSpecial SMdl) [(0, 0); (0, 1)] /\
  ~ acceptable xuv xus true (VNum 700000000) [(0, 1)].
Proof. exact (conj xu_ok (conj xthere_works (conj xJ_start (conj xu_good (conj xu_dirs die_case))))). Qed.

(** CPUs, with a kernel that stores what is written or refuses it. *)
Theorem C23_cpus : forall k hwp rd spec, special_ok k rd spec ->
  forall all ops w, honest k -> files_ok k hwp false w -> Forall (fun c => 0 <= c) all ->
  (forall c, In c all -> limited (cpu_view k spec) w c) ->
  Forall (fun op : bool * fval * list Z => incl (snd op) all) ops ->
  forall c, In c all ->
    limited (cpu_view k spec) (freq_history (cpu_sysfs_io k true hwp rd) ops w) c /\
    forall b, v_limit (cpu_view k spec) (freq_history (cpu_sysfs_io k true hwp rd) ops w) b c = v_limit (cpu_view k spec) w b c.
Proof. exact cpu_history. Qed.
Print Assumptions C23_cpus.

(** A history with a request that is refused. *)
Example C23_cpu_case : honest xpk /\ (forall c, In c [0; 1] -> limited xpv xps c) /\
  Forall (fun op : bool * fval * list Z => incl (snd op) [0; 1]) xops /\
  map (fun bc => v_cur xpv (freq_history xpio xops xps) (fst bc) (snd bc)) [(true, 0); (false, 0); (true, 1); (false, 1)] =
    [Ok 1500000000; Ok 3000000000; Ok 2600000000; Ok 3000000000].
Proof. exact (conj xhonest (conj xlimited history_case)). Qed.

(** Dies. *)
Theorem C23_dies : forall (W : Type) (io : uio W) view fresh e dirof J, uncore_ok io view fresh e -> always_works io e J ->
  unchanged_on_failure io view fresh ->
  forall all ops s, start_ok fresh e s -> unlockable e J s -> Forall (has_dir e dirof) all ->
  (forall pd, In pd all -> limited (uncore_view view dirof) s pd) ->
  Forall (fun op : bool * fval * list (Z * Z) => incl (snd op) all) ops ->
  forall pd, In pd all ->
    limited (uncore_view view dirof) (freq_history (uncore_io io e) ops s) pd /\
    forall b, v_limit (uncore_view view dirof) (freq_history (uncore_io io e) ops s) b pd = v_limit (uncore_view view dirof) s b pd.
Proof. exact @dies_history. Qed.
Print Assumptions C23_dies.

Example C23_die_case : unchanged_on_failure xuio kview kfresh /\ (forall pd, In pd [(0, 0); (0, 1)] -> limited xuv xus pd) /\
  Forall (fun op : bool * fval * list (Z * Z) => incl (snd op) [(0, 0); (0, 1)]) xuops /\
  map (fun bc => v_cur xuv (freq_history (uncore_io xuio xe) xuops xus) (fst bc) (snd bc))
      [(true, (0, 0)); (false, (0, 0)); (true, (0, 1)); (false, (0, 1))] =
    [Ok 1100000000; Ok 1500000000; Ok 1100000000; Ok 2000000000].
Proof. exact (conj (xu_failure _) (conj xulimited die_history_case)). Qed.

(** The minimum is given first. Missing: CPUs some of which have to be raised while others have to be lowered
    (refuted below), and mechanisms other than sysfs. *)
Theorem C24_min_first_partial : forall k hwp rd spec, special_ok k rd spec ->
  forall m cpus u setp, set_with [(m, cpu_sysfs_io k true hwp rd)] cpus u setp ->
  forall mn mx w, cpu_pair k hwp spec cpus mn mx w ->
  (forall c, In c cpus -> in_order (cpu_view k spec) w true c mn) \/
  (forall c, In c cpus -> in_order (cpu_view k spec) w false c mx) ->
  exists l w', set_props setp (s_start k) (s_commit k) [(PFreq u true, VNum mn); (PFreq u false, VNum mx)] w = (Ok l, w') /\
    files_ok k hwp false w' /\ ss_buf w' = [] /\
    both_set (cpu_view k spec) (fun c => 0 <= c) cpus mn mx w w' /\
    (forall p, (forall b c, In c cpus -> p <> cpufreq_path b c false) -> ss_fs w' p = ss_fs w p).
Proof. exact pair_min_first. Qed.
Print Assumptions C24_min_first_partial.

(** In particular if the CPUs have the same frequencies. *)
Theorem C24_alike_partial : forall k hwp rd spec, special_ok k rd spec ->
  forall m cpus u setp, set_with [(m, cpu_sysfs_io k true hwp rd)] cpus u setp ->
  forall mn mx w, cpu_pair k hwp spec cpus mn mx w ->
  (forall c c' b, In c cpus -> In c' cpus -> v_cur (cpu_view k spec) w b c = v_cur (cpu_view k spec) w b c') ->
  exists l w', set_props setp (s_start k) (s_commit k) [(PFreq u true, VNum mn); (PFreq u false, VNum mx)] w = (Ok l, w') /\
    files_ok k hwp false w' /\ ss_buf w' = [] /\
    both_set (cpu_view k spec) (fun c => 0 <= c) cpus mn mx w w' /\
    (forall p, (forall b c, In c cpus -> p <> cpufreq_path b c false) -> ss_fs w' p = ss_fs w p).
Proof. exact pair_alike. Qed.
Print Assumptions C24_alike_partial.

(** The maximum is given first: it works, or fails without a change if it is below a current minimum. Missing: it
    always works (refuted below). *)
Theorem C24_max_first_partial : forall k hwp rd spec, special_ok k rd spec ->
  forall m cpus u setp, set_with [(m, cpu_sysfs_io k true hwp rd)] cpus u setp ->
  forall mn mx w, cpu_pair k hwp spec cpus mn mx w ->
  exists r w', set_props setp (s_start k) (s_commit k) [(PFreq u false, VNum mx); (PFreq u true, VNum mn)] w = (r, w') /\
    (((exists l, r = Ok l) /\ files_ok k hwp false w' /\ ss_buf w' = [] /\
      both_set (cpu_view k spec) (fun c => 0 <= c) cpus mn mx w w' /\
      (forall p, (forall b c, In c cpus -> p <> cpufreq_path b c false) -> ss_fs w' p = ss_fs w p)) \/
     (r = Exn EFreqOrder /\ (forall p, seen k w' p = seen k w p) /\ ss_fs w' = ss_fs w /\ ss_log w' = ss_log w /\
      ~ (forall c, In c cpus -> in_order (cpu_view k spec) w false c mx))).
Proof. exact pair_max_first. Qed.
Print Assumptions C24_max_first_partial.

(** 2.6..2.8 GHz to 2.0..2.4 GHz with the maximum first fails: PropsSetter.set_props() looks for the property
    "mim_freq" when "max_freq" fails. *)
Theorem C24_max_first_refuted : exists k hwp rd spec m cpus setp mn mx w,
  special_ok k rd spec /\ cpu_pair k hwp spec cpus mn mx w /\
  set_with [(m, cpu_sysfs_io k true hwp rd)] cpus false setp /\
  exists w', set_props setp (s_start k) (s_commit k) [(PFreq false false, VNum mx); (PFreq false true, VNum mn)] w = (Exn EFreqOrder, w').
Proof. exact max_first_refuted_l. Qed.
Print Assumptions C24_max_first_refuted.

(** 1..2 GHz and 2.6..2.8 GHz to 2.2..2.4 GHz fails with the minimum first. *)
Theorem C24_mixed_refuted : exists k hwp rd spec m cpus setp mn mx w,
  special_ok k rd spec /\ cpu_pair k hwp spec cpus mn mx w /\
  set_with [(m, cpu_sysfs_io k true hwp rd)] cpus false setp /\
  exists w', set_props setp (s_start k) (s_commit k) [(PFreq false true, VNum mn); (PFreq false false, VNum mx)] w = (Exn EFreqOrder, w').
Proof. exact mixed_refuted_l. Qed.
Print Assumptions C24_mixed_refuted.

Example C24_cpu_case : set_with [(1, xpio)] [1] false (xsetp [1]) /\
  cpu_pair xpk xhwp xspec [1] 2000000000 2400000000 xps /\
  exists w', set_props (xsetp [1]) (s_start xpk) (s_commit xpk)
      [(PFreq false true, VNum 2000000000); (PFreq false false, VNum 2400000000)] xps =
    (Ok [(PFreq false true, 1); (PFreq false false, 1)], w') /\
    v_cur xpv w' true 1 = Ok 2000000000 /\ v_cur xpv w' false 1 = Ok 2400000000 /\ v_cur xpv w' false 0 = Ok 2000000000.
Proof. exact (conj (xset_with _ _) pair_case). Qed.

(** Dies, the minimum first (without a transaction). *)
Theorem C24_die_min_first_partial : forall (W : Type) (io : uio W) view fresh e dirof J, uncore_ok io view fresh e -> always_works io e J ->
  forall m rest dies u setp, set_with ((m, uncore_io io e) :: rest) dies u setp ->
  forall mn mx s, die_pair view fresh e dirof J dies mn mx s ->
  (forall c, In c dies -> in_order (uncore_view view dirof) s true c mn) \/
  (forall c, In c dies -> in_order (uncore_view view dirof) s false c mx) ->
  exists l s', set_props setp (ret tt) (ret tt) [(PFreq u true, VNum mn); (PFreq u false, VNum mx)] s = (Ok l, s') /\
    start_ok fresh e s' /\ both_set (uncore_view view dirof) (has_dir e dirof) dies mn mx s s'.
Proof. exact @dies_min_first. Qed.
Print Assumptions C24_die_min_first_partial.

(** Dies, the maximum first. *)
Theorem C24_die_max_first_partial : forall (W : Type) (io : uio W) view fresh e dirof J, uncore_ok io view fresh e -> always_works io e J ->
  forall m rest dies u setp, set_with ((m, uncore_io io e) :: rest) dies u setp ->
  forall mn mx s, die_pair view fresh e dirof J dies mn mx s ->
  exists r s', set_props setp (ret tt) (ret tt) [(PFreq u false, VNum mx); (PFreq u true, VNum mn)] s = (r, s') /\
    (((exists l, r = Ok l) /\ start_ok fresh e s' /\ both_set (uncore_view view dirof) (has_dir e dirof) dies mn mx s s') \/
     (r = Exn EFreqOrder /\ uncore_same view s s' /\
      ~ (forall c, In c dies -> in_order (uncore_view view dirof) s false c mx))).
Proof. exact @dies_max_first. Qed.
Print Assumptions C24_die_max_first_partial.

Example C24_die_case : die_pair kview kfresh xe xdir xthere [(0, 0)] 1600000000 1800000000 xus /\
  exists s', set_props (xusetp [(0, 0)]) (ret tt) (ret tt)
      [(PFreq true true, VNum 1600000000); (PFreq true false, VNum 1800000000)] xus =
    (Ok [(PFreq true false, 1); (PFreq true true, 1)], s') /\
    v_cur xuv s' true (0, 0) = Ok 1600000000 /\ v_cur xuv s' false (0, 0) = Ok 1800000000 /\ v_cur xuv s' false (0, 1) = Ok 1200000000.
Proof. exact die_pair_case. Qed.

(** CPUs: [w0] is the state in which the frequencies were saved, [w] is the state in which they are restored. The
    two properties come in any order, and with others around them. *)
Theorem C25_cpus : forall k hwp rd spec, special_ok k rd spec ->
  forall m rest u setn w0 w cpus sav b1 pre g1 mid g2 suf,
  restored_with ((m, cpu_sysfs_io k true hwp rd) :: rest) u setn ->
  Forall (fun c => 0 <= c) cpus ->
  (forall c, In c cpus -> limited (cpu_view k spec) w0 c /\ forall b, v_cur (cpu_view k spec) w0 b c = Ok (sav b c)) ->
  files_ok k hwp false w ->
  (forall c, In c cpus -> limited (cpu_view k spec) w c /\
     (forall b, v_limit (cpu_view k spec) w b c = v_limit (cpu_view k spec) w0 b c) /\
     (forall b, freq_taken k w b (sav b c) c) /\
     (forall b f, v_limit (cpu_view k spec) w b c = Ok f -> freq_taken k w b f c)) ->
  (forall pv, In pv (pre ++ mid ++ suf) -> (forall b, fst pv <> PFreq u b) /\
     unrelated (cpu_view k spec) (files_ok k hwp false) (fun c => 0 <= c) (fun w1 b f c => freq_taken k w1 b f c) setn (fst pv)) ->
  groups_of sav b1 cpus g1 -> groups_of sav (negb b1) cpus g2 ->
  exists w', restore_props (ret tt) (ret tt) setn VMin VMax
      (pre ++ (PFreq u b1, g1) :: mid ++ (PFreq u (negb b1), g2) :: suf) w = (Ok tt, w') /\
    files_ok k hwp false w' /\
    (forall b c, In c cpus -> v_cur (cpu_view k spec) w' b c = v_cur (cpu_view k spec) w0 b c) /\
    (forall b c, 0 <= c -> ~ In c cpus -> v_cur (cpu_view k spec) w' b c = v_cur (cpu_view k spec) w b c) /\
    (forall b c, 0 <= c -> v_limit (cpu_view k spec) w' b c = v_limit (cpu_view k spec) w b c).
Proof. exact cpus_restore. Qed.
Print Assumptions C25_cpus.

Example C25_cpu_case :
  restored_with [(1, xpio)] false xsetn /\
  (forall c, In c [0; 1] -> limited xpv xps0 c /\ forall b, v_cur xpv xps0 b c = Ok (xsav b c)) /\
  (forall c, In c [0; 1] -> limited xpv xps c /\ (forall b, v_limit xpv xps b c = v_limit xpv xps0 b c) /\
     (forall b, freq_taken xpk xps b (xsav b c) c) /\
     (forall b f, v_limit xpv xps b c = Ok f -> freq_taken xpk xps b f c)) /\
  unrelated xpv (files_ok xpk xhwp false) (fun c => 0 <= c) (fun w b f c => freq_taken xpk w b f c) xsetn (POther 1) /\
  groups_of xsav true [0; 1] [(VNum 2200000000, [0]); (VNum 800000000, [1])] /\
  groups_of xsav false [0; 1] [(VNum 2400000000, [0; 1])].
Proof. exact restore_hyps. Qed.

Example C25_cpu_run : forall first, exists w', restore_props (ret tt) (ret tt) xsetn VMin VMax (xsaved first) xps = (Ok tt, w') /\
  map (fun bc => v_cur xpv w' (fst bc) (snd bc)) [(true, 0); (false, 0); (true, 1); (false, 1)] =
    [Ok 2200000000; Ok 2400000000; Ok 800000000; Ok 2400000000].
Proof. exact restore_case. Qed.

(** Dies. *)
Theorem C25_dies : forall (W : Type) (io : uio W) view fresh e dirof J, uncore_ok io view fresh e -> always_works io e J ->
  forall m rest u setn (s0 s : ust W) dies sav b1 pre g1 mid g2 suf,
  restored_with ((m, uncore_io io e) :: rest) u setn ->
  Forall (has_dir e dirof) dies ->
  (forall c, In c dies -> limited (uncore_view view dirof) s0 c /\ forall b, v_cur (uncore_view view dirof) s0 b c = Ok (sav b c)) ->
  start_ok fresh e s -> J (us_w s) ->
  (forall c, In c dies -> limited (uncore_view view dirof) s c /\
     forall b, v_limit (uncore_view view dirof) s b c = v_limit (uncore_view view dirof) s0 b c) ->
  (forall pv, In pv (pre ++ mid ++ suf) -> (forall b, fst pv <> PFreq u b) /\
     unrelated (uncore_view view dirof) (start_ok fresh e) (has_dir e dirof) (die_taken J) setn (fst pv)) ->
  groups_of sav b1 dies g1 -> groups_of sav (negb b1) dies g2 ->
  exists s', restore_props (ret tt) (ret tt) setn VMin VMax
      (pre ++ (PFreq u b1, g1) :: mid ++ (PFreq u (negb b1), g2) :: suf) s = (Ok tt, s') /\
    start_ok fresh e s' /\
    (forall b c, In c dies -> v_cur (uncore_view view dirof) s' b c = v_cur (uncore_view view dirof) s0 b c) /\
    (forall b c, has_dir e dirof c -> ~ In c dies -> v_cur (uncore_view view dirof) s' b c = v_cur (uncore_view view dirof) s b c) /\
    (forall b c, has_dir e dirof c -> v_limit (uncore_view view dirof) s' b c = v_limit (uncore_view view dirof) s b c).
Proof. exact @dies_restore. Qed.
Print Assumptions C25_dies.

Example C25_die_case :
  restored_with [(1, uncore_io xuio xe)] true xusetn /\
  (forall c, In c [(0, 0); (0, 1)] -> limited xuv xus c /\ forall b, v_cur xuv xus b c = Ok (xusav b c)) /\
  start_ok kfresh xe xus1 /\ xthere (us_w xus1) /\
  (forall c, In c [(0, 0); (0, 1)] -> limited xuv xus1 c /\ forall b, v_limit xuv xus1 b c = v_limit xuv xus b c) /\
  groups_of xusav true [(0, 0); (0, 1)] [(VNum 800000000, [(0, 0); (0, 1)])] /\
  groups_of xusav false [(0, 0); (0, 1)] [(VNum 1500000000, [(0, 0)]); (VNum 1200000000, [(0, 1)])].
Proof. exact die_restore_case. Qed.
