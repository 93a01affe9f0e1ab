(** C51..C55: turbo, governors, the driver and its mode, base frequency and CPPC numbers, lists of frequencies. *)
From Coq Require Import Ascii String Permutation Sorted.
From Verif Require Import Base M_Text M_Sysfs S_Sysfs S_SysView M_CFreq S_CFreq L_CFreq L_CFreq2 L_CFreq3 L_CFreq4 X_CFreq.
Open Scope list_scope.

(** * C51: turbo *)

(** get_turbo() gives one value for every CPU, in the order of the CPUs, and it is what the file of the driver of that
    CPU tells; otherwise it fails. It changes nothing. *)
Theorem C51_get : forall k has_dir cpus s,
  (forall l, (exists s', get_turbo k has_dir cpus s = (Ok l, s')) <->
     one_each cpus l (fun c v => exists d b, has_driver k has_dir s c d /\ turbo_is k s d b /\ v = onoff_text b)) /\
  (forall r s', get_turbo k has_dir cpus s = (r, s') -> nothing_changed k s s').
Proof.
  intros k has_dir cpus s. destruct (reads_get k _ _ (turbo_reads k has_dir) cpus s) as [A B]. split; [|exact B].
  intros l. split.
  - intros H. apply A in H as [H1 H2]. split; [exact H1|]. intros c v Hin. now apply turbo_iff, H2.
  - intros [H1 H2]. apply A. split; [exact H1|]. intros c v Hin. now apply turbo_iff, H2.
Qed.

(** If set_turbo() succeeds, the driver of every CPU is one whose turbo setting is known, and the file of that driver
    has the right number. No other file is written. In a transaction, no file is written yet. *)
Theorem C51_set : forall k has_dir enable cpus s s',
  set_turbo k has_dir enable cpus s = (Ok tt, s') ->
  (forall c, In c cpus -> exists d f n, has_driver k has_dir s c d /\ has_driver k has_dir s' c d /\
     turbo_knob d enable f n /\ (shows_written k s f (dec n) -> seen k s' f = Ok (dec n)) /\
     (ss_intr s = false -> stores k f (dec n) -> contents s' f = Some (dec n))) /\
  (forall p, (forall c d f n, In c cpus -> has_driver k has_dir s c d -> turbo_knob d enable f n -> p <> f) ->
     untouched k s s' p) /\
  (ss_intr s = true -> ss_fs s' = ss_fs s /\ ss_log s' = ss_log s).
Proof. exact set_turbo_ok. Qed.

(** After set_turbo(), get_turbo() gives the new setting for all CPUs with the same driver, not only for those it
    was called for: the setting is global. *)
Theorem C51_roundtrip : forall k has_dir enable cpus s s',
  set_turbo k has_dir enable cpus s = (Ok tt, s') ->
  (forall c d f n, In c cpus -> has_driver k has_dir s c d -> turbo_knob d enable f n -> shows_written k s f (dec n)) ->
  forall others, (forall c', In c' others -> exists c d, In c cpus /\ has_driver k has_dir s c d /\ has_driver k has_dir s c' d) ->
  exists s'', get_turbo k has_dir others s' = (Ok (map (fun c => (c, onoff_text enable)) others), s'').
Proof. exact set_turbo_get. Qed.

(** Even if set_turbo() fails, only the two turbo files may have changed. *)
Theorem C51_fails : forall k has_dir enable cpus s s' e,
  set_turbo k has_dir enable cpus s = (Exn e, s') ->
  forall p, p <> s2l "/sys/devices/system/cpu/intel_pstate/no_turbo" -> p <> s2l "/sys/devices/system/cpu/cpufreq/boost" ->
  untouched k s s' p.
Proof. exact set_turbo_fails. Qed.

(** If the first CPU has another driver, the answer is "not supported" and nothing changes. *)
Theorem C51_unsupported : forall k has_dir enable c cpus s d,
  has_driver k has_dir s c d -> (forall f n, ~ turbo_knob d enable f n) ->
  exists s', set_turbo k has_dir enable (c :: cpus) s = (Exn ENotSupported, s') /\ nothing_changed k s s'.
Proof. exact set_turbo_unsupported. Qed.

(** While 'intel_pstate' is off, it has no turbo file, and the answer is "not supported". *)
Theorem C51_mode_off : forall k has_dir enable c cpus s,
  has_driver k has_dir s c (s2l "intel_pstate") -> seen k s status_file = Ok (s2l "off") ->
  ss_fs s (s2l "/sys/devices/system/cpu/intel_pstate/no_turbo") = None -> ss_intr s = false ->
  exists s', set_turbo k has_dir enable (c :: cpus) s = (Exn ENotSupported, s') /\ ss_fs s' = ss_fs s /\ ss_log s' = ss_log s.
Proof. exact set_turbo_mode_off. Qed.

(** It succeeds if the drivers are known and the kernel takes the values. *)
Theorem C51_succeeds : forall k has_dir enable cpus s,
  (forall c, In c cpus -> exists d f n, has_driver k has_dir s c d /\ turbo_knob d enable f n /\
     can_write k s f (dec n) "turbo on/off status") ->
  exists s', set_turbo k has_dir enable cpus s = (Ok tt, s').
Proof. exact set_turbo_works. Qed.

Example C51_case :
  fst (set_turbo xck true false [0; 1; 2] xcs) = Ok tt /\
  fst (get_turbo xck true [1; 2] (snd (set_turbo xck true false [0; 1; 2] xcs))) = Ok [(1, s2l "off"); (2, s2l "off")] /\
  fst (get_turbo xck true [1; 2] xcs) = Ok [(1, s2l "on"); (2, s2l "on")] /\
  fst (set_turbo xck true false [3] xcs) = Exn ENotSupported.
Proof. exact turbo_case. Qed.

(** The hypotheses of [C51_succeeds] and [C51_roundtrip] hold for CPUs 0 and 2 there. *)
Example C51_hyps : forall c, In c [0; 2] -> exists d f n, has_driver xck true xcs c d /\ turbo_knob d false f n /\
  can_write xck xcs f (dec n) "turbo on/off status" /\ shows_written xck xcs f (dec n).
Proof. exact turbo_hyps. Qed.

(** * C52: governors *)

(** get_governor() gives what "scaling_governor" of each CPU tells, in the order of the CPUs, and changes nothing. *)
Theorem C52_get : forall k cpus s,
  (forall l, (exists s', get_governor k cpus s = (Ok l, s')) <->
     one_each cpus l (fun c v => seen k s (policy_file c "scaling_governor") = Ok v)) /\
  (forall r s', get_governor k cpus s = (r, s') -> nothing_changed k s s').
Proof. intros k cpus s. exact (reads_get k _ _ (governor_reads k) cpus s). Qed.

(** get_available_governors() gives the names in the file. *)
Theorem C52_available : forall k s cpus gs,
  (forall c, In c cpus -> governors_listed k s c (gs c)) ->
  exists s', get_available_governors k cpus s = (Ok (map (fun c => (c, gs c)) cpus), s') /\ nothing_changed k s s'.
Proof. exact listed_get. Qed.

(** If set_governor() succeeds, the governor is an available one on every CPU, and is set there. Nothing else is written. *)
Theorem C52_set : forall k g cpus s s',
  set_governor k g cpus s = (Ok tt, s') ->
  (forall c, In c cpus -> (forall gs, governors_listed k s c gs -> In g gs) /\
     (shows_written k s (policy_file c "scaling_governor") g -> seen k s' (policy_file c "scaling_governor") = Ok g) /\
     (ss_intr s = false -> stores k (policy_file c "scaling_governor") g ->
        contents s' (policy_file c "scaling_governor") = Some g)) /\
  (forall p, (forall c, In c cpus -> p <> policy_file c "scaling_governor") -> untouched k s s' p) /\
  (ss_intr s = true -> ss_fs s' = ss_fs s /\ ss_log s' = ss_log s).
Proof. exact set_governor_ok. Qed.

Theorem C52_roundtrip : forall k g cpus s s',
  set_governor k g cpus s = (Ok tt, s') ->
  (forall c, In c cpus -> shows_written k s (policy_file c "scaling_governor") g) ->
  exists s'', get_governor k cpus s' = (Ok (map (fun c => (c, g)) cpus), s'').
Proof. exact set_governor_get. Qed.

(** If it fails at a CPU, the CPUs before it have the governor already, the others have what they had. *)
Theorem C52_fails : forall k g cpus s s' e,
  set_governor k g cpus s = (Exn e, s') ->
  exists pre c rest, cpus = pre ++ c :: rest /\
    (forall c', In c' pre -> policy_file c' "scaling_governor" <> policy_file c "scaling_governor" ->
       (shows_written k s (policy_file c' "scaling_governor") g -> seen k s' (policy_file c' "scaling_governor") = Ok g) /\
       (ss_intr s = false -> stores k (policy_file c' "scaling_governor") g ->
          contents s' (policy_file c' "scaling_governor") = Some g)) /\
    (forall p, (forall c', In c' (pre ++ [c]) -> p <> policy_file c' "scaling_governor") -> untouched k s s' p) /\
    (~ In (policy_file c "scaling_governor") (map (fun c' => policy_file c' "scaling_governor") pre) ->
       ss_fs s' (policy_file c "scaling_governor") = ss_fs s (policy_file c "scaling_governor")).
Proof. exact set_governor_fails. Qed.

(** Not available on the first CPU: an error, and nothing changes. *)
Theorem C52_refused : forall k g c gs cpus s,
  governors_listed k s c gs -> ~ In g gs ->
  exists s', set_governor k g (c :: cpus) s = (Exn EError, s') /\ nothing_changed k s s'.
Proof. exact set_governor_refused. Qed.

(** But a governor that a later CPU does not have is set on the CPUs before it. *)
Theorem C52_atomic_refuted : exists k g cpus s s' e c,
  ss_intr s = false /\ NoDup cpus /\ set_governor k g cpus s = (Exn e, s') /\ In c cpus /\
  contents s' (policy_file c "scaling_governor") <> contents s (policy_file c "scaling_governor").
Proof. exact atomic_refuted_l. Qed.

Theorem C52_succeeds : forall k g cpus s,
  (forall c, In c cpus -> exists gs, governors_listed k s c gs /\ In g gs /\
     can_write k s (policy_file c "scaling_governor") g "CPU frequency governor") ->
  exists s', set_governor k g cpus s = (Ok tt, s').
Proof. exact set_governor_works. Qed.

Example C52_case :
  fst (get_available_governors xck [0; 1] xcs) = Ok [(0, [s2l "performance"; s2l "powersave"]); (1, [s2l "powersave"])] /\
  fst (set_governor xck (s2l "performance") [0] xcs) = Ok tt /\
  fst (get_governor xck [0; 1] (snd (set_governor xck (s2l "performance") [0] xcs))) = Ok [(0, s2l "performance"); (1, s2l "powersave")] /\
  fst (set_governor xck (s2l "performance") [1] xcs) = Exn EError.
Proof. exact governor_case. Qed.

Example C52_hyps : governors_listed xck xcs 0 [s2l "performance"; s2l "powersave"] /\
  can_write xck xcs (policy_file 0 "scaling_governor") (s2l "performance") "CPU frequency governor".
Proof. exact governor_hyps. Qed.

(** * C53: the driver and the mode of 'intel_pstate' *)

Theorem C53_driver : forall k has_dir cpus s,
  (forall l, (exists s', get_driver k has_dir cpus s = (Ok l, s')) <-> one_each cpus l (fun c d => has_driver k has_dir s c d)) /\
  (forall r s', get_driver k has_dir cpus s = (r, s') -> nothing_changed k s s').
Proof.
  intros k has_dir cpus s. destruct (reads_get k _ _ (drv_reads k has_dir) cpus s) as [A B]. split; [|exact B].
  intros l. split.
  - intros H. apply A in H as [H1 H2]. split; [exact H1|]. intros c v Hin. now apply drv_iff, H2.
  - intros [H1 H2]. apply A. split; [exact H1|]. intros c v Hin. now apply drv_iff, H2.
Qed.

Theorem C53_get : forall k has_dir cpus s,
  (forall l, (exists s', get_mode k has_dir cpus s = (Ok l, s')) <->
     one_each cpus l (fun c m => has_driver k has_dir s c (s2l "intel_pstate") /\ seen k s status_file = Ok m)) /\
  (forall r s', get_mode k has_dir cpus s = (r, s') -> nothing_changed k s s').
Proof.
  intros k has_dir cpus s. destruct (reads_get k _ _ (mode_reads k has_dir) cpus s) as [A B]. split; [|exact B].
  intros l. split.
  - intros H. apply A in H as [H1 H2]. split; [exact H1|]. intros c v Hin. now apply mode_iff, H2.
  - intros [H1 H2]. apply A. split; [exact H1|]. intros c v Hin. now apply mode_iff, H2.
Qed.

(** If set_intel_pstate_mode() succeeds outside a transaction, the mode is one of three, all CPUs are driven by
    'intel_pstate', the kernel's file has the mode, and no other file is changed. (A file that was remembered had been
    remembered correctly.) *)
Theorem C53_set : forall k has_dir hwp mode cpus s s',
  ss_intr s = false -> stores k status_file mode -> k_unreadable k status_file = false ->
  seen k s status_file = on_disk k s status_file -> cpus <> [] ->
  set_mode k has_dir hwp mode cpus s = (Ok tt, s') ->
  (mode = s2l "active" \/ mode = s2l "passive" \/ mode = s2l "off") /\
  (forall c, In c cpus -> has_driver k has_dir s c (s2l "intel_pstate")) /\
  seen k s' status_file = Ok mode /\ on_disk k s' status_file = Ok mode /\
  (forall p, p <> status_file -> untouched k s s' p).
Proof. exact set_mode_ok. Qed.

Theorem C53_roundtrip : forall k has_dir hwp mode cpus s s',
  ss_intr s = false -> stores k status_file mode -> k_unreadable k status_file = false ->
  seen k s status_file = on_disk k s status_file -> cpus <> [] ->
  set_mode k has_dir hwp mode cpus s = (Ok tt, s') ->
  forall others, (forall c, In c others -> has_driver k has_dir s c (s2l "intel_pstate")) ->
  exists s'', get_mode k has_dir others s' = (Ok (map (fun c => (c, mode)) others), s'').
Proof. exact set_mode_get. Qed.

Theorem C53_fails : forall k has_dir hwp mode cpus s s' e,
  ss_intr s = false -> stores k status_file mode -> k_unreadable k status_file = false ->
  seen k s status_file = on_disk k s status_file ->
  set_mode k has_dir hwp mode cpus s = (Exn e, s') -> forall p, p <> status_file -> untouched k s s' p.
Proof. exact set_mode_fails. Qed.

Theorem C53_bad_mode : forall k has_dir hwp mode cpus s,
  mode <> s2l "active" -> mode <> s2l "passive" -> mode <> s2l "off" ->
  set_mode k has_dir hwp mode cpus s = (Exn EError, s).
Proof. exact set_mode_bad. Qed.

Theorem C53_unsupported : forall k has_dir hwp mode c cpus s d,
  mode = s2l "active" \/ mode = s2l "passive" \/ mode = s2l "off" ->
  has_driver k has_dir s c d -> d <> s2l "intel_pstate" ->
  exists s', set_mode k has_dir hwp mode (c :: cpus) s = (Exn ENotSupported, s') /\ nothing_changed k s s'.
Proof. exact set_mode_unsupported. Qed.

Theorem C53_succeeds : forall k has_dir hwp mode cpus s,
  mode = s2l "active" \/ mode = s2l "passive" \/ mode = s2l "off" ->
  (forall c, In c cpus -> has_driver k has_dir s c (s2l "intel_pstate")) ->
  (exists cur, seen k s status_file = Ok cur) -> k_unreadable k status_file = false ->
  can_write k s status_file mode "'intel_pstate' driver mode" ->
  exists s', set_mode k has_dir hwp mode cpus s = (Ok tt, s').
Proof. exact set_mode_works. Qed.

(** Switching the driver off once more succeeds, although the kernel refuses that, and changes nothing. *)
Theorem C53_off_again : forall k has_dir hwp cpus s,
  ss_intr s = false -> (forall c, In c cpus -> has_driver k has_dir s c (s2l "intel_pstate")) ->
  seen k s status_file = Ok (s2l "off") -> on_disk k s status_file = Ok (s2l "off") ->
  (forall old, k_write k status_file old (s2l "off") = None) ->
  exists s', set_mode k has_dir hwp (s2l "off") cpus s = (Ok tt, s') /\
    ss_fs s' = ss_fs s /\ ss_log s' = ss_log s /\ (forall p, seen k s' p = seen k s p).
Proof. exact set_mode_off_again. Qed.

(** But not in a transaction, which is what "pepc pstates config" uses: the commit fails. *)
Theorem C53_off_transaction_refuted : exists k has_dir hwp cpus s s1 s2,
  ss_intr s = false /\ ss_buf s = [] /\ cpus <> [] /\
  (forall c, In c cpus -> has_driver k has_dir s c (s2l "intel_pstate")) /\
  seen k s status_file = Ok (s2l "off") /\ (forall old, k_write k status_file old (s2l "off") = None) /\
  (let! _ := s_start k in set_mode k has_dir hwp (s2l "off") cpus) s = (Ok tt, s1) /\
  s_commit k s1 = (Exn EError, s2).
Proof. exact off_transaction_refuted_l. Qed.

(** The driver cannot be switched off while HWP is on. The code means to answer "not supported" then, but compares a
    boolean with the string "on": the answer is a plain error. *)
Theorem C53_off_hwp_refuted : exists k has_dir hwp c s s',
  ss_intr s = false /\ has_driver k has_dir s c (s2l "intel_pstate") /\ hwp c = Ok true /\
  seen k s status_file = Ok (s2l "active") /\
  set_mode k has_dir hwp (s2l "off") [c] s = (Exn EError, s').
Proof. exact off_hwp_refuted_l. Qed.

Example C53_case :
  fst (get_mode xck true [0; 1] xcs) = Ok [(0, s2l "active"); (1, s2l "active")] /\
  fst (set_mode xck true (fun _ => Ok true) (s2l "passive") [0] xcs) = Ok tt /\
  fst (get_mode xck true [0; 1] (snd (set_mode xck true (fun _ => Ok true) (s2l "passive") [0] xcs))) = Ok [(0, s2l "passive"); (1, s2l "passive")] /\
  fst (set_mode xck true (fun _ => Ok true) (s2l "off") [0; 1] xcs_off) = Ok tt /\
  fst (set_mode xck true (fun _ => Ok true) (s2l "guided") [0] xcs) = Exn EError /\
  fst (get_driver xck true [0; 1; 2; 3] xcs) = Ok [(0, s2l "intel_pstate"); (1, s2l "intel_pstate"); (2, s2l "acpi-cpufreq"); (3, s2l "cppc_cpufreq")].
Proof. exact mode_case. Qed.

Example C53_hyps : stores xck status_file (s2l "passive") /\ k_unreadable xck status_file = false /\
  seen xck xcs status_file = on_disk xck xcs status_file /\
  can_write xck xcs status_file (s2l "passive") "'intel_pstate' driver mode" /\
  seen xck xcs_off status_file = Ok (s2l "off") /\ on_disk xck xcs_off status_file = Ok (s2l "off").
Proof. exact mode_hyps. Qed.

(** * C54: base frequency and CPPC numbers *)

(** get_base_freq() gives one number for each CPU, in their order: from "base_frequency" for the CPUs up to the first
    one without that file, from "bios_limit" for all the others. *)
Theorem C54_base : forall k cpus s l s',
  NoDup cpus -> get_base_freq k cpus s = (Ok l, s') ->
  map fst l = cpus /\ numbers_kept k s s' /\
  exists pre rest, cpus = pre ++ rest /\
    (forall c v, In (c, v) l -> In c pre -> exists n, seen_int k s (base_file c) = Ok n /\ v = n * 1000) /\
    (forall c v, In (c, v) l -> In c rest -> exists n, seen_int k s (bios_file c) = Ok n /\ v = n * 1000) /\
    (forall c t, rest = c :: t -> seen_int k s (base_file c) = Exn ENotSupported).
Proof. exact base_ok. Qed.

Theorem C54_base_file : forall k cpus s (f : Z -> Z),
  NoDup cpus -> (forall c, In c cpus -> seen_int k s (base_file c) = Ok (f c)) ->
  exists s', get_base_freq k cpus s = (Ok (map (fun c => (c, f c * 1000)) cpus), s') /\ numbers_kept k s s'.
Proof. exact base_from_file. Qed.

Theorem C54_base_bios : forall k cpus s (f : Z -> Z),
  NoDup cpus ->
  (forall c, In c cpus -> seen_int k s (base_file c) = Exn ENotSupported /\ seen_int k s (bios_file c) = Ok (f c)) ->
  exists s', get_base_freq k cpus s = (Ok (map (fun c => (c, f c * 1000)) cpus), s') /\ numbers_kept k s s'.
Proof. exact base_from_bios. Qed.

(** A CPU with a "base_frequency" file may be given another frequency, if a CPU before it has no such file. *)
Theorem C54_base_refuted : exists k cpus s l s' c n,
  NoDup cpus /\ get_base_freq k cpus s = (Ok l, s') /\ In c cpus /\
  seen_int k s (base_file c) = Ok n /\ ~ In (c, n * 1000) l.
Proof. exact base_refuted_l. Qed.

(** The six CPPC numbers: each is what its file tells, in MHz for frequencies; a missing file, an unreadable one and
    the number 0 are all "not supported". Reading changes nothing. *)
Theorem C54_cppc : forall k cpus s f name unit,
  In (f, name, unit)
    [(cppc_min_freq_limit k, "lowest_freq"%string, 1000000); (cppc_max_freq_limit k, "highest_freq"%string, 1000000);
     (cppc_base_freq k, "nominal_freq"%string, 1000000); (cppc_min_perf_limit k, "lowest_perf"%string, 1);
     (cppc_max_perf_limit k, "highest_perf"%string, 1); (cppc_base_perf k, "nominal_perf"%string, 1)] ->
  (forall l, (exists s', f cpus s = (Ok l, s')) <->
     one_each cpus l (fun c v => exists n, cppc_number k s c name n /\ v = n * unit)) /\
  (forall r s', f cpus s = (r, s') -> numbers_kept k s s' /\ forall e, r = Exn e -> e = ENotSupported).
Proof.
  intros k cpus s f name unit [H|[H|[H|[H|[H|[H|[]]]]]]]; injection H as <- <- <-; apply cppc_all.
Qed.

(** The maximum (or minimum) frequency by CPPC: the file's number if all CPUs have it; if the first CPU does not, the
    base frequency scaled by the performance numbers. *)
Theorem C54_cppc_direct : forall k base (is_max : bool) cpus s (f : Z -> Z),
  (forall c, In c cpus -> cppc_number k s c (if is_max then "highest_freq" else "lowest_freq") (f c)) ->
  exists s', cppc_freq k base is_max cpus s = (Ok (map (fun c => (c, f c * 1000000)) cpus), s') /\ numbers_kept k s s'.
Proof. exact cppc_freq_direct. Qed.

Theorem C54_cppc_computed : forall k base (is_max : bool) c cpus s (b n p : Z -> Z),
  (forall m, ~ cppc_number k s c (if is_max then "highest_freq" else "lowest_freq") m) ->
  (forall s1, numbers_kept k s s1 -> exists s2,
     base (c :: cpus) s1 = (Ok (map (fun c => (c, b c)) (c :: cpus)), s2) /\ numbers_kept k s1 s2) ->
  (forall c', In c' (c :: cpus) -> cppc_number k s c' "nominal_perf" (n c') /\
     cppc_number k s c' (if is_max then "highest_perf" else "lowest_perf") (p c')) ->
  exists s', cppc_freq k base is_max (c :: cpus) s = (Ok (map (fun c => (c, b c * p c / n c)) (c :: cpus)), s') /\
    numbers_kept k s s'.
Proof. exact cppc_freq_computed. Qed.

(** Computed this way, the minimum is not above and the maximum not below the base frequency. *)
Theorem C54_cppc_order : forall k base c cpus s s1 s2 (b n lo hi : Z -> Z) lmin lmax,
  (forall m, ~ cppc_number k s c "lowest_freq" m) -> (forall m, ~ cppc_number k s c "highest_freq" m) ->
  (forall s1, numbers_kept k s s1 -> exists s2,
     base (c :: cpus) s1 = (Ok (map (fun c => (c, b c)) (c :: cpus)), s2) /\ numbers_kept k s1 s2) ->
  (forall c', In c' (c :: cpus) -> cppc_number k s c' "nominal_perf" (n c') /\
     cppc_number k s c' "lowest_perf" (lo c') /\ cppc_number k s c' "highest_perf" (hi c')) ->
  (forall c', In c' (c :: cpus) -> 0 <= b c' /\ 0 < n c' /\ lo c' <= n c' <= hi c') ->
  cppc_freq k base false (c :: cpus) s = (Ok lmin, s1) ->
  cppc_freq k base true (c :: cpus) s = (Ok lmax, s2) ->
  map fst lmin = c :: cpus /\ map fst lmax = c :: cpus /\
  forall c' x y, In (c', x) lmin -> In (c', y) lmax -> x <= b c' <= y.
Proof. exact cppc_freq_order. Qed.

(** If only some CPUs have the frequency file, a CPU may be reported twice. *)
Theorem C54_duplicates_refuted : exists k base cpus s l s',
  NoDup cpus /\ (forall s1, fst (base cpus s1) = Ok (map (fun c => (c, 2000000000)) cpus)) /\
  cppc_freq k base true cpus s = (Ok l, s') /\ ~ NoDup (map fst l).
Proof. exact duplicates_refuted_l. Qed.

Example C54_base_case :
  fst (get_base_freq xck [1] xbs) = Ok [(1, 2000000000)] /\
  fst (get_base_freq xck [0] xbs) = Ok [(0, 3000000000)] /\
  fst (get_base_freq xck [1; 0] xbs) = Ok [(1, 2000000000); (0, 3000000000)].
Proof. exact base_case. Qed.

Example C54_cppc_case :
  fst (cppc_max_freq_limit xck [0] xps2) = Ok [(0, 4000000000)] /\
  fst (cppc_max_freq_limit xck [1] xps2) = Exn ENotSupported /\
  fst (cppc_freq xck xbase true [1] xps2) = Ok [(1, 3000000000)] /\
  fst (cppc_freq xck xbase false [0; 1] xps2) = Ok [(0, 800000000); (1, 800000000)].
Proof. exact cppc_case. Qed.

(** * C55: lists of frequencies *)

(** By sysfs: the numbers of the file, in Hz, in ascending order. *)
Theorem C55_sysfs : forall k s cpus ks,
  (forall c, In c cpus -> seen k s (policy_file c "scaling_available_frequencies") = Ok (join " " (map dec (ks c)))) ->
  exists l s', get_available_frequencies k cpus s = (Ok l, s') /\ nothing_changed k s s' /\
    one_each cpus l (fun c fs => Sorted Z.le fs /\ Permutation fs (map (fun f => f * 1000) (ks c))).
Proof. exact freqs_get. Qed.

(** By documentation: the minimum frequency and all that is a whole number of bus clocks above it, up to the maximum. *)
Theorem C55_doc : forall lo hi bclk, 0 < bclk ->
  exists l, frequencies_intel (s2l "intel_pstate") lo hi bclk = Ok l /\ StronglySorted Z.lt l /\
    forall f, In f l <-> exists i, 0 <= i /\ f = lo + i * bclk /\ f <= hi.
Proof. exact frequencies_doc. Qed.

Example C55_case :
  fst (get_available_frequencies xck [2] xcs) = Ok [(2, [1000000000; 2000000000; 3000000000])] /\
  frequencies_intel (s2l "intel_pstate") 800 1050 100 = Ok [800; 900; 1000].
Proof. exact list_case. Qed.

Print Assumptions C51_get.
Print Assumptions C51_set.
Print Assumptions C51_roundtrip.
Print Assumptions C51_fails.
Print Assumptions C51_unsupported.
Print Assumptions C51_mode_off.
Print Assumptions C51_succeeds.
Print Assumptions C52_get.
Print Assumptions C52_available.
Print Assumptions C52_set.
Print Assumptions C52_roundtrip.
Print Assumptions C52_fails.
Print Assumptions C52_refused.
Print Assumptions C52_atomic_refuted.
Print Assumptions C52_succeeds.
Print Assumptions C53_driver.
Print Assumptions C53_get.
Print Assumptions C53_set.
Print Assumptions C53_roundtrip.
Print Assumptions C53_fails.
Print Assumptions C53_bad_mode.
Print Assumptions C53_unsupported.
Print Assumptions C53_succeeds.
Print Assumptions C53_off_again.
Print Assumptions C53_off_transaction_refuted.
Print Assumptions C53_off_hwp_refuted.
Print Assumptions C54_base.
Print Assumptions C54_base_file.
Print Assumptions C54_base_bios.
Print Assumptions C54_base_refuted.
Print Assumptions C54_cppc.
Print Assumptions C54_cppc_direct.
Print Assumptions C54_cppc_computed.
Print Assumptions C54_cppc_order.
Print Assumptions C54_duplicates_refuted.
Print Assumptions C55_sysfs.
Print Assumptions C55_doc.
