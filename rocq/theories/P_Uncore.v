(** C37, C38, C48: uncore frequency directories, unlocking, reading and setting. *)
From Verif Require Import Base M_Text M_Kver M_Sysfs S_Sysfs S_SysView M_Uncore S_Uncore L_Uncore L_Uncore2 L_Uncore3 L_Uncore6 X_Uncore.

(** ** C37: directories *)

(** The directory name built for a package and die is parsed back to the same package and die. *)
Theorem C37_roundtrip : forall p d, 0 <= p -> 0 <= d -> parse_legacy (legacy_dir p d) = Some (p, d).
Proof. exact parse_legacy_dir. Qed.
Print Assumptions C37_roundtrip.

(** Distinct dies have distinct directory names. *)
Theorem C37_distinct : forall p d p' d', 0 <= p -> 0 <= d -> 0 <= p' -> 0 <= d' ->
  legacy_dir p d = legacy_dir p' d' -> p = p' /\ d = d'.
Proof. exact legacy_dir_inj. Qed.
Print Assumptions C37_distinct.

(** With either interface, the dies found are exactly those the driver shows, each one once. *)
Theorem C37_dies_found : forall (W : Type) e (s : ust W), well_shown e -> known e s ->
  exists info s', get_dies_info e s = (Ok info, s') /\ us_w s' = us_w s /\ dies_nodup info /\
    forall p d, has_die info p d <-> exists dir, shows e dir p d.
Proof. exact (fun W => dies_found). Qed.
Print Assumptions C37_dies_found.

(** The files accessed for a die are those in the directory that shows it; a die which is not shown is not
    accessed with the new interface. *)
Theorem C37_die_directory : forall (W : Type) e (s : ust W) key p d lim, well_shown e -> known e s ->
  (forall dir, shows e dir p d -> exists s', die_path e key p d lim s = (Ok (uncore_path dir key lim), s') /\
     us_w s' = us_w s) /\
  (use_new_api e = true -> (forall dir, ~ shows e dir p d) ->
   exists s', die_path e key p d lim s = (Exn EKey, s') /\ us_w s' = us_w s).
Proof. exact (fun W => die_directory). Qed.
Print Assumptions C37_die_directory.

(** No two dies, keys or limits share a file. *)
Theorem C37_distinct_files : forall e, well_shown e ->
  forall p d key lim p' d' key' lim' f, die_file e p d key lim f ->
    die_file e p' d' key' lim' f -> p = p' /\ d = d' /\ key = key' /\ lim = lim'.
Proof. exact die_file_one. Qed.
Print Assumptions C37_distinct_files.

Example C37_case :
  well_shown xe /\ well_shown xl /\
  fst (get_dies_info xe (US tt false None)) = Ok [(0, [0; 1])] /\
  fst (get_dies_info xl (US tt false None)) = Ok [(0, [0; 1]); (12, [0; 105])] /\
  fst (die_path xe KMax 0 1 true (US tt false None)) =
    Ok (s2l "/sys/devices/system/cpu/intel_uncore_frequency/uncore01/initial_max_freq_khz") /\
  fst (die_path xl KMin 12 105 false (US tt false None)) =
    Ok (s2l "/sys/devices/system/cpu/intel_uncore_frequency/package_12_die_105/min_freq_khz").
Proof. exact (conj xe_ok (conj xl_ok found_case)). Qed.

(** If two directories of the new interface have the same package and domain ID (as they do when a domain
    has several fabric clusters), the die is listed twice and the first directory is never used. *)
Theorem C37_duplicates_refuted :
  exists e dir p d, use_new_api e = true /\ shows e dir p d /\
    (exists s', get_dies_info e (US tt false None) = (Ok [(p, [d; d])], s')) /\
    forall key lim, fst (die_path e key p d lim (US tt false None)) <> Ok (uncore_path dir key lim).
Proof. exact duplicates_refuted_l. Qed.
Print Assumptions C37_duplicates_refuted.

(** Only the beginning of a directory name is looked at: other names are taken for dies, too. *)
Theorem C37_suffix_refuted : exists name p d, name <> legacy_dir p d /\ parse_legacy name = Some (p, d).
Proof. exact suffix_refuted_l. Qed.
Print Assumptions C37_suffix_refuted.

(** ** C38: unlocking *)

(** Two worlds that behave as specified: any kernel that stores what it takes and has side effects only on
    related files; and the sysfs access class over a kernel without side effects, with the cache enabled or
    with a kernel that stores what is written. *)
Theorem C38_kernel_behaves : forall eff related, kernel_ok eff related ->
  behaves (kernel_uio eff) kview kfresh related.
Proof. exact kernel_behaves. Qed.
Print Assumptions C38_kernel_behaves.

Theorem C38_sysfs_behaves : forall k related,
  (se_cache k = true \/
   forall p old v c, k_write k p old v = Some c -> strip c = v /\ k_unreadable k p = false) ->
  behaves (sysfs_uio k) (seen_int k) (fun _ _ => True) related.
Proof. exact sysfs_behaves. Qed.
Print Assumptions C38_sysfs_behaves.

(** Unlocking leaves every die's minimum and maximum uncore frequency and their limits as they were, whatever
    the writes to the package files did to them. *)
Theorem C38_unlock_keeps : forall (W : Type) (io : uio W) view fresh related e,
  behaves io view fresh related -> (forall f g, related f g -> tpmi_related e f g) -> well_shown e ->
  forall s s', start_ok fresh e s -> use_new_api e = true -> unlock_new_api io e s = (Ok tt, s') ->
  forall p d key lim f, die_file e p d key lim f -> view (us_w s') f = view (us_w s) f.
Proof. exact @unlock_dies. Qed.
Print Assumptions C38_unlock_keeps.

(** The only files that can change are those of the packages. *)
Theorem C38_unlock_frame : forall (W : Type) (io : uio W) view fresh related e,
  behaves io view fresh related -> (forall f g, related f g -> tpmi_related e f g) -> well_shown e ->
  forall s s', start_ok fresh e s -> use_new_api e = true -> unlock_new_api io e s = (Ok tt, s') ->
  us_unlocked s' = true /\ known e s' /\
  forall f, (forall p key, ~ package_file e p key f) ->
    view (us_w s') f = view (us_w s) f /\ (fresh (us_w s) f -> fresh (us_w s') f).
Proof. exact @unlock_keeps. Qed.
Print Assumptions C38_unlock_frame.

(** It does unlock: the package files then hold their limits, if die settings do not show in them. *)
Theorem C38_unlock_unlocks : forall (W : Type) (io : uio W) view fresh related e,
  behaves io view fresh related -> (forall f g, related f g -> tpmi_related e f g) -> well_shown e ->
  forall s s', start_ok fresh e s -> use_new_api e = true -> us_unlocked s = false ->
  (forall p d key f, die_file e p d key false f -> ~ related f (legacy_path key p 0 false)) ->
  unlock_new_api io e s = (Ok tt, s') ->
  forall dir p d key, shows e dir p d -> key = KMin \/ key = KMax ->
    view (us_w s') (legacy_path key p 0 false) = view (us_w s) (legacy_path key p 0 true).
Proof. exact @unlock_unlocks. Qed.
Print Assumptions C38_unlock_unlocks.

(** It succeeds if the files can be read and written. *)
Theorem C38_unlock_succeeds : forall (W : Type) (io : uio W) e J, always_works io e J -> well_shown e ->
  forall s, use_new_api e = true -> J (us_w s) -> known e s ->
  exists s', unlock_new_api io e s = (Ok tt, s') /\ J (us_w s') /\ known e s'.
Proof. exact @unlock_works. Qed.
Print Assumptions C38_unlock_succeeds.

(** It is done once: afterwards no file is even looked at. *)
Theorem C38_unlock_once : forall (W : Type) (io : uio W) e s,
  us_unlocked s = true -> unlock_new_api io e s = (Ok tt, s).
Proof. exact @unlock_once. Qed.
Print Assumptions C38_unlock_once.

(** If it fails, it will be tried again, and the limits of the dies are as they were. *)
Theorem C38_unlock_failure_partial : forall (W : Type) (io : uio W) view fresh related e,
  behaves io view fresh related -> (forall f g, related f g -> tpmi_related e f g) -> well_shown e ->
  forall s s' x, start_ok fresh e s -> use_new_api e = true -> unlock_new_api io e s = (Exn x, s') ->
  us_unlocked s' = false /\
  forall p d key f, die_file e p d key true f -> view (us_w s') f = view (us_w s) f.
Proof. exact @unlock_failure. Qed.
Print Assumptions C38_unlock_failure_partial.

(** But when a write fails in the middle, dies are left with other frequencies than before. *)
Theorem C38_unlock_failure_refuted :
  exists e eff s s' x, well_shown e /\ kernel_ok eff (tpmi_related e) /\ start_ok kfresh e s /\
    use_new_api e = true /\ unlock_new_api (kernel_uio eff) e s = (Exn x, s') /\
    exists p d key f, die_file e p d key false f /\ kview (us_w s') f <> kview (us_w s) f.
Proof. exact unlock_failure_refuted_l. Qed.
Print Assumptions C38_unlock_failure_refuted.

Example C38_case :
  well_shown xe /\ kernel_ok (xeff (fun _ => true)) (tpmi_related xe) /\ start_ok kfresh xe xs /\
  always_works (kernel_uio (xeff (fun _ => true))) xe xthere /\ xthere (us_w xs) /\
  exists s', unlock_new_api (kernel_uio (xeff (fun _ => true))) xe xs = (Ok tt, s') /\
    kview (us_w s') (legacy_path KMax 0 0 false) = Ok 2000000 /\
    kview (us_w s') (uncore_path (s2l "uncore00") KMax false) = Ok 1500000 /\
    kview (us_w s') (uncore_path (s2l "uncore01") KMax false) = Ok 1200000.
Proof. exact (conj xe_ok (conj (xeff_ok _) (conj xs_start (conj xthere_works (conj xthere_start unlock_case))))). Qed.

(** ** C48: reading and setting *)

(** The files the theorems speak about, by their names. *)
Theorem C48_files : forall dir p d,
  let dirp := s2l "/sys/devices/system/cpu/intel_uncore_frequency/" ++ dir in
  uncore_path dir KMin false = dirp ++ s2l "/min_freq_khz" /\
  uncore_path dir KMax false = dirp ++ s2l "/max_freq_khz" /\
  uncore_path dir KCur false = dirp ++ s2l "/current_freq_khz" /\
  uncore_path dir KMin true = dirp ++ s2l "/initial_min_freq_khz" /\
  uncore_path dir KMax true = dirp ++ s2l "/initial_max_freq_khz" /\
  (forall key lim, legacy_path key p d lim = uncore_path (legacy_dir p d) key lim) /\
  (0 <= p < 10 -> 0 <= d < 10 -> legacy_dir p d = s2l "package_0" ++ dec p ++ s2l "_die_0" ++ dec d) /\
  (10 <= p -> 10 <= d -> legacy_dir p d = s2l "package_" ++ dec p ++ s2l "_die_" ++ dec d).
Proof. exact uncore_files. Qed.
Print Assumptions C48_files.

(** After a frequency has been set, reading it for the same dies gives it, rounded down to kHz. *)
Theorem C48_roundtrip : forall (W : Type) (io : uio W) view fresh related e,
  behaves io view fresh related -> (forall f g, related f g -> tpmi_related e f g) -> well_shown e ->
  forall s s' freq key dies, start_ok fresh e s ->
  (forall p d, has_die dies p d -> exists dir, shows e dir p d) ->
  set_freq_dies io e freq key dies s = (Ok tt, s') ->
  exists s'', get_freq_dies io e key dies false s' =
    (Ok (map (fun pd => (pd, freq / 1000 * 1000)) (each_die dies)), s'').
Proof. exact @set_then_get. Qed.
Print Assumptions C48_roundtrip.

(** The files of the dies set hold the frequency in kHz; all the other files of dies are as they were: those
    of other dies, of the other key, and the limits. *)
Theorem C48_frame : forall (W : Type) (io : uio W) view fresh related e,
  behaves io view fresh related -> (forall f g, related f g -> tpmi_related e f g) -> well_shown e ->
  forall s s' freq key dies, start_ok fresh e s ->
  (forall p d, has_die dies p d -> exists dir, shows e dir p d) ->
  set_freq_dies io e freq key dies s = (Ok tt, s') ->
  start_ok fresh e s' /\
  (forall p d f, has_die dies p d -> die_file e p d key false f -> view (us_w s') f = Ok (freq / 1000)) /\
  (forall p d key' lim f, die_file e p d key' lim f ->
     ~ (has_die dies p d /\ key' = key /\ lim = false) -> view (us_w s') f = view (us_w s) f).
Proof. exact @set_reads. Qed.
Print Assumptions C48_frame.

(** Setting succeeds if the files can be read and written. *)
Theorem C48_succeeds : forall (W : Type) (io : uio W) e J, always_works io e J -> well_shown e ->
  forall freq key dies s, J (us_w s) -> known e s ->
  (forall p d, has_die dies p d -> exists dir, shows e dir p d) ->
  exists s', set_freq_dies io e freq key dies s = (Ok tt, s') /\ J (us_w s').
Proof. exact @set_works. Qed.
Print Assumptions C48_succeeds.

(** Reading gives one value for every die asked about, in order: what its file holds, in Hz; it changes
    nothing. *)
Theorem C48_get : forall (W : Type) (io : uio W) view fresh related e,
  behaves io view fresh related -> well_shown e ->
  forall s key dies lim, known e s ->
  (forall p d, has_die dies p d -> exists dir, shows e dir p d) ->
  (forall p d f, has_die dies p d -> die_file e p d key lim f ->
     fresh (us_w s) f /\ exists n, view (us_w s) f = Ok n) ->
  exists l s', get_freq_dies io e key dies lim s = (Ok l, s') /\ map fst l = each_die dies /\
    (forall p d v, In (p, d, v) l -> exists f n, die_file e p d key lim f /\
         view (us_w s) f = Ok n /\ v = n * 1000) /\
    forall f, view (us_w s') f = view (us_w s) f.
Proof. exact @get_reads. Qed.
Print Assumptions C48_get.

Example C48_case : exists s',
  set_freq_dies (kernel_uio (xeff (fun _ => true))) xe 1800000999 KMax [(0, [1])] xs = (Ok tt, s') /\
  kview (us_w s') (uncore_path (s2l "uncore00") KMax false) = Ok 1500000 /\
  kview (us_w s') (uncore_path (s2l "uncore01") KMax false) = Ok 1800000 /\
  fst (get_freq_dies (kernel_uio (xeff (fun _ => true))) xe KMax [(0, [0; 1])] false s') =
    Ok [(0, 0, 1500000000); (0, 1, 1800000000)].
Proof. exact set_case. Qed.

(** The same by CPU number. 'levels' tells the package and the die of a CPU. The files of the dies of the CPUs
    hold the frequency in kHz; all the other files of dies are as they were. *)
Theorem C48_cpus_frame : forall (W : Type) (io : uio W) view fresh related e,
  behaves io view fresh related -> (forall f g, related f g -> tpmi_related e f g) -> well_shown e ->
  forall (levels : Z -> res (Z * Z)) s s' freq key cpus, start_ok fresh e s ->
  (forall c, In c cpus -> exists p d dir, levels c = Ok (p, d) /\ shows e dir p d) ->
  set_freq_cpus io e levels freq key cpus s = (Ok tt, s') ->
  known e s' /\ (forall p d key' lim f, die_file e p d key' lim f -> fresh (us_w s') f) /\
  (forall c p d f, In c cpus -> levels c = Ok (p, d) -> die_file e p d key false f ->
     view (us_w s') f = Ok (freq / 1000)) /\
  (forall p d key' lim f, die_file e p d key' lim f ->
     ~ (key' = key /\ lim = false /\ exists c, In c cpus /\ levels c = Ok (p, d)) ->
     view (us_w s') f = view (us_w s) f).
Proof. exact @set_cpus_reads. Qed.
Print Assumptions C48_cpus_frame.

(** Reading gives one value for every CPU asked about, in order: what the file of its die holds, in Hz; it
    changes nothing. *)
Theorem C48_cpus_get : forall (W : Type) (io : uio W) view fresh related e,
  behaves io view fresh related -> well_shown e ->
  forall (levels : Z -> res (Z * Z)) s key cpus lim, known e s ->
  (forall c, In c cpus -> exists p d f n, levels c = Ok (p, d) /\ die_file e p d key lim f /\
     fresh (us_w s) f /\ view (us_w s) f = Ok n) ->
  exists l s', get_freq_cpus io e levels key cpus lim s = (Ok l, s') /\ map fst l = cpus /\
    (forall c v, In (c, v) l -> exists p d f n, levels c = Ok (p, d) /\ die_file e p d key lim f /\
       view (us_w s) f = Ok n /\ v = n * 1000) /\
    forall f, view (us_w s') f = view (us_w s) f.
Proof. exact @get_cpus_reads. Qed.
Print Assumptions C48_cpus_get.

(** What was set is read back, rounded down to kHz. *)
Theorem C48_cpus_roundtrip : forall (W : Type) (io : uio W) view fresh related e,
  behaves io view fresh related -> (forall f g, related f g -> tpmi_related e f g) -> well_shown e ->
  forall (levels : Z -> res (Z * Z)) s s' freq key cpus, start_ok fresh e s ->
  (forall c, In c cpus -> exists p d dir, levels c = Ok (p, d) /\ shows e dir p d) ->
  set_freq_cpus io e levels freq key cpus s = (Ok tt, s') ->
  exists s'', get_freq_cpus io e levels key cpus false s' =
    (Ok (map (fun c => (c, freq / 1000 * 1000)) cpus), s'').
Proof. exact @set_then_get_cpus. Qed.
Print Assumptions C48_cpus_roundtrip.

(** Setting succeeds if the files can be read and written. *)
Theorem C48_cpus_succeeds : forall (W : Type) (io : uio W) e, well_shown e ->
  forall (levels : Z -> res (Z * Z)) J, always_works io e J ->
  forall freq key cpus s, J (us_w s) -> known e s ->
  (forall c, In c cpus -> exists p d dir, levels c = Ok (p, d) /\ shows e dir p d) ->
  exists s', set_freq_cpus io e levels freq key cpus s = (Ok tt, s') /\ J (us_w s').
Proof. exact @set_cpus_works. Qed.
Print Assumptions C48_cpus_succeeds.

Example C48_cpus_case : exists s',
  set_freq_cpus (kernel_uio (xeff (fun _ => true))) xe (fun c => Ok (0, c mod 2)) 1800000999 KMax [3; 5] xs = (Ok tt, s') /\
  kview (us_w s') (uncore_path (s2l "uncore00") KMax false) = Ok 1500000 /\
  kview (us_w s') (uncore_path (s2l "uncore01") KMax false) = Ok 1800000 /\
  fst (get_freq_cpus (kernel_uio (xeff (fun _ => true))) xe (fun c => Ok (0, c mod 2)) KMax [2; 3] false s') =
    Ok [(2, 1500000000); (3, 1800000000)].
Proof. exact set_cpus_case. Qed.

(** Setting the frequency of the die of a CPU (instead of the die) does not unlock the interface: what is
    possible for the die fails for its CPU. *)
Theorem C48_cpus_refuted : exists s1 s2,
  set_freq_cpus (kernel_uio xclamp) xe (fun _ => Ok (0, 1)) 1800000000 KMax [5] xs = (Exn EError, s1) /\
  set_freq_dies (kernel_uio xclamp) xe 1800000000 KMax [(0, [1])] xs = (Ok tt, s2) /\
  kview (us_w s2) (uncore_path (s2l "uncore01") KMax false) = Ok 1800000.
Proof. exact set_cpus_refuted_l. Qed.
Print Assumptions C48_cpus_refuted.
