(** C75: drivers loaded and unloaded, debugfs mounted. *)
From Coq Require Import Ascii String.
From Verif Require Import Base M_Text M_Driver S_Systemd S_Driver L_Driver L_Driver2 L_Driver3 X_Driver.
Open Scope list_scope.
Open Scope Z_scope.

(** Whether a module is loaded is told rightly. *)
Theorem C75_is_loaded {W} (h : host W) mods n w : tells_modules h mods -> exists b, is_loaded h n w = (Ok b, w) /\ (b = true <-> In n (mods w)).
Proof. exact (is_loaded_ok h mods n w). Qed.
Print Assumptions C75_is_loaded.

(** Blank lines make no difference. *)
Theorem C75_blank_lines {W} (h h' : host W) n w l1 b l2 : Forall one_line (l1 ++ b :: l2) -> S_Systemd.spaces b ->
  h_modules h w = Ok (text_of (l1 ++ b :: l2)) -> h_modules h' w = Ok (text_of (l1 ++ l2)) -> is_loaded h n w = is_loaded h' n w.
Proof. exact (blank_lines_l h h' n w l1 b l2). Qed.
Print Assumptions C75_blank_lines.
Example x_blank_line : find_module (s2l "msr") [s2l " "; s2l "msr 16384 2 - Live 0x0"] = Ok (Some 2).
Proof. vm_compute. reflexivity. Qed.

(** Loading adds the module, and nothing is done if it is there; unloading takes it away, and nothing is done if it is not there; loading it again
    leaves the others alone. If it fails nothing has changed. *)
Theorem C75_load {W} (h : host W) mods n w r w' : tells_modules h mods -> modprobe_loads h mods n -> load h n [] false w = (r, w') ->
  (In n (mods w) -> r = Ok tt /\ w' = w) /\
  match r with Ok _ => forall m, In m (mods w') <-> In m (mods w) \/ m = n | Exn _ => same_modules mods w w' end.
Proof. exact (load_ok h mods n w r w'). Qed.
Print Assumptions C75_load.
Theorem C75_unload {W} (h : host W) mods n w r w' : tells_modules h mods -> rmmod_unloads h mods n -> unload h n w = (r, w') ->
  (~ In n (mods w) -> r = Ok tt /\ w' = w) /\
  match r with Ok _ => forall m, In m (mods w') <-> In m (mods w) /\ m <> n | Exn _ => same_modules mods w w' end.
Proof. exact (unload_ok h mods n w r w'). Qed.
Print Assumptions C75_unload.
Theorem C75_reload {W} (h : host W) mods n w r w' : tells_modules h mods -> modprobe_loads h mods n -> rmmod_unloads h mods n ->
  load h n [] true w = (r, w') ->
  (r = Ok tt -> forall m, In m (mods w') <-> In m (mods w) \/ m = n) /\ (forall m, m <> n -> (In m (mods w') <-> In m (mods w))) /\
  (r = Ok tt -> In n (mods w) -> exists w1, h_run h (s2l "rmmod " ++ n) w = (Ok tt, w1) /\ h_run h (s2l "modprobe " ++ n ++ s2l " ") w1 = (Ok tt, w')).
Proof.
  intros Ht Hl Hr H. destruct (reload_ok h mods n w r w' Ht Hl Hr H) as [A B]. split; [exact A|]. split; [exact B|]. intros ->.
  exact (reload_afresh h mods n w w' Ht H).
Qed.
Print Assumptions C75_reload.
Theorem C75_load_succeeds {W} (h : host W) mods n w : tells_modules h mods -> module_works h n ->
  (~ In n (mods w) -> exists w', load h n [] false w = (Ok tt, w') /\ h_run h (s2l "modprobe " ++ n ++ s2l " ") w = (Ok tt, w')) /\
  (exists w', unload h n w = (Ok tt, w')).
Proof. intros Ht Hw. split; [exact (load_works h mods n w Ht Hw)|exact (unload_works h mods n w Ht Hw)]. Qed.
Print Assumptions C75_load_succeeds.

(** Waiting for a file: it ends well only when the file is there, at the first poll that sees it, and within the time; it fails only when the time is
    over and no poll saw the file. *)
Theorem C75_wait_found {W} (h : host W) p i t w w' : wait_for_a_file h p i t w = (Ok tt, w') ->
  exists k, w' = after h k i w /\ h_exists h p w' = Ok true /\ h_now h w' - h_now h w < t /\
    forall j, (j < k)%nat -> h_exists h p (after h j i w) = Ok false.
Proof. exact (wait_found h p i t w w'). Qed.
Print Assumptions C75_wait_found.
Theorem C75_wait_failed {W} (h : host W) p i t w e w' : 0 < i -> 0 <= t -> clock_goes h -> (forall w, exists b, h_exists h p w = Ok b) ->
  wait_for_a_file h p i t w = (Exn e, w') ->
  e = EError /\ exists k, w' = after h k i w /\ t <= h_now h w' - h_now h w /\ forall j, (j < k)%nat -> h_exists h p (after h j i w) = Ok false.
Proof. exact (wait_failed h p i t w e w'). Qed.
Print Assumptions C75_wait_failed.
Theorem C75_wait_at_once {W} (h : host W) p i t w : 0 < t -> h_exists h p w = Ok true -> wait_for_a_file h p i t w = (Ok tt, w).
Proof. exact (wait_at_once h p i t w). Qed.
Print Assumptions C75_wait_at_once.

(** An object for the MSRs: made only if the device file is there, loading the driver only if that is needed. *)
Theorem C75_msr_open {W} (h : host W) mods cpus w o w1 : tells_modules h mods -> sleep_harmless h mods -> modprobe_loads h mods (s2l "msr") ->
  msr_open h cpus w = (Ok o, w1) ->
  exists cpu t, cpus = cpu :: t /\ h_exists h (s2l "/dev/cpu/" ++ dec cpu ++ s2l "/msr") w1 = Ok true /\
  (w1 = w \/ ~ In (s2l "msr") (mods w) /\ forall m, In m (mods w1) <-> In m (mods w) \/ m = s2l "msr").
Proof.
  intros Ht Hs Hl H. destruct (msr_open_ok h mods Ht Hs _ _ _ _ Hl H) as (cpu & t & E & Hx & [[_ ->]|(_ & Hn & A)]);
  exists cpu, t; split; [exact E| |exact E|]; split; auto.
Qed.
Print Assumptions C75_msr_open.
(** Made and closed, it leaves the modules as they were. *)
Theorem C75_msr_restored {W} (h : host W) mods cpus w o w1 w2 o' w3 : tells_modules h mods -> sleep_harmless h mods ->
  modprobe_loads h mods (s2l "msr") -> rmmod_unloads h mods (s2l "msr") ->
  msr_open h cpus w = (Ok o, w1) -> same_modules mods w1 w2 -> msr_close h o w2 = (Ok o', w3) -> same_modules mods w w3.
Proof. intros Ht Hs. exact (msr_restored h mods Ht Hs cpus w o w1 w2 o' w3). Qed.
Print Assumptions C75_msr_restored.
(** If the device file is there, nothing is loaded and nothing unloaded. If it is not there although the driver is loaded, or if something else
    fails, no other module is touched. *)
Theorem C75_msr_untouched {W} (h : host W) mods cpu t w : tells_modules h mods -> sleep_harmless h mods -> modprobe_loads h mods (s2l "msr") ->
  (h_exists h (s2l "/dev/cpu/" ++ dec cpu ++ s2l "/msr") w = Ok true ->
     exists o, msr_open h (cpu :: t) w = (Ok o, w) /\ forall w2, exists o', msr_close h o w2 = (Ok o', w2)) /\
  (h_exists h (s2l "/dev/cpu/" ++ dec cpu ++ s2l "/msr") w = Ok false -> In (s2l "msr") (mods w) -> msr_open h (cpu :: t) w = (Exn EError, w)) /\
  (forall e w1, msr_open h (cpu :: t) w = (Exn e, w1) -> forall m, m <> s2l "msr" -> (In m (mods w1) <-> In m (mods w))).
Proof.
  intros Ht Hs Hl. split; [|split].
  - intros E. exists (DOBJ false false). split; [exact (msr_open_dev h _ _ _ E)|]. intros w2. eexists. exact (close_none h _ (DOBJ false false) w2 eq_refl).
  - exact (msr_open_loaded h mods Ht cpu t w).
  - intros e w1 H. exact (msr_open_bad h mods Ht Hs _ _ _ _ Hl H).
Qed.
Print Assumptions C75_msr_untouched.
Theorem C75_msr_succeeds {W} (h : host W) mods cpu t w : tells_modules h mods -> module_works h (s2l "msr") ->
  (h_exists h (s2l "/dev/cpu/" ++ dec cpu ++ s2l "/msr") w = Ok true \/
   h_exists h (s2l "/dev/cpu/" ++ dec cpu ++ s2l "/msr") w = Ok false /\ ~ In (s2l "msr") (mods w) /\
   forall w', h_run h (s2l "modprobe msr ") w = (Ok tt, w') -> h_exists h (s2l "/dev/cpu/" ++ dec cpu ++ s2l "/msr") w' = Ok true) ->
  exists o w1, msr_open h (cpu :: t) w = (Ok o, w1) /\ forall w2, exists o' w3, msr_close h o w2 = (Ok o', w3).
Proof. intros Ht. exact (msr_works h mods Ht cpu t w). Qed.
Print Assumptions C75_msr_succeeds.

(** The device file is there one millisecond after loading, within the second to wait, but it is looked for only once: an error, and the driver stays
    loaded. *)
Theorem C75_msr_late_refuted : exists (W : Type) (h : host W) mods w w1, tells_modules h mods /\ sleep_harmless h mods /\ clock_goes h /\
  modprobe_loads h mods (s2l "msr") /\ rmmod_unloads h mods (s2l "msr") /\ module_works h (s2l "msr") /\
  msr_open h [0] w = (Exn EError, w1) /\ h_exists h (s2l "/dev/cpu/0/msr") w1 = Ok true /\ h_now h w1 - h_now h w <= 1000 /\
  ~ In (s2l "msr") (mods w) /\ In (s2l "msr") (mods w1).
Proof. exact late_ref. Qed.
Print Assumptions C75_msr_late_refuted.
(** Closing twice fails. *)
Theorem C75_close_twice_refuted : exists (W : Type) (h : host W) mods w o w1 o1 w2, tells_modules h mods /\ module_works h (s2l "msr") /\
  msr_open h [0] w = (Ok o, w1) /\ msr_close h o w1 = (Ok o1, w2) /\ msr_close h o1 w2 = (Exn EIndex, w2).
Proof. exact twice_ref. Qed.
Print Assumptions C75_close_twice_refuted.

(** The same for the uncore frequency driver. *)
Theorem C75_uncore_open {W} (h : host W) mods ratio w o w1 : tells_modules h mods -> sleep_harmless h mods -> modprobe_loads h mods (uncore_module ratio) ->
  uncore_open h true ratio w = (Ok o, w1) -> h_exists h uncore_dir w1 = Ok true /\
  (w1 = w \/ ~ In (uncore_module ratio) (mods w) /\ forall m, In m (mods w1) <-> In m (mods w) \/ m = uncore_module ratio).
Proof.
  intros Ht Hs Hl H. destruct (uncore_open_ok h mods Ht Hs _ _ _ _ Hl H) as (Hx & [[_ ->]|(_ & Hn & A)]); (split; [exact Hx|]); [left; reflexivity|right; split; assumption].
Qed.
Print Assumptions C75_uncore_open.
Theorem C75_uncore_restored {W} (h : host W) mods ratio w o w1 w2 o' w3 : tells_modules h mods -> sleep_harmless h mods ->
  modprobe_loads h mods (uncore_module ratio) -> rmmod_unloads h mods (uncore_module ratio) ->
  uncore_open h true ratio w = (Ok o, w1) -> same_modules mods w1 w2 -> uncore_close h ratio o w2 = (Ok o', w3) -> same_modules mods w w3.
Proof. intros Ht Hs. exact (uncore_restored h mods Ht Hs ratio w o w1 w2 o' w3). Qed.
Print Assumptions C75_uncore_restored.
Theorem C75_uncore_succeeds {W} (h : host W) mods ratio w : tells_modules h mods -> module_works h (uncore_module ratio) ->
  (h_exists h uncore_dir w = Ok true \/
   h_exists h uncore_dir w = Ok false /\ ~ In (uncore_module ratio) (mods w) /\
   forall w', h_run h (s2l "modprobe " ++ uncore_module ratio ++ s2l " ") w = (Ok tt, w') -> h_exists h uncore_dir w' = Ok true) ->
  exists o w1, uncore_open h true ratio w = (Ok o, w1) /\ forall w2, exists o' w3, uncore_close h ratio o w2 = (Ok o', w3).
Proof. intros Ht. exact (uncore_works h mods Ht ratio w). Qed.
Print Assumptions C75_uncore_succeeds.
Theorem C75_uncore_unsupported {W} (h : host W) mods ratio w : tells_modules h mods ->
  uncore_open h false ratio w = (Exn ENotSupported, w) /\
  (h_exists h uncore_dir w = Ok false -> In (uncore_module ratio) (mods w) -> uncore_open h true ratio w = (Exn ENotSupported, w)).
Proof. intros Ht. exact (uncore_refused h mods Ht ratio w). Qed.
Print Assumptions C75_uncore_unsupported.
(** A module that "modprobe" loads because the driver needs it stays loaded. *)
Theorem C75_dependency_refuted : exists (W : Type) (h : host W) mods w o w1 o1 w2 m, tells_modules h mods /\ module_works h (s2l "intel_uncore_frequency") /\
  rmmod_unloads h mods (s2l "intel_uncore_frequency") /\
  uncore_open h true true w = (Ok o, w1) /\ uncore_close h true o w1 = (Ok o1, w2) /\ ~ In m (mods w) /\ In m (mods w2).
Proof. exact deps_ref. Qed.
Print Assumptions C75_dependency_refuted.
Theorem C75_uncore_late_refuted : exists (W : Type) (h : host W) mods w w1, tells_modules h mods /\ sleep_harmless h mods /\ clock_goes h /\
  modprobe_loads h mods (s2l "intel_uncore_frequency") /\ rmmod_unloads h mods (s2l "intel_uncore_frequency") /\ module_works h (s2l "intel_uncore_frequency") /\
  uncore_open h true true w = (Exn ENotSupported, w1) /\ h_exists h (s2l "/sys/devices/system/cpu/intel_uncore_frequency") w1 = Ok true /\
  h_now h w1 - h_now h w <= 1000 /\ ~ In (s2l "intel_uncore_frequency") (mods w) /\ In (s2l "intel_uncore_frequency") (mods w1).
Proof. exact uncore_late_ref. Qed.
Print Assumptions C75_uncore_late_refuted.

(** Mounting debugfs: nothing is done if it is mounted there; else it is mounted by one command; the flag tells which. *)
Theorem C75_mount {W} (h : host W) mnts given pman w : tells_mounts h mnts ->
  let p := match given with None | Some [] => s2l "/sys/kernel/debug" | Some p => p end in
  (mounted mnts p w -> mount_debugfs h given pman w = (Ok (p, false), w)) /\
  (~ mounted mnts p w -> pman = true -> mount_debugfs h given pman w =
      match h_run h (mount_command p) w with (Ok _, w') => (Ok (p, true), w') | (Exn e, w') => (Exn e, w') end).
Proof. exact (mount_ok h mnts given pman w). Qed.
Print Assumptions C75_mount.
(** A TPMI object that found debugfs mounted leaves it alone. *)
Theorem C75_tpmi_open {W} (h : host W) mnts rest w f w1 : tells_mounts h mnts -> tpmi_open h rest w = (Ok f, w1) ->
  (f = false /\ mounted mnts (s2l "/sys/kernel/debug") w /\ rest w = (Ok tt, w1) /\ forall w2, tpmi_close h f w2 = (Ok tt, w2)) \/
  (f = true /\ ~ mounted mnts (s2l "/sys/kernel/debug") w /\
     exists w0, h_run h (mount_command (s2l "/sys/kernel/debug")) w = (Ok tt, w0) /\ rest w0 = (Ok tt, w1)).
Proof.
  intros Hm H. destruct (tpmi_ok h mnts Hm _ _ _ _ H) as [(-> & A & B)|(-> & A & B)]; [left|right; auto].
  repeat split; auto.
Qed.
Print Assumptions C75_tpmi_open.
(** A TPMI object that mounted debugfs does not unmount it. *)
Theorem C75_tpmi_unmount_refuted : exists (W : Type) (h : host W) mnts w f w1 w2, tells_mounts h mnts /\
  (exists w', h_run h (s2l "umount /sys/kernel/debug") w1 = (Ok tt, w') /\ ~ mounted mnts (s2l "/sys/kernel/debug") w') /\
  ~ mounted mnts (s2l "/sys/kernel/debug") w /\ tpmi_open h (ret tt) w = (Ok f, w1) /\ tpmi_close h f w1 = (Ok tt, w2) /\
  mounted mnts (s2l "/sys/kernel/debug") w2.
Proof. exact unmount_ref. Qed.
Print Assumptions C75_tpmi_unmount_refuted.
Theorem C75_tpmi_failed_refuted : exists (W : Type) (h : host W) mnts w e w1, tells_mounts h mnts /\ ~ mounted mnts (s2l "/sys/kernel/debug") w /\
  tpmi_open h (throw ENotSupported) w = (Exn e, w1) /\ mounted mnts (s2l "/sys/kernel/debug") w1.
Proof. exact tpmi_leak_ref. Qed.
Print Assumptions C75_tpmi_failed_refuted.
(** Without a process manager, which stands for the local host, debugfs is not mounted. *)
Theorem C75_mount_local_refuted : exists (W : Type) (h : host W) mnts w, tells_mounts h mnts /\
  (exists w', h_run h (mount_command (s2l "/sys/kernel/debug")) w = (Ok tt, w')) /\ mount_debugfs h None false w = (Exn EIndex, w).
Proof. exact local_ref. Qed.
Print Assumptions C75_mount_local_refuted.
