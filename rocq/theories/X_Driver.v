(** Examples of loading drivers and mounting debugfs. *)
From Coq Require Import Ascii String Lia.
From Verif Require Import Base M_Text M_CFreq M_Driver S_Systemd S_Driver L_Base L_Text L_Systemd L_Driver L_Driver2.
Open Scope list_scope.
Open Scope Z_scope.

(** A host with three modules that may be loaded; the clock in ms, and when the last module was loaded. Files appear [delay] ms after their
    module is loaded. With [deps] the uncore driver needs another module. *)
Record xhost := XH { x_msr : bool; x_unc : bool; x_common : bool; x_debugfs : bool; x_now : Z; x_at : Z }.
Definition xmods (w : xhost) : list str :=
  (if x_msr w then [s2l "msr"] else []) ++ (if x_unc w then [s2l "intel_uncore_frequency"] else []) ++
  (if x_common w then [s2l "intel_uncore_frequency_common"] else []) ++ [s2l "ext4"].
Definition xmnts (w : xhost) : list (str * str) :=
  (s2l "/proc", s2l "proc") :: (if x_debugfs w then [(s2l "/sys/kernel/debug", s2l "debugfs")] else []).
Definition xline (n : str) : str := n ++ s2l " 16384 0 - Live 0x0".
Definition xmline (m : str * str) : str := s2l "none " ++ fst m ++ s2l " " ++ snd m ++ s2l " rw 0 0".
Definition xrun (deps : bool) (cmd : str) : M xhost unit := fun w =>
  if str_eqb cmd (s2l "modprobe msr ") then (Ok tt, XH true (x_unc w) (x_common w) (x_debugfs w) (x_now w) (x_now w))
  else if str_eqb cmd (s2l "rmmod msr") then (Ok tt, XH false (x_unc w) (x_common w) (x_debugfs w) (x_now w) (x_at w))
  else if str_eqb cmd (s2l "modprobe intel_uncore_frequency ") then (Ok tt, XH (x_msr w) true (x_common w || deps) (x_debugfs w) (x_now w) (x_now w))
  else if str_eqb cmd (s2l "rmmod intel_uncore_frequency") then (Ok tt, XH (x_msr w) false (x_common w) (x_debugfs w) (x_now w) (x_at w))
  else if str_eqb cmd (s2l "mount -t debugfs none '/sys/kernel/debug'") then (Ok tt, XH (x_msr w) (x_unc w) (x_common w) true (x_now w) (x_at w))
  else if str_eqb cmd (s2l "umount /sys/kernel/debug") then (Ok tt, XH (x_msr w) (x_unc w) (x_common w) false (x_now w) (x_at w))
  else (Exn EError, w).
Definition xh (deps : bool) (delay : Z) : host xhost :=
  HOST (fun w => Ok (text_of (map xline (xmods w)))) (fun w => Ok (text_of (map xmline (xmnts w)))) (xrun deps) (fun _ => Ok tt)
       (fun p w => Ok (if str_eqb p (s2l "/dev/cpu/0/msr") then x_msr w && (x_at w + delay <=? x_now w)
                       else if str_eqb p (s2l "/sys/devices/system/cpu/intel_uncore_frequency") then x_unc w && (x_at w + delay <=? x_now w)
                       else false))
       x_now (fun z w => XH (x_msr w) (x_unc w) (x_common w) (x_debugfs w) (x_now w + z) (x_at w)).
Definition x0 : xhost := XH false false false false 0 0.

Lemma one_line_b l : forallb (fun c => negb (Ascii.eqb c newline)) l = true -> one_line l.
Proof. intros H Hi. rewrite forallb_forall in H. apply H in Hi. rewrite Ascii.eqb_refl in Hi. discriminate. Qed.
Lemma has_words_is t ws : words t = ws -> has_words t ws.
Proof. intros <-. apply has_words_words. Qed.

Lemma xtells_modules deps d : tells_modules (xh deps d) xmods.
Proof.
  intros w. exists (map xline (xmods w)). split; [reflexivity|].
  assert (K : forall n, In n [s2l "msr"; s2l "intel_uncore_frequency"; s2l "intel_uncore_frequency_common"; s2l "ext4"] -> module_line n (xline n)).
  { intros n Hn. split; [apply one_line_b; cbn in Hn; decompose [or] Hn; subst; reflexivity || contradiction|].
    exists (s2l "16384"), 0, (s2l "-"), [s2l "Live"; s2l "0x0"]. split; [|lia]. apply has_words_is.
    cbn in Hn; decompose [or] Hn; subst; try reflexivity; contradiction. }
  assert (Hall : forall n, In n (xmods w) -> module_line n (xline n)).
  { intros n Hn. apply K. unfold xmods in Hn. rewrite !in_app_iff in Hn.
    destruct (x_msr w), (x_unc w), (x_common w); cbn in Hn |- *; tauto. }
  revert Hall. generalize (xmods w) as l. intros l. induction l as [|n l IH]; intros H; constructor; [apply H; now left|apply IH; intros m Hm; apply H; now right].
Qed.
Lemma xtells_mounts deps d : tells_mounts (xh deps d) xmnts.
Proof.
  intros w. exists (map xmline (xmnts w)). split; [reflexivity|]. unfold xmnts.
  assert (K : forall a b, In (a, b) [(s2l "/proc", s2l "proc"); (s2l "/sys/kernel/debug", s2l "debugfs")] -> mount_line (a, b) (xmline (a, b))).
  { intros a b Hn. split.
    - apply one_line_b. cbn in Hn. destruct Hn as [Hn|[Hn|[]]]; injection Hn as <- <-; reflexivity.
    - exists (s2l "none"), (s2l "rw"), (s2l "0"), [s2l "0"]. apply has_words_is. cbn in Hn. destruct Hn as [Hn|[Hn|[]]]; injection Hn as <- <-; reflexivity. }
  constructor; [apply K; now left|]. destruct (x_debugfs w); constructor; [apply K; right; now left|constructor].
Qed.
Lemma xsleep deps d : sleep_harmless (xh deps d) xmods.
Proof. intros z w m. reflexivity. Qed.
Lemma xclock deps d : clock_goes (xh deps d).
Proof. intros z w Hz. cbn. lia. Qed.
Lemma xmsr_loads deps d : modprobe_loads (xh deps d) xmods (s2l "msr").
Proof.
  intros w r w' H. cbn in H. injection H as <- <-. intros m. unfold xmods. cbn [x_msr x_unc x_common].
  rewrite !in_app_iff. destruct (x_msr w); cbn [In]; intuition.
Qed.
Lemma xmsr_unloads deps d : rmmod_unloads (xh deps d) xmods (s2l "msr").
Proof.
  intros w r w' H. cbn in H. injection H as <- <-. intros m. unfold xmods. cbn [x_msr x_unc x_common]. rewrite !in_app_iff.
  destruct (x_msr w), (x_unc w), (x_common w); cbn [In]; split; intros X; repeat match goal with H : _ /\ _ |- _ => destruct H | H : _ \/ _ |- _ => destruct H | H : False |- _ => destruct H end;
  subst; try congruence; try (split; [tauto|intros Y; discriminate Y || (try discriminate Y)]); tauto.
Qed.
Lemma xunc_loads d : modprobe_loads (xh false d) xmods (s2l "intel_uncore_frequency").
Proof.
  intros w r w' H. cbn in H. injection H as <- <-. intros m. unfold xmods. cbn [x_msr x_unc x_common]. rewrite Bool.orb_false_r.
  rewrite !in_app_iff. destruct (x_unc w); cbn [In]; intuition.
Qed.
Lemma xunc_unloads deps d : rmmod_unloads (xh deps d) xmods (s2l "intel_uncore_frequency").
Proof.
  intros w r w' H. cbn in H. injection H as <- <-. intros m. unfold xmods. cbn [x_msr x_unc x_common]. rewrite !in_app_iff.
  destruct (x_msr w), (x_unc w), (x_common w); cbn [In]; split; intros X; repeat match goal with H : _ /\ _ |- _ => destruct H | H : _ \/ _ |- _ => destruct H | H : False |- _ => destruct H end;
  subst; try congruence; try (split; [tauto|intros Y; discriminate Y || (try discriminate Y)]); tauto.
Qed.
Lemma xmsr_works deps d : module_works (xh deps d) (s2l "msr").
Proof. split; [reflexivity|]. split; intros w; eexists; reflexivity. Qed.
Lemma xunc_works deps d : module_works (xh deps d) (s2l "intel_uncore_frequency").
Proof. split; [reflexivity|]. split; intros w; eexists; reflexivity. Qed.

(** The MSR driver is loaded for the object and unloaded when it is closed. *)
Example xmsr : exists w1 o w3, msr_open (xh false 0) [0; 1] x0 = (Ok (DOBJ true true), w1) /\ msr_close (xh false 0) (DOBJ true true) w1 = (Ok o, w3) /\
  xmods w1 = [s2l "msr"; s2l "ext4"] /\ xmods w3 = [s2l "ext4"].
Proof. eexists _, _, _. repeat split; vm_compute; reflexivity. Qed.
Example xuncore : exists w1 o w3, uncore_open (xh false 0) true true x0 = (Ok (DOBJ true true), w1) /\ uncore_close (xh false 0) true (DOBJ true true) w1 = (Ok o, w3) /\
  xmods w1 = [s2l "intel_uncore_frequency"; s2l "ext4"] /\ xmods w3 = [s2l "ext4"].
Proof. eexists _, _, _. repeat split; vm_compute; reflexivity. Qed.
(** Waiting for a file that appears after 2500 ms. *)
Example xwait : let w := XH true false false false 0 0 in
  (exists w', wait_for_a_file (xh false 2500) (s2l "/dev/cpu/0/msr") 1000 60000 w = (Ok tt, w') /\ x_now w' = 3000) /\
  (exists w', wait_for_a_file (xh false 2500) (s2l "/dev/cpu/0/msr") 1000 2000 w = (Exn EError, w') /\ x_now w' = 2000).
Proof. split; eexists; split; vm_compute; reflexivity. Qed.
Example xmount : mount_debugfs (xh false 0) None true x0 = (Ok (s2l "/sys/kernel/debug", true), XH false false false true 0 0) /\
  mount_debugfs (xh false 0) None true (XH false false false true 0 0) = (Ok (s2l "/sys/kernel/debug", false), XH false false false true 0 0).
Proof. split; vm_compute; reflexivity. Qed.

(** Refutations *)
Lemma late_ref : exists (W : Type) (h : host W) mods w w1, tells_modules h mods /\ sleep_harmless h mods /\ clock_goes h /\
  modprobe_loads h mods (s2l "msr") /\ rmmod_unloads h mods (s2l "msr") /\ module_works h (s2l "msr") /\
  msr_open h [0] w = (Exn EError, w1) /\ h_exists h (s2l "/dev/cpu/0/msr") w1 = Ok true /\ h_now h w1 - h_now h w <= 1000 /\
  ~ In (s2l "msr") (mods w) /\ In (s2l "msr") (mods w1).
Proof.
  exists xhost, (xh false 1), xmods, x0. eexists. split; [apply xtells_modules|]. split; [apply xsleep|]. split; [apply xclock|].
  split; [apply xmsr_loads|]. split; [apply xmsr_unloads|]. split; [apply xmsr_works|]. split; [vm_compute; reflexivity|].
  split; [vm_compute; reflexivity|]. split; [vm_compute; discriminate|]. split; [|left; reflexivity]. intros [X|[]]; discriminate.
Qed.
Lemma twice_ref : exists (W : Type) (h : host W) mods w o w1 o1 w2, tells_modules h mods /\ module_works h (s2l "msr") /\
  msr_open h [0] w = (Ok o, w1) /\ msr_close h o w1 = (Ok o1, w2) /\ msr_close h o1 w2 = (Exn EIndex, w2).
Proof.
  exists xhost, (xh false 0), xmods, x0. eexists _, _, _, _. split; [apply xtells_modules|]. split; [apply xmsr_works|].
  repeat split; vm_compute; reflexivity.
Qed.
Lemma deps_ref : exists (W : Type) (h : host W) mods w o w1 o1 w2 m, tells_modules h mods /\ module_works h (s2l "intel_uncore_frequency") /\
  rmmod_unloads h mods (s2l "intel_uncore_frequency") /\
  uncore_open h true true w = (Ok o, w1) /\ uncore_close h true o w1 = (Ok o1, w2) /\ ~ In m (mods w) /\ In m (mods w2).
Proof.
  exists xhost, (xh true 0), xmods, x0. eexists _, _, _, _, (s2l "intel_uncore_frequency_common"). split; [apply xtells_modules|].
  split; [apply xunc_works|]. split; [apply xunc_unloads|]. split; [vm_compute; reflexivity|]. split; [vm_compute; reflexivity|].
  split; [intros [X|[]]; discriminate|left; reflexivity].
Qed.
Lemma uncore_late_ref : exists (W : Type) (h : host W) mods w w1, tells_modules h mods /\ sleep_harmless h mods /\ clock_goes h /\
  modprobe_loads h mods (s2l "intel_uncore_frequency") /\ rmmod_unloads h mods (s2l "intel_uncore_frequency") /\ module_works h (s2l "intel_uncore_frequency") /\
  uncore_open h true true w = (Exn ENotSupported, w1) /\ h_exists h (s2l "/sys/devices/system/cpu/intel_uncore_frequency") w1 = Ok true /\
  h_now h w1 - h_now h w <= 1000 /\ ~ In (s2l "intel_uncore_frequency") (mods w) /\ In (s2l "intel_uncore_frequency") (mods w1).
Proof.
  exists xhost, (xh false 1), xmods, x0. eexists. split; [apply xtells_modules|]. split; [apply xsleep|]. split; [apply xclock|].
  split; [apply xunc_loads|]. split; [apply xunc_unloads|]. split; [apply xunc_works|]. split; [vm_compute; reflexivity|].
  split; [vm_compute; reflexivity|]. split; [vm_compute; discriminate|]. split; [|left; reflexivity]. intros [X|[]]; discriminate.
Qed.
Lemma unmount_ref : exists (W : Type) (h : host W) mnts w f w1 w2, tells_mounts h mnts /\
  (exists w', h_run h (s2l "umount /sys/kernel/debug") w1 = (Ok tt, w') /\ ~ mounted mnts (s2l "/sys/kernel/debug") w') /\
  ~ mounted mnts (s2l "/sys/kernel/debug") w /\ tpmi_open h (ret tt) w = (Ok f, w1) /\ tpmi_close h f w1 = (Ok tt, w2) /\
  mounted mnts (s2l "/sys/kernel/debug") w2.
Proof.
  exists xhost, (xh false 0), xmnts, x0. eexists _, (XH false false false true 0 0), _. split; [apply xtells_mounts|].
  split; [eexists; split; [vm_compute; reflexivity|]; intros [X|[]]; discriminate|]. split; [intros [X|[]]; discriminate|].
  split; [vm_compute; reflexivity|]. split; [vm_compute; reflexivity|]. right. left. reflexivity.
Qed.
Lemma tpmi_leak_ref : exists (W : Type) (h : host W) mnts w e w1, tells_mounts h mnts /\ ~ mounted mnts (s2l "/sys/kernel/debug") w /\
  tpmi_open h (throw ENotSupported) w = (Exn e, w1) /\ mounted mnts (s2l "/sys/kernel/debug") w1.
Proof.
  exists xhost, (xh false 0), xmnts, x0. eexists _, _. split; [apply xtells_mounts|]. split; [intros [X|[]]; discriminate|].
  split; [vm_compute; reflexivity|]. right. left. reflexivity.
Qed.
Lemma local_ref : exists (W : Type) (h : host W) mnts w, tells_mounts h mnts /\
  (exists w', h_run h (mount_command (s2l "/sys/kernel/debug")) w = (Ok tt, w')) /\ mount_debugfs h None false w = (Exn EIndex, w).
Proof.
  exists xhost, (xh false 0), xmnts, x0. split; [apply xtells_mounts|]. split; [eexists; vm_compute; reflexivity|]. vm_compute. reflexivity.
Qed.
