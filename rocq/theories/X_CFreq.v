(** Concrete cases for the settings of Linux CPU frequency drivers. *)
From Coq Require Import Ascii String Permutation Sorted.
From Verif Require Import Base L_Base M_Text S_Text L_Text M_Sysfs S_Sysfs L_Sysfs S_SysView L_SysView M_CFreq S_CFreq
  L_CFreq L_CFreq2 L_CFreq3 L_CFreq4.
Open Scope list_scope.

(** A kernel that keeps what is written, with a newline. It refuses to switch 'intel_pstate' off. *)
Definition xck : senv :=
  SE true (fun p _ v => if str_eqb p status_path && str_eqb v (s2l "off") then None else Some (v ++ ["010"%char]))
     (fun _ c => c) (fun _ => false).


(** Files with their contents *)
Definition files (l : list (str * string)) : str -> option str :=
  fun p => match dget str_eqb l p with Some t => Some (s2l t ++ ["010"%char]) | None => None end.

(** CPUs 0 and 1 are driven by 'intel_pstate', CPU 2 by 'acpi-cpufreq', CPU 3 by another driver. CPU 1 has one
    governor less than CPU 0. *)
Definition xcfs (status : string) : str -> option str := files
  [(driver_path 0, "intel_pstate"%string); (driver_path 1, "intel_cpufreq"%string); (driver_path 2, "acpi-cpufreq"%string);
   (driver_path 3, "cppc_cpufreq"%string); (no_turbo_path, "0"%string); (boost_path, "1"%string); (status_path, status);
   (governors_path 0, "performance powersave"%string); (governors_path 1, "powersave"%string);
   (governor_path 0, "powersave"%string); (governor_path 1, "powersave"%string);
   (frequencies_path 2, "3000000 2000000 1000000"%string)].
Definition xcs : sstate := s_init (xcfs "active").
Definition xcs_off : sstate := s_init (xcfs "off").

(** CPU 0 has no file with the base frequency, CPU 1 has one. *)
Definition xbs : sstate := s_init (files
  [(base_path 1, "2000000"%string); (bios_limit_path 0, "3000000"%string); (bios_limit_path 1, "3000000"%string)]).

(** CPU 0 has all the CPPC files, CPU 1 has no frequencies. *)
Definition xps2 : sstate := s_init (files
  [(cppc_path 0 (s2l "highest_freq"), "4000"%string);
   (cppc_path 0 (s2l "nominal_perf"), "20"%string); (cppc_path 1 (s2l "nominal_perf"), "20"%string);
   (cppc_path 0 (s2l "highest_perf"), "40"%string); (cppc_path 1 (s2l "highest_perf"), "30"%string);
   (cppc_path 0 (s2l "lowest_perf"), "8"%string); (cppc_path 1 (s2l "lowest_perf"), "8"%string);
   (cppc_path 1 (s2l "highest_freq"), "0"%string)]).
Definition xbase (cpus : list Z) : M sstate (list (Z * Z)) := ret (map (fun c => (c, 2000000000)) cpus).

Ltac run := rewrite (surjective_pairing (_ : res _ * sstate)); apply f_equal2; [vm_compute; reflexivity|reflexivity].

Lemma atomic_refuted_l : exists k g cpus s s' e c,
  ss_intr s = false /\ NoDup cpus /\ set_governor k g cpus s = (Exn e, s') /\ In c cpus /\
  contents s' (policy_file c "scaling_governor") <> contents s (policy_file c "scaling_governor").
Proof.
  exists xck, (s2l "performance"), [0; 1], xcs, (snd (set_governor xck (s2l "performance") [0; 1] xcs)), EError, 0.
  split; [reflexivity|]. split; [repeat constructor; cbn; intuition discriminate|]. split; [run|]. split; [now left|].
  vm_compute. discriminate.
Qed.

Lemma off_transaction_refuted_l : exists k has_dir hwp cpus s s1 s2,
  ss_intr s = false /\ ss_buf s = [] /\ cpus <> [] /\
  (forall c, In c cpus -> has_driver k has_dir s c (s2l "intel_pstate")) /\
  seen k s status_file = Ok (s2l "off") /\ (forall old, k_write k status_file old (s2l "off") = None) /\
  (let! _ := s_start k in set_mode k has_dir hwp (s2l "off") cpus) s = (Ok tt, s1) /\
  s_commit k s1 = (Exn EError, s2).
Proof.
  set (m := (let! _ := s_start xck in set_mode xck true (fun _ => Ok true) (s2l "off") [0; 1])).
  exists xck, true, (fun _ => Ok true), [0; 1], xcs_off, (snd (m xcs_off)), (snd (s_commit xck (snd (m xcs_off)))).
  split; [reflexivity|]. split; [reflexivity|]. split; [discriminate|]. split.
  { intros c [<-|[<-|[]]]; left.
    - exists (s2l "intel_pstate"). split; [vm_compute; reflexivity|]. right. split; [discriminate|reflexivity].
    - exists (s2l "intel_cpufreq"). split; [vm_compute; reflexivity|]. now left. }
  split; [vm_compute; reflexivity|]. split; [reflexivity|]. split; run.
Qed.

Lemma off_hwp_refuted_l : exists k has_dir hwp c s s',
  ss_intr s = false /\ has_driver k has_dir s c (s2l "intel_pstate") /\ hwp c = Ok true /\
  seen k s status_file = Ok (s2l "active") /\
  set_mode k has_dir hwp (s2l "off") [c] s = (Exn EError, s').
Proof.
  exists xck, true, (fun _ => Ok true), 0, xcs, (snd (set_mode xck true (fun _ => Ok true) (s2l "off") [0] xcs)).
  split; [reflexivity|]. split.
  { left. exists (s2l "intel_pstate"). split; [vm_compute; reflexivity|]. right. split; [discriminate|reflexivity]. }
  split; [reflexivity|]. split; [vm_compute; reflexivity|]. run.
Qed.

Lemma base_refuted_l : exists k cpus s l s' c n,
  NoDup cpus /\ get_base_freq k cpus s = (Ok l, s') /\ In c cpus /\
  seen_int k s (base_file c) = Ok n /\ ~ In (c, n * 1000) l.
Proof.
  exists xck, [0; 1], xbs, [(0, 3000000000); (1, 3000000000)], (snd (get_base_freq xck [0; 1] xbs)), 1, 2000000.
  split; [repeat constructor; cbn; intuition discriminate|]. split; [run|]. split; [cbn; auto|]. split; [vm_compute; reflexivity|].
  cbn. intros [H|[H|[]]]; discriminate H.
Qed.

Lemma duplicates_refuted_l : exists k base cpus s l s',
  NoDup cpus /\ (forall s1, fst (base cpus s1) = Ok (map (fun c => (c, 2000000000)) cpus)) /\
  cppc_freq k base true cpus s = (Ok l, s') /\ ~ NoDup (map fst l).
Proof.
  exists xck, xbase, [0; 1], xps2, [(0, 4000000000); (0, 4000000000); (1, 3000000000)], (snd (cppc_freq xck xbase true [0; 1] xps2)).
  split; [repeat constructor; cbn; intuition discriminate|]. split; [reflexivity|]. split; [run|].
  cbn. intros H. inversion H; subst. apply H2. now left.
Qed.

(** Switching turbo off *)
Lemma turbo_case :
  fst (set_turbo xck true false [0; 1; 2] xcs) = Ok tt /\
  fst (get_turbo xck true [1; 2] (snd (set_turbo xck true false [0; 1; 2] xcs))) = Ok [(1, s2l "off"); (2, s2l "off")] /\
  fst (get_turbo xck true [1; 2] xcs) = Ok [(1, s2l "on"); (2, s2l "on")] /\
  fst (set_turbo xck true false [3] xcs) = Exn ENotSupported.
Proof. repeat split; vm_compute; reflexivity. Qed.

Lemma turbo_hyps : forall c, In c [0; 2] -> exists d f n, has_driver xck true xcs c d /\ turbo_knob d false f n /\
  can_write xck xcs f (dec n) "turbo on/off status" /\ shows_written xck xcs f (dec n).
Proof.
  intros c [<-|[<-|[]]].
  - exists (s2l "intel_pstate"). do 2 eexists. split; [|split; [constructor|split; [left|now left]]].
    + left. exists (s2l "intel_pstate"). split; [vm_compute; reflexivity|]. right. split; [discriminate|reflexivity].
    + split; [reflexivity|]. split; [vm_compute; discriminate|]. intros old. cbn. discriminate.
  - exists (s2l "acpi-cpufreq"). do 2 eexists. split; [|split; [constructor|split; [left|now left]]].
    + left. exists (s2l "acpi-cpufreq"). split; [vm_compute; reflexivity|]. right. split; [discriminate|reflexivity].
    + split; [reflexivity|]. split; [vm_compute; discriminate|]. intros old. cbn. discriminate.
Qed.

Lemma governor_case :
  fst (get_available_governors xck [0; 1] xcs) = Ok [(0, [s2l "performance"; s2l "powersave"]); (1, [s2l "powersave"])] /\
  fst (set_governor xck (s2l "performance") [0] xcs) = Ok tt /\
  fst (get_governor xck [0; 1] (snd (set_governor xck (s2l "performance") [0] xcs))) = Ok [(0, s2l "performance"); (1, s2l "powersave")] /\
  fst (set_governor xck (s2l "performance") [1] xcs) = Exn EError.
Proof. repeat split; vm_compute; reflexivity. Qed.

Lemma governor_hyps : governors_listed xck xcs 0 [s2l "performance"; s2l "powersave"] /\
  can_write xck xcs (policy_file 0 "scaling_governor") (s2l "performance") "CPU frequency governor".
Proof.
  split.
  - exists (s2l "performance powersave"). split; [vm_compute; reflexivity|]. split; [reflexivity|].
    repeat constructor; try discriminate; intros c Hc; cbn in Hc; repeat (destruct Hc as [<-|Hc]; [reflexivity|]); destruct Hc.
  - left. split; [reflexivity|]. split; [vm_compute; discriminate|]. intros old.
    unfold xck; cbn [k_write]. change (str_eqb (s2l "performance") (s2l "off")) with false. rewrite andb_false_r. discriminate.
Qed.

Lemma mode_case :
  fst (get_mode xck true [0; 1] xcs) = Ok [(0, s2l "active"); (1, s2l "active")] /\
  fst (set_mode xck true (fun _ => Ok true) (s2l "passive") [0] xcs) = Ok tt /\
  fst (get_mode xck true [0; 1] (snd (set_mode xck true (fun _ => Ok true) (s2l "passive") [0] xcs))) = Ok [(0, s2l "passive"); (1, s2l "passive")] /\
  fst (set_mode xck true (fun _ => Ok true) (s2l "off") [0; 1] xcs_off) = Ok tt /\
  fst (set_mode xck true (fun _ => Ok true) (s2l "guided") [0] xcs) = Exn EError /\
  fst (get_driver xck true [0; 1; 2; 3] xcs) = Ok [(0, s2l "intel_pstate"); (1, s2l "intel_pstate"); (2, s2l "acpi-cpufreq"); (3, s2l "cppc_cpufreq")].
Proof. repeat split; vm_compute; reflexivity. Qed.

Lemma mode_hyps : stores xck status_file (s2l "passive") /\ k_unreadable xck status_file = false /\
  seen xck xcs status_file = on_disk xck xcs status_file /\
  can_write xck xcs status_file (s2l "passive") "'intel_pstate' driver mode" /\
  seen xck xcs_off status_file = Ok (s2l "off") /\ on_disk xck xcs_off status_file = Ok (s2l "off").
Proof.
  split; [|split; [reflexivity|split; [vm_compute; reflexivity|split; [left|split; vm_compute; reflexivity]]]].
  - intros old c. unfold xck; cbn [k_write]. change (str_eqb (s2l "passive") (s2l "off")) with false. rewrite andb_false_r.
    intros [= <-]. reflexivity.
  - split; [reflexivity|]. split; [vm_compute; discriminate|]. intros old. unfold xck; cbn [k_write].
    change (str_eqb (s2l "passive") (s2l "off")) with false. rewrite andb_false_r. discriminate.
Qed.

Lemma base_case :
  fst (get_base_freq xck [1] xbs) = Ok [(1, 2000000000)] /\
  fst (get_base_freq xck [0] xbs) = Ok [(0, 3000000000)] /\
  fst (get_base_freq xck [1; 0] xbs) = Ok [(1, 2000000000); (0, 3000000000)].
Proof. repeat split; vm_compute; reflexivity. Qed.

Lemma cppc_case :
  fst (cppc_max_freq_limit xck [0] xps2) = Ok [(0, 4000000000)] /\
  fst (cppc_max_freq_limit xck [1] xps2) = Exn ENotSupported /\
  fst (cppc_freq xck xbase true [1] xps2) = Ok [(1, 3000000000)] /\
  fst (cppc_freq xck xbase false [0; 1] xps2) = Ok [(0, 800000000); (1, 800000000)].
Proof. repeat split; vm_compute; reflexivity. Qed.

Lemma list_case :
  fst (get_available_frequencies xck [2] xcs) = Ok [(2, [1000000000; 2000000000; 3000000000])] /\
  frequencies_intel (s2l "intel_pstate") 800 1050 100 = Ok [800; 900; 1000].
Proof. split; vm_compute; reflexivity. Qed.
