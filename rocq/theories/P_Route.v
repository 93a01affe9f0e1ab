(** C73: every property is read from and written to the place it is documented to be. *)
From Coq Require Import Ascii String Sorting.Sorted.
From Verif Require Import Base M_Text M_CPUInfo M_Props M_PStates M_CFreq M_Route S_Route L_Route L_Route2 L_Route3 L_Route4 X_Route.
Open Scope list_scope.
Open Scope Z_scope.

(** ** Reading *)

(** Reading a property by a mechanism gives, for any machine, CPUs and state, just what the method in the table gives. *)
Theorem C73_reads {St} (lo : lower St) n p m src cpus st l e : keys_unique lo ->
  (In (p, m, src) pstates_sources /\ pstates_read lo n (s2l p) cpus (s2l m) st = (l, e)) \/
  (In (p, m, src) cstates_sources /\ cstates_get lo (s2l p) cpus (s2l m) st = (l, e)) \/
  (In (p, m, src) power_sources /\ power_get lo (s2l p) cpus (s2l m) st = (l, e)) \/
  (In (p, m, src) pmqos_sources /\ pmqos_get lo (s2l p) cpus st = (l, e)) ->
  gives_all lo src cpus st l e.
Proof.
  intros U [(H & E)|[(H & E)|[(H & E)|(H & E)]]];
  [exact (pstates_sourced lo n p m src cpus st l e H E)|exact (cstates_sourced lo p m src cpus st l e U H E)
  |exact (power_sourced lo p m src cpus st l e H E)|exact (pmqos_sourced lo p m src cpus st l e H E)].
Qed.
Print Assumptions C73_reads.
Example C73_reads_ex : pstates_read xlower 1 (s2l "min_freq") [0; 4] (s2l "sysfs") [] = ([(0, Some (DNum 1000)); (4, Some (DNum 1000))], None) /\
  cstates_get xlower (s2l "pkg_cstate_limits") [2] (s2l "doc") [] = ([(2, Some (DTexts [s2l "PC0"; s2l "PC6"]))], None) /\
  cstates_get xlower (s2l "idle_driver") [2; 3] (s2l "sysfs") [] =
    ([(2, Some (DText (s2l "get_idle_driver"))); (3, Some (DText (s2l "get_idle_driver")))], None) /\
  power_get xlower (s2l "ppl1") [0] (s2l "msr") [] = ([(0, Some (DNum 150))], None) /\
  pmqos_get xlower (s2l "latency_limit") [1] [] = ([(1, Some (DNum 7))], None).
Proof. exact x_sources. Qed.
Example C73_keys_ex : keys_unique xlower.
Proof. exact x_keys_unique. Qed.

(** The tables of places have exactly the properties and mechanisms that the classes have; so do the tables of setters, with the writable ones. *)
Theorem C73_complete p m :
  (pairs pstates_table p m <-> (exists src, In (p, m, src) pstates_sources) \/ In (p, m) pstates_computed) /\
  (pairs cstates_table p m <-> exists src, In (p, m, src) cstates_sources) /\
  (pairs power_table p m <-> exists src, In (p, m, src) power_sources) /\
  (pairs pmqos_table p m <-> exists src, In (p, m, src) pmqos_sources) /\
  (writable_pairs pstates_table p m <-> (exists x, In (p, m, x) pstates_sinks) \/ (exists o b s, In (p, m, o, b, s) freq_sinks) \/
     p = "epp"%string /\ (m = "sysfs"%string \/ m = "msr"%string) \/ m = "sysfs"%string /\ exists b s, In (p, b, s) uncore_sinks) /\
  (writable_pairs cstates_table p m <-> (exists x, In (p, m, x) cstates_sinks) \/ (p, m) = ("governor"%string, "sysfs"%string)) /\
  (writable_pairs power_table p m <-> exists x, In (p, m, x) power_sinks) /\
  (writable_pairs pmqos_table p m <-> (p, m) = ("latency_limit"%string, "sysfs"%string)).
Proof.
  exact (conj (pstates_complete p m) (conj (cstates_complete p m) (conj (power_complete p m) (conj (pmqos_complete p m) (writable_complete p m))))).
Qed.
Print Assumptions C73_complete.
Example C73_complete_ex : pairs pstates_table "epb" "msr" /\ writable_pairs power_table "ppl2_clamp" "msr".
Proof. split; [exists ["sysfs"; "msr"]%string, true|exists ["msr"]%string]; cbn; tauto. Qed.

(** The frequency that CPPC has; if it only has performance levels, the base frequency, scaled. *)
Theorem C73_cppc {St} (lo : lower St) n p freq_meth perf_meth cpus st : In (p, freq_meth, perf_meth) cppc_names ->
  (forall l e, answers lo CpufreqCppc freq_meth [] cpus st l e -> e <> Some ENotSupported ->
     pstates_read lo (S n) (s2l p) cpus (s2l "cppc") st = (l, e)) /\
  (forall base nominal perf, refuses_cpus lo CpufreqCppc freq_meth cpus st -> base_freqs lo cpus st base ->
     numbers lo CpufreqCppc "get_base_perf" cpus st nominal -> numbers lo CpufreqCppc perf_meth cpus st perf ->
     (forall c, In c cpus -> nominal c <> 0) ->
     pstates_read lo (S n) (s2l p) cpus (s2l "cppc") st = (map (fun c => (c, Some (DNum (base c * perf c / nominal c)))) cpus, None)).
Proof.
  intros H. exact (conj (fun l e A Ne => cppc_direct lo n p freq_meth perf_meth cpus st l e H A Ne)
    (fun base nominal perf R B N P Z => cppc_computed lo n p freq_meth perf_meth cpus st base nominal perf H R B N P Z)).
Qed.
Print Assumptions C73_cppc.
Example C73_cppc_ex : pstates_read xlower 1 (s2l "min_oper_freq") [0; 4] (s2l "cppc") [] = ([(0, Some (DNum 500)); (4, Some (DNum 500))], None) /\
  base_freqs xlower [0; 4] [] (fun _ => 2000) /\ refuses_cpus xlower CpufreqCppc "get_min_freq_limit" [0; 4] [].
Proof. exact x_cppc. Qed.

(** The documented frequencies of Intel CPUs: from the minimum to the maximum frequency of every CPU, in steps of its bus clock; with another
    driver they are not supported. *)
Theorem C73_frequencies {St} (lo : lower St) n cpus st driver fmin fmax b :
  answers lo CpufreqSysfs "get_driver" [] cpus st (map (fun c => (c, Some (DText (driver c)))) cpus) None ->
  freqs lo "get_min_freq" cpus st fmin -> freqs lo "get_max_freq" cpus st fmax -> bus_clocks lo cpus st b -> (forall c, In c cpus -> 0 < b c) ->
  ((forall c, driver c = s2l "intel_pstate") ->
     exists l, pstates_read lo (S n) (s2l "frequencies") cpus (s2l "doc") st = (l, None) /\
       Forall2 (fun c cv => fst cv = c /\ exists fs, snd cv = Some (DNums fs) /\ steps (fmin c) (fmax c) (b c) fs) cpus l) /\
  (forall c rest, cpus = c :: rest -> driver c <> s2l "intel_pstate" ->
     pstates_read lo (S n) (s2l "frequencies") cpus (s2l "doc") st = ([], Some ENotSupported)).
Proof.
  intros D F1 F2 B Pos. split.
  - intros Hd. apply (frequencies_computed lo n cpus st fmin fmax b); [|exact F1|exact F2|exact B|exact Pos].
    etransitivity; [exact D|]. f_equal. apply map_ext. intros c. now rewrite Hd.
  - intros c rest -> Nd. exact (frequencies_refused lo n c rest st driver fmin fmax b D F1 F2 B Nd).
Qed.
Print Assumptions C73_frequencies.
Example C73_frequencies_ex :
  pstates_read xlower_fsb 1 (s2l "frequencies") [3] (s2l "doc") [] = ([(3, Some (DNums [8000; 9000; 10000]))], None) /\
  freqs xlower_fsb "get_min_freq" [3] [] (fun _ => 8000) /\ freqs xlower_fsb "get_max_freq" [3] [] (fun _ => 10500) /\
  bus_clocks xlower_fsb [3] [] (fun _ => 1000).
Proof. exact x_frequencies. Qed.

(** The bus clock, by whichever mechanism there is. *)
Theorem C73_bus_clock {St} (lo : lower St) cpus st b : bus_clocks lo cpus st b ->
  pstates_again lo (s2l "bus_clock") None cpus st = (map (fun c => (c, Some (DNum (b c)))) cpus, None).
Proof. exact (bus_clock_again lo cpus st b). Qed.
Print Assumptions C73_bus_clock.
Example C73_bus_clock_ex : pstates_again xlower (s2l "bus_clock") None [1; 2] [] = ([(1, Some (DNum 100000000)); (2, Some (DNum 100000000))], None).
Proof. vm_compute. reflexivity. Qed.

(** The bus clock by one mechanism: by 'msr' it is what the register says, or it is refused; by 'doc' it is refused if there is the register, and
    on CPUs that are not Intel's. *)
Theorem C73_bus_clock_mechanisms {St} (lo : lower St) n cpus st b : bus_clocks lo cpus st b ->
  pstates_read lo n (s2l "bus_clock") cpus (s2l "msr") st =
    match lo_fsb lo st with Ok _ => (map (fun c => (c, Some (DNum (b c)))) cpus, None) | Exn e => ([], Some e) end /\
  pstates_read lo n (s2l "bus_clock") cpus (s2l "doc") st =
    match lo_fsb lo st with Ok _ => ([], Some ETryAnother) | Exn _ => (map (fun c => (c, Some (DNum 100000000))) cpus, None) end.
Proof. exact (bus_clock_by lo n cpus st b). Qed.
Print Assumptions C73_bus_clock_mechanisms.
Theorem C73_bus_clock_refused {St} (lo : lower St) n cpus st : lo_fsb lo st = Exn ENotSupported -> lo_intel lo = false ->
  pstates_read lo n (s2l "bus_clock") cpus (s2l "doc") st = ([], Some ENotSupported) /\
  pstates_again lo (s2l "bus_clock") None cpus st = ([], Some ENotSupported).
Proof. exact (bus_clock_refused lo n cpus st). Qed.
Print Assumptions C73_bus_clock_refused.

(** A name that is not in the table is refused, and nothing is changed. *)
Theorem C73_unknown {St} (lo : lower St) n p cpus m st : ~ In p (map (fun e => s2l (fst e)) pstates_table) ->
  pstates_read lo n p cpus m st = ([], Some EError) /\ forall v, pstates_set lo p v cpus m st = (Exn EError, st).
Proof. exact (pstates_unknown lo n p cpus m st). Qed.
Print Assumptions C73_unknown.
Example C73_unknown_ex : ~ In (s2l "min_freq_limits") (map (fun e => s2l (fst e)) pstates_table).
Proof. cbn. intros H. repeat destruct H as [H|H]; discriminate || destruct H. Qed.

(** ** Writing *)

(** Setting a property does just what the method in the table does. A power limit that the check refuses is not set. *)
Theorem C73_sets {St} (lo : lower St) p m o meth args v cpus st :
  (In (p, m, (o, meth, args)) pstates_sinks -> pstates_set lo (s2l p) v cpus (s2l m) st = lo_write lo o (s2l meth) (map s2l args) v cpus st) /\
  (In (p, m, (o, meth, args)) cstates_sinks -> cstates_set lo (s2l p) v cpus (s2l m) st = lo_write lo o (s2l meth) (map s2l args) v cpus st) /\
  (In (p, m, (o, meth, args)) power_sinks ->
     (forall e, (p = "ppl1"%string \/ p = "ppl2"%string) -> lo_check lo (s2l p) v cpus st = Exn e -> power_set lo (s2l p) v cpus (s2l m) st = (Exn e, st)) /\
     (((p = "ppl1"%string \/ p = "ppl2"%string) -> lo_check lo (s2l p) v cpus st = Ok tt) ->
      power_set lo (s2l p) v cpus (s2l m) st = lo_write lo o (s2l meth) (map s2l args) v cpus st)) /\
  cstates_set lo (s2l "governor") v cpus (s2l "sysfs") st = lo_put lo CpuidleObj (s2l "set_current_governor") v st /\
  pmqos_set lo (s2l "latency_limit") v cpus st = lo_write lo PmqosObj (s2l "set_latency_limit") [] v cpus st.
Proof.
  exact (conj (pstates_sunk lo p m o meth args v cpus st) (conj (cstates_sunk lo p m o meth args v cpus st)
    (conj (power_sunk lo p m o meth args v cpus st) (conj eq_refl eq_refl)))).
Qed.
Print Assumptions C73_sets.
Example C73_sets_ex : power_set xlower (s2l "ppl1") (DNum 200) [0; 8] (s2l "msr") [] =
    (Ok tt, [(LimitObj, s2l "write_feature", [s2l "limit1"], DNum 200, [0; 8])]) /\
  power_set xlower (s2l "ppl1") (DNum 50) [0; 8] (s2l "msr") [] = (Exn EError, []) /\
  cstates_set xlower (s2l "c1_demotion") (DText (s2l "on")) [1] (s2l "msr") [] =
    (Ok tt, [(PCStateObj, s2l "write_feature", [s2l "c1_demotion"], DText (s2l "on"), [1])]).
Proof. vm_compute. repeat split. Qed.

(** Setting a frequency: every CPU gets the frequency that the value stands for, which is within its limits and on the right side of its other
    frequency; the CPUs that get the same frequency are written together; nothing else is written. *)
Theorem C73_set_freq {St} (lo : lower St) p m o is_min setter v cpus st st' : In (p, m, o, is_min, setter) freq_sinks ->
  pstates_set lo (s2l p) v cpus (s2l m) st = (Ok tt, st') ->
  exists want groups, map fst want = cpus /\
    (forall c f, In (c, f) want -> stands_for lo cpus c st v f /\ allowed lo o is_min c st f) /\
    grouped want groups /\ written (fun f ks => lo_write lo o (s2l setter) [] (DNum f) ks) groups st st'.
Proof. intros H. exact (cpu_freq_set lo p m o is_min setter H v cpus st st'). Qed.
Print Assumptions C73_set_freq.
Example C73_set_freq_ex : pstates_set xlower (s2l "max_freq") (DText (s2l "base")) [0; 4] (s2l "sysfs") [] =
  (Ok tt, [(CpufreqSysfs, s2l "set_max_freq", [], DNum 2000, [0; 4])]).
Proof. exact x_freq_set. Qed.

(** A frequency that is not allowed for one of the CPUs is refused and nothing is written. *)
Theorem C73_set_freq_refused {St} (lo : lower St) p m o is_min setter f cpus st c : In (p, m, o, is_min, setter) freq_sinks ->
  In c cpus -> ~ allowed lo o is_min c st f -> exists e, pstates_set lo (s2l p) (DNum f) cpus (s2l m) st = (Exn e, st).
Proof. intros H. exact (cpu_freq_refused lo p m o is_min setter H f cpus st c). Qed.
Print Assumptions C73_set_freq_refused.

(** A frequency that is allowed for all the CPUs is written, for all of them at once. *)
Theorem C73_set_freq_succeeds {St} (lo : lower St) p m o is_min setter f cpus st st' : In (p, m, o, is_min, setter) freq_sinks ->
  cpus <> [] -> (forall c, In c cpus -> allowed lo o is_min c st f) -> lo_write lo o (s2l setter) [] (DNum f) cpus st = (Ok tt, st') ->
  pstates_set lo (s2l p) (DNum f) cpus (s2l m) st = (Ok tt, st').
Proof. intros H. exact (cpu_freq_succeeds lo p m o is_min setter H f cpus st st'). Qed.
Print Assumptions C73_set_freq_succeeds.
Example C73_allowed_ex : allowed xlower CpufreqSysfs true 0 [] 1200 /\ ~ allowed xlower CpufreqSysfs true 0 [] 2600.
Proof. exact x_freq_allowed. Qed.

(** The same for uncore frequencies and dies. *)
Theorem C73_set_uncore {St} (lo : lower St) p is_min setter v dies st st' : In (p, is_min, setter) uncore_sinks ->
  (exists go, pstates_set_dies lo (s2l p) v dies = Some go /\ go st = (Ok tt, st')) ->
  exists want groups, map fst want = dies /\
    (forall x f, In (x, f) want -> stands_for_die lo x st v f /\ allowed_die lo is_min x st f) /\
    grouped want groups /\ written (fun f ks => lo_write_dies lo (s2l setter) (DNum f) ks) groups st st'.
Proof. intros H. exact (die_freq_set lo p is_min setter H v dies st st'). Qed.
Print Assumptions C73_set_uncore.
Example C73_set_uncore_ex : exists go, pstates_set_dies xlower (s2l "min_uncore_freq") (DText (s2l "mdl")) [(0, 1); (1, 0)] = Some go /\
  go [] = (Ok tt, [(UncoreSysfs, s2l "set_min_freq_dies", [], DNum 1600000000, [0; 1])]).
Proof. exact x_die_set. Qed.

Theorem C73_set_uncore_refused {St} (lo : lower St) p is_min setter f dies st x : In (p, is_min, setter) uncore_sinks ->
  In x dies -> ~ allowed_die lo is_min x st f -> exists go e, pstates_set_dies lo (s2l p) (DNum f) dies = Some go /\ go st = (Exn e, st).
Proof. intros H. exact (die_freq_refused lo p is_min setter H f dies st x). Qed.
Print Assumptions C73_set_uncore_refused.

Theorem C73_set_uncore_succeeds {St} (lo : lower St) p is_min setter f dies st st' : In (p, is_min, setter) uncore_sinks ->
  dies <> [] -> (forall x, In x dies -> allowed_die lo is_min x st f) -> lo_write_dies lo (s2l setter) (DNum f) dies st = (Ok tt, st') ->
  exists go, pstates_set_dies lo (s2l p) (DNum f) dies = Some go /\ go st = (Ok tt, st').
Proof. intros H. exact (die_freq_succeeds lo p is_min setter H f dies st st'). Qed.
Print Assumptions C73_set_uncore_succeeds.

(** Setting EPP succeeds and fails with the EPP object, and the state is what it leaves. The failure is the same, unless the driver, its mode or
    the governor cannot be read. *)
Theorem C73_epp {St} (lo : lower St) m v cpus st r st1 : lo_write lo EppObj (s2l "set_vals") [s2l m] v cpus st = (r, st1) ->
  (r = Ok tt -> pstates_set lo (s2l "epp") v cpus (s2l m) st = (Ok tt, st1)) /\
  (forall e, r = Exn e -> exists e', pstates_set lo (s2l "epp") v cpus (s2l m) st = (Exn e', st1) /\
     (e' = e \/ m = "sysfs"%string /\ v <> DText (s2l "performance") /\ v <> DText (s2l "0") /\ exists cpu q,
        In q ["get_driver"; "get_intel_pstate_mode"; "get_governor"]%string /\ lo_err_cpu lo e st1 = Some cpu /\
        forall x l e0, ~ answers lo CpufreqSysfs q [] [cpu] st1 (x :: l) e0)).
Proof. exact (epp_set lo m v cpus st r st1). Qed.
Print Assumptions C73_epp.

(** The failure is not always the same: one that is an error becomes "not supported" (then the next mechanism is tried) when the mode of the
    driver is not known. *)
Theorem C73_epp_error_refuted : exists (lo : lower xstate) v cpus st,
  lo_write lo EppObj (s2l "set_vals") [s2l "sysfs"] v cpus st = (Exn EError, st) /\
  pstates_set lo (s2l "epp") v cpus (s2l "sysfs") st = (Exn ENotSupported, st).
Proof. exact (ex_intro _ xlower (ex_intro _ (DText (s2l "128")) (ex_intro _ [0] (ex_intro _ [] (conj (proj2 x_epp) (proj1 x_epp)))))). Qed.
Print Assumptions C73_epp_error_refuted.

(** The uncore frequencies are writable, but setting them for CPUs always fails. *)
Theorem C73_uncore_cpus_refuted : forall p, p = "min_uncore_freq"%string \/ p = "max_uncore_freq"%string ->
  writable_pairs pstates_table p "sysfs" /\
  forall St (lo : lower St) v cpus m st, pstates_set lo (s2l p) v cpus m st = (Exn EError, st).
Proof.
  intros p [-> | ->]; (split; [exists ["sysfs"]%string; cbn; tauto|reflexivity]).
Qed.
Print Assumptions C73_uncore_cpus_refuted.

(** ** Scopes *)

(** The scope of a property is known after it was asked for: the one in the table, or that of the field of the register behind it. *)
Theorem C73_scopes {St} (lo : lower St) st :
  (forall p sc, In (p, sc) pstates_scopes -> pstates_set_sname lo (s2l p) st = Ok (sc, sc)) /\
  (forall sc io, lo_scopes lo EpbObj (s2l "epb") st = Ok (sc, io) -> pstates_set_sname lo (s2l "epb") st = Ok (sc, sc)) /\
  (lo_fsb lo st = Exn ENotSupported -> pstates_set_sname lo (s2l "bus_clock") st = Ok (SGlobal, SGlobal)) /\
  (forall sc io, lo_fsb lo st = Ok tt -> lo_scopes lo FsbObj (s2l "fsb") st = Ok (sc, io) -> pstates_set_sname lo (s2l "bus_clock") st = Ok (sc, sc)) /\
  (forall p sc, In (p, sc) cstates_scopes -> cstates_set_sname lo (s2l p) st = Ok (sc, sc)) /\
  (forall p o, In (p, o) cstates_fields -> cstates_set_sname lo (s2l p) st = lo_scopes lo o (s2l p) st).
Proof.
  destruct (pstates_scoped lo st) as (A & B & C & D). destruct (cstates_scoped lo st) as (E & F). exact (conj A (conj B (conj C (conj D (conj E F))))).
Qed.
Print Assumptions C73_scopes.
Example C73_scopes_ex : pstates_set_sname xlower (s2l "epb") [] = Ok (SPackage, SPackage) /\ cstates_set_sname xlower (s2l "c1_demotion") [] = Ok (SPackage, SCore).
Proof. vm_compute. split; reflexivity. Qed.
