(** Specification of what stands behind the properties (C73): for every property and mechanism, which method of which object gives its
    value, and which sets it. *)
From Coq Require Import Ascii String Sorting.Sorted.
From Verif Require Import Base M_Text M_CPUInfo M_Props M_Route.
Open Scope list_scope.
Open Scope Z_scope.

(** Where a value comes from: a method asked about the CPUs, with arguments; a method asked once for all the CPUs; an entry of the
    dictionaries that a method gives. *)
Inductive source :=
| Asked (o : obj) (meth : string) (args : list string)
| Once (o : obj) (meth : string)
| Entry (o : obj) (meth : string) (args : list string) (key : string).

Definition sources := list (string * string * source).

(** PStates, except for the values that are computed: 'max_turbo_freq' and 'min_oper_freq' by "cppc", 'frequencies' by "doc", and
    'bus_clock'. *)
Definition pstates_sources : sources :=
  [("turbo", "sysfs", Asked CpufreqSysfs "get_turbo" []);
   ("min_freq", "sysfs", Asked CpufreqSysfs "get_min_freq" []);
   ("min_freq", "msr", Asked CpufreqMsr "get_min_freq" []);
   ("max_freq", "sysfs", Asked CpufreqSysfs "get_max_freq" []);
   ("max_freq", "msr", Asked CpufreqMsr "get_max_freq" []);
   ("min_freq_limit", "sysfs", Asked CpufreqSysfs "get_min_freq_limit" []);
   ("max_freq_limit", "sysfs", Asked CpufreqSysfs "get_max_freq_limit" []);
   ("base_freq", "sysfs", Asked CpufreqSysfs "get_base_freq" []);
   ("base_freq", "msr", Asked CpufreqMsr "get_base_freq" []);
   ("base_freq", "cppc", Asked CpufreqCppc "get_base_freq" []);
   ("min_oper_freq", "msr", Asked CpufreqMsr "get_min_oper_freq" []);
   ("max_eff_freq", "msr", Asked CpufreqMsr "get_max_eff_freq" []);
   ("max_turbo_freq", "msr", Asked CpufreqMsr "get_max_turbo_freq" []);
   ("frequencies", "sysfs", Asked CpufreqSysfs "get_available_frequencies" []);
   ("min_uncore_freq", "sysfs", Asked UncoreSysfs "get_min_freq_cpus" []);
   ("max_uncore_freq", "sysfs", Asked UncoreSysfs "get_max_freq_cpus" []);
   ("min_uncore_freq_limit", "sysfs", Asked UncoreSysfs "get_min_freq_limit_cpus" []);
   ("max_uncore_freq_limit", "sysfs", Asked UncoreSysfs "get_max_freq_limit_cpus" []);
   ("hwp", "msr", Asked CpufreqMsr "get_hwp" []);
   ("epp", "sysfs", Asked EppObj "get_vals" ["sysfs"]);
   ("epp", "msr", Asked EppObj "get_vals" ["msr"]);
   ("epb", "sysfs", Asked EpbObj "get_vals" ["sysfs"]);
   ("epb", "msr", Asked EpbObj "get_vals" ["msr"]);
   ("driver", "sysfs", Asked CpufreqSysfs "get_driver" []);
   ("intel_pstate_mode", "sysfs", Asked CpufreqSysfs "get_intel_pstate_mode" []);
   ("governor", "sysfs", Asked CpufreqSysfs "get_governor" []);
   ("governors", "sysfs", Asked CpufreqSysfs "get_available_governors" [])]%string.
Definition pstates_computed : list (string * string) :=
  [("max_turbo_freq", "cppc"); ("min_oper_freq", "cppc"); ("frequencies", "doc"); ("bus_clock", "msr"); ("bus_clock", "doc")]%string.

Definition cstates_sources : sources :=
  [("pkg_cstate_limit", "msr", Entry PCStateObj "read_feature" ["pkg_cstate_limit"] "pkg_cstate_limit");
   ("pkg_cstate_limit_lock", "msr", Asked PCStateObj "read_feature" ["pkg_cstate_limit_lock"]);
   ("pkg_cstate_limits", "doc", Entry PCStateObj "read_feature" ["pkg_cstate_limit"] "pkg_cstate_limits");
   ("pkg_cstate_limit_aliases", "doc", Entry PCStateObj "read_feature" ["pkg_cstate_limit"] "pkg_cstate_limit_aliases");
   ("c1_demotion", "msr", Asked PCStateObj "read_feature" ["c1_demotion"]);
   ("c1_undemotion", "msr", Asked PCStateObj "read_feature" ["c1_undemotion"]);
   ("c1e_autopromote", "msr", Asked PowerCtlObj "read_feature" ["c1e_autopromote"]);
   ("cstate_prewake", "msr", Asked PowerCtlObj "read_feature" ["cstate_prewake"]);
   ("idle_driver", "sysfs", Once CpuidleObj "get_idle_driver");
   ("governor", "sysfs", Once CpuidleObj "get_current_governor");
   ("governors", "sysfs", Once CpuidleObj "get_available_governors")]%string.

Definition power_sources : sources :=
  [("tdp", "msr", Asked InfoObj "read_feature" ["tdp"]);
   ("ppl1", "msr", Asked LimitObj "read_feature" ["limit1"]);
   ("ppl1_enable", "msr", Asked LimitObj "read_feature" ["limit1_enable"]);
   ("ppl1_clamp", "msr", Asked LimitObj "read_feature" ["limit1_clamp"]);
   ("ppl1_window", "msr", Asked LimitObj "read_feature" ["limit1_window"]);
   ("ppl2", "msr", Asked LimitObj "read_feature" ["limit2"]);
   ("ppl2_enable", "msr", Asked LimitObj "read_feature" ["limit2_enable"]);
   ("ppl2_clamp", "msr", Asked LimitObj "read_feature" ["limit2_clamp"]);
   ("ppl2_window", "msr", Asked LimitObj "read_feature" ["limit2_window"])]%string.

Definition pmqos_sources : sources :=
  [("latency_limit", "sysfs", Asked PmqosObj "get_latency_limit" []);
   ("global_latency_limit", "cdev", Once PmqosObj "get_global_latency_limit")]%string.

(** Who sets a value. The frequencies are in theorems of their own. *)
Definition sinks := list (string * string * (obj * string * list string)).
Definition pstates_sinks : sinks :=
  [("turbo", "sysfs", (CpufreqSysfs, "set_turbo", []));
   ("epb", "sysfs", (EpbObj, "set_vals", ["sysfs"])); ("epb", "msr", (EpbObj, "set_vals", ["msr"]));
   ("intel_pstate_mode", "sysfs", (CpufreqSysfs, "set_intel_pstate_mode", []));
   ("governor", "sysfs", (CpufreqSysfs, "set_governor", []))]%string.
Definition cstates_sinks : sinks :=
  [("pkg_cstate_limit", "msr", (PCStateObj, "write_feature", ["pkg_cstate_limit"]));
   ("c1_demotion", "msr", (PCStateObj, "write_feature", ["c1_demotion"]));
   ("c1_undemotion", "msr", (PCStateObj, "write_feature", ["c1_undemotion"]));
   ("c1e_autopromote", "msr", (PowerCtlObj, "write_feature", ["c1e_autopromote"]));
   ("cstate_prewake", "msr", (PowerCtlObj, "write_feature", ["cstate_prewake"]))]%string.
Definition power_sinks : sinks :=
  [("ppl1", "msr", (LimitObj, "write_feature", ["limit1"]));
   ("ppl1_enable", "msr", (LimitObj, "write_feature", ["limit1_enable"]));
   ("ppl1_clamp", "msr", (LimitObj, "write_feature", ["limit1_clamp"]));
   ("ppl2", "msr", (LimitObj, "write_feature", ["limit2"]));
   ("ppl2_enable", "msr", (LimitObj, "write_feature", ["limit2_enable"]));
   ("ppl2_clamp", "msr", (LimitObj, "write_feature", ["limit2_clamp"]))]%string.

(** The properties that CPPC may have as a frequency or only as a performance level. *)
Definition cppc_names : list (string * string * string) :=
  [("max_turbo_freq", "get_max_freq_limit", "get_max_perf_limit"); ("min_oper_freq", "get_min_freq_limit", "get_min_perf_limit")]%string.

(** The pairs of property and mechanism in a table of properties; those of the writable ones. *)
Definition pairs (t : ptable) (p m : string) : Prop := exists ms w, In (p, (ms, w)) t /\ In m ms.
Definition writable_pairs (t : ptable) (p m : string) : Prop := exists ms, In (p, (ms, true)) t /\ In m ms.

Section Spec.
  Context {St : Type}.
  Variable lo : lower St.

  (** A method answers about the CPUs: the values, and how it ends. *)
  Definition answers (o : obj) (meth : string) (args : list string) (cpus : list Z) (st : St)
      (l : list (Z * option dval)) (e : option exc) : Prop :=
    lo_read lo o (s2l meth) (map s2l args) cpus st = (l, e).

  (** What a source gives for the CPUs. *)
  Definition gives_all (src : source) (cpus : list Z) (st : St) (l : list (Z * option dval)) (e : option exc) : Prop :=
    match src with
    | Asked o meth args => answers o meth args cpus st l e
    | Once o meth =>
        (exists v, lo_get lo o (s2l meth) st = Ok v /\ l = map (fun c => (c, Some v)) cpus /\ e = None) \/
        (exists x, lo_get lo o (s2l meth) st = Exn x /\ l = [] /\ e = Some x)
    | Entry o meth args key =>
        exists l0 e0, answers o meth args cpus st l0 e0 /\
          (* every value is a dictionary that has the key ... *)
          ((e = e0 /\ Forall2 (fun x y => fst x = fst y /\ exists d v, snd x = Some (DDict d) /\ In (s2l key, v) d /\ snd y = Some v) l0 l) \/
          (* ... up to the first that is not *)
           exists pre x rest, l0 = pre ++ x :: rest /\
             Forall2 (fun x y => fst x = fst y /\ exists d v, snd x = Some (DDict d) /\ In (s2l key, v) d /\ snd y = Some v) pre l /\
             (forall d, snd x = Some (DDict d) -> ~ In (s2l key) (map fst d)) /\
             e = Some (match snd x with Some (DDict _) => EKey | _ => EValue end))
    end.

  (** The dictionaries have no key twice. *)
  Definition keys_unique : Prop :=
    forall o meth args cpus st l e c d, lo_read lo o meth args cpus st = (l, e) -> In (c, Some (DDict d)) l -> NoDup (map fst d).

  (** A method is asked about one CPU, and tells a number; does not. *)
  Definition tells (o : obj) (meth : string) (cpu : Z) (st : St) (n : Z) : Prop :=
    exists c l e, answers o meth [] [cpu] st ((c, Some (DNum n)) :: l) e.
  Definition refuses_cpus (o : obj) (meth : string) (cpus : list Z) (st : St) : Prop := answers o meth [] cpus st [] (Some ENotSupported).

  (** The number for every CPU. *)
  Definition numbers (o : obj) (meth : string) (cpus : list Z) (st : St) (f : Z -> Z) : Prop :=
    answers o meth [] cpus st (map (fun c => (c, Some (DNum (f c)))) cpus) None.

  (** The base frequency of every CPU: from sysfs, else from the registers, else from CPPC. *)
  Definition base_freqs (cpus : list Z) (st : St) (f : Z -> Z) : Prop :=
    numbers CpufreqSysfs "get_base_freq" cpus st f \/
    refuses_cpus CpufreqSysfs "get_base_freq" cpus st /\
      (numbers CpufreqMsr "get_base_freq" cpus st f \/
       refuses_cpus CpufreqMsr "get_base_freq" cpus st /\ numbers CpufreqCppc "get_base_freq" cpus st f).

  (** A frequency of every CPU: from sysfs, else from the registers. *)
  Definition freqs (meth : string) (cpus : list Z) (st : St) (f : Z -> Z) : Prop :=
    numbers CpufreqSysfs meth cpus st f \/ refuses_cpus CpufreqSysfs meth cpus st /\ numbers CpufreqMsr meth cpus st f.

  (** The bus clock of every CPU, in Hz: what the register says in kHz, 100MHz on Intel CPUs without it. *)
  Definition bus_clocks (cpus : list Z) (st : St) (f : Z -> Z) : Prop :=
    (lo_fsb lo st = Ok tt /\ exists khz, answers FsbObj "read_feature" ["fsb"%string] cpus st (map (fun c => (c, Some (DNum (khz c)))) cpus) None /\
       forall c, f c = khz c * 1000) \/
    (lo_fsb lo st = Exn ENotSupported /\ lo_intel lo = true /\ forall c, f c = 100000000).

  (** The frequencies from [lo_f] to [hi_f], one bus clock apart. *)
  Definition steps (lo_f hi_f bclk : Z) (l : list Z) : Prop :=
    StronglySorted Z.lt l /\ forall f, In f l <-> f <= hi_f /\ exists i, 0 <= i /\ f = lo_f + i * bclk.

  (** The base frequency of one CPU; its minimum operating frequency: from the registers, else from CPPC, which may only have performance
      levels. *)
  Definition tells_base (cpu : Z) (st : St) (n : Z) : Prop :=
    tells CpufreqSysfs "get_base_freq" cpu st n \/
    refuses_cpus CpufreqSysfs "get_base_freq" [cpu] st /\
      (tells CpufreqMsr "get_base_freq" cpu st n \/
       refuses_cpus CpufreqMsr "get_base_freq" [cpu] st /\ tells CpufreqCppc "get_base_freq" cpu st n).
  Definition tells_min_oper (cpu : Z) (st : St) (n : Z) : Prop :=
    tells CpufreqMsr "get_min_oper_freq" cpu st n \/
    refuses_cpus CpufreqMsr "get_min_oper_freq" [cpu] st /\
      (tells CpufreqCppc "get_min_freq_limit" cpu st n \/
       refuses_cpus CpufreqCppc "get_min_freq_limit" [cpu] st /\
         exists base nominal perf, tells_base cpu st base /\ tells CpufreqCppc "get_base_perf" cpu st nominal /\
           tells CpufreqCppc "get_min_perf_limit" cpu st perf /\ nominal <> 0 /\ n = base * perf / nominal).

  (** The frequency that a value stands for, for a CPU; "eff" is the minimum if the first CPU does not have it. *)
  Inductive stands_for (cpus : list Z) (cpu : Z) (st : St) : dval -> Z -> Prop :=
  | sf_num n : stands_for cpus cpu st (DNum n) n
  | sf_min n : tells CpufreqSysfs "get_min_freq_limit" cpu st n -> stands_for cpus cpu st (DText (s2l "min")) n
  | sf_max n : tells CpufreqSysfs "get_max_freq_limit" cpu st n -> stands_for cpus cpu st (DText (s2l "max")) n
  | sf_base t n : In t ["base"; "hfm"; "P1"]%string -> tells_base cpu st n -> stands_for cpus cpu st (DText (s2l t)) n
  | sf_eff t n : In t ["eff"; "lfm"; "Pn"]%string -> tells CpufreqMsr "get_max_eff_freq" cpu st n -> stands_for cpus cpu st (DText (s2l t)) n
  | sf_eff_min t n c0 rest : In t ["eff"; "lfm"; "Pn"]%string -> cpus = c0 :: rest -> refuses_cpus CpufreqMsr "get_max_eff_freq" [c0] st ->
      tells CpufreqSysfs "get_min_freq_limit" cpu st n -> stands_for cpus cpu st (DText (s2l t)) n
  | sf_pm n : tells_min_oper cpu st n -> stands_for cpus cpu st (DText (s2l "Pm")) n.

  (** A frequency is within the limits of the CPU, and not on the wrong side of the other frequency. *)
  Definition allowed (o : obj) (is_min : bool) (cpu : Z) (st : St) (f : Z) : Prop :=
    exists l h cur, tells CpufreqSysfs "get_min_freq_limit" cpu st l /\ tells CpufreqSysfs "get_max_freq_limit" cpu st h /\ l <= f <= h /\
      tells o (if is_min then "get_max_freq" else "get_min_freq") cpu st cur /\ (if is_min then f <= cur else cur <= f).

  (** The same for a die. *)
  Definition tells_die (meth : string) (die : Z * Z) (st : St) (n : Z) : Prop :=
    exists d l e, lo_read_dies lo (s2l meth) [die] st = ((d, Some (DNum n)) :: l, e).
  Definition allowed_die (is_min : bool) (die : Z * Z) (st : St) (f : Z) : Prop :=
    exists l h cur, tells_die "get_min_freq_limit_dies" die st l /\ tells_die "get_max_freq_limit_dies" die st h /\ l <= f <= h /\
      tells_die (if is_min then "get_max_freq_dies" else "get_min_freq_dies") die st cur /\ (if is_min then f <= cur else cur <= f).

  (** "mdl" is the multiple of the bus clock of 100MHz that is nearest to the middle of the limits. *)
  Inductive stands_for_die (die : Z * Z) (st : St) : dval -> Z -> Prop :=
  | sd_num n : stands_for_die die st (DNum n) n
  | sd_min n : tells_die "get_min_freq_limit_dies" die st n -> stands_for_die die st (DText (s2l "min")) n
  | sd_max n : tells_die "get_max_freq_limit_dies" die st n -> stands_for_die die st (DText (s2l "max")) n
  | sd_mdl n l h k : tells_die "get_min_freq_limit_dies" die st l -> tells_die "get_max_freq_limit_dies" die st h ->
      lo_fsb lo st = Exn ENotSupported -> lo_intel lo = true ->
      n = 100000000 * k -> Z.abs (2 * n - (l + h)) <= 100000000 -> stands_for_die die st (DText (s2l "mdl")) n.

  (** Writes that all succeed, one after the other: a frequency, for the keys that are to have it. *)
  Inductive written {K} (w : Z -> list K -> M St unit) : list (Z * list K) -> St -> St -> Prop :=
  | written_nil st : written w [] st st
  | written_cons f ks rest st st1 st2 : w f ks st = (Ok tt, st1) -> written w rest st1 st2 -> written w ((f, ks) :: rest) st st2.

  (** The keys are in the groups by their frequency, every frequency is there once. *)
  Definition grouped {K} (want : list (K * Z)) (groups : list (Z * list K)) : Prop :=
    NoDup (map fst groups) /\ forall k f, In (k, f) want <-> exists ks, In (f, ks) groups /\ In k ks.
End Spec.

(** The scopes that do not depend on the platform. *)
Definition pstates_scopes : list (string * scope) :=
  [("turbo", SGlobal); ("min_freq", SCPU); ("max_freq", SCPU); ("min_freq_limit", SCPU); ("max_freq_limit", SCPU); ("base_freq", SCPU);
   ("min_oper_freq", SCPU); ("max_eff_freq", SCPU); ("max_turbo_freq", SCPU); ("frequencies", SCPU); ("min_uncore_freq", SDie);
   ("max_uncore_freq", SDie); ("min_uncore_freq_limit", SDie); ("max_uncore_freq_limit", SDie); ("hwp", SGlobal); ("epp", SCPU);
   ("driver", SGlobal); ("intel_pstate_mode", SGlobal); ("governor", SCPU); ("governors", SGlobal)]%string.
Definition cstates_scopes : list (string * scope) :=
  [("pkg_cstate_limits", SGlobal); ("pkg_cstate_limit_aliases", SGlobal); ("idle_driver", SGlobal); ("governor", SGlobal);
   ("governors", SGlobal)]%string.
(** Those that are the scopes of a field of a register. *)
Definition cstates_fields : list (string * obj) :=
  [("pkg_cstate_limit", PCStateObj); ("pkg_cstate_limit_lock", PCStateObj); ("c1_demotion", PCStateObj); ("c1_undemotion", PCStateObj);
   ("c1e_autopromote", PowerCtlObj); ("cstate_prewake", PowerCtlObj)]%string.

(** The frequencies: the property, the mechanism, the object behind it, whether it is a minimum, and the method that sets it. *)
Definition freq_sinks : list (string * string * obj * bool * string) :=
  [("min_freq", "sysfs", CpufreqSysfs, true, "set_min_freq"); ("min_freq", "msr", CpufreqMsr, true, "set_min_freq");
   ("max_freq", "sysfs", CpufreqSysfs, false, "set_max_freq"); ("max_freq", "msr", CpufreqMsr, false, "set_max_freq")]%string.
Definition uncore_sinks : list (string * bool * string) :=
  [("min_uncore_freq", true, "set_min_freq_dies"); ("max_uncore_freq", false, "set_max_freq_dies")]%string.
