(** Model of the other settings of Linux CPU frequency drivers: class CPUFreqSysfs (driver, 'intel_pstate' mode,
    turbo, governor, base frequency, list of frequencies) and class CPUFreqCPPC of pepclibs/_CPUFreq.py. *)
From Coq Require Import Ascii String.
From Verif Require Import Base M_Text M_Sysfs.
Open Scope list_scope.

(** ** Files: _CPUFreq.py:125-128, 299, 308, 347, 374, 442-443, 521, 535, 590, 631-634 *)
Definition sysfs_base : str := s2l "/sys/devices/system/cpu".
Definition policy_path (cpu : Z) (fname : str) : str :=
  sysfs_base ++ s2l "/cpufreq/policy" ++ dec cpu ++ s2l "/" ++ fname.
Definition driver_path (cpu : Z) : str := policy_path cpu (s2l "scaling_driver").
Definition governor_path (cpu : Z) : str := policy_path cpu (s2l "scaling_governor").
Definition governors_path (cpu : Z) : str := policy_path cpu (s2l "scaling_available_governors").
Definition frequencies_path (cpu : Z) : str := policy_path cpu (s2l "scaling_available_frequencies").
Definition base_path (cpu : Z) : str := policy_path cpu (s2l "base_frequency").
Definition bios_limit_path (cpu : Z) : str := sysfs_base ++ s2l "/cpu" ++ dec cpu ++ s2l "/cpufreq/bios_limit".
Definition status_path : str := sysfs_base ++ s2l "/intel_pstate/status".
Definition no_turbo_path : str := sysfs_base ++ s2l "/intel_pstate/no_turbo".
Definition boost_path : str := sysfs_base ++ s2l "/cpufreq/boost".
Definition cppc_path (cpu : Z) (fname : str) : str :=
  sysfs_base ++ s2l "/cpu" ++ dec cpu ++ s2l "/acpi_cppc/" ++ fname.

(** ** Names *)
Definition intel_pstate : str := s2l "intel_pstate".
Definition intel_cpufreq : str := s2l "intel_cpufreq".
Definition acpi_cpufreq : str := s2l "acpi-cpufreq".
Definition m_off : str := s2l "off".
Definition m_on : str := s2l "on".
Definition pstate_modes : list str := [s2l "active"; s2l "passive"; m_off].
Definition on_off (b : bool) : str := if b then m_on else m_off.

(** The word lists that are compared with "in" *)
Definition str_in (x : str) (l : list str) : bool := existsb (str_eqb x) l.

(** Does "except Error" catch the exception? The classes of Exceptions.py, not the built-in ones. *)
Definition catches_error (e : exc) : bool :=
  match e with EOverflow | EKey | EValue | EIndex | EUnbound => false | _ => true end.

(** str.split() without arguments: the words between white space *)
Fixpoint words_from (l : str) (cur : str) : list str :=
  match l with
  | [] => match cur with [] => [] | _ => [rev cur] end
  | c :: t => if is_space c then match cur with [] => words_from t [] | _ => rev cur :: words_from t [] end
              else words_from t (c :: cur)
  end.
Definition words (l : str) : list str := words_from l [].

(** Python "==" between the boolean that is_feature_enabled() yields (_FeaturedMSR.py:261-263) and a string
    (_CPUFreq.py:428): never true. *)
Definition bool_eq_str (b : bool) (t : str) : bool := false.

Section CFreq.
  (** The kernel and the cache; does the directory "/sys/devices/system/cpu/intel_pstate" exist? (it does not come
      or go while the tool runs); what get_hwp() gives for a CPU (_CPUFreq.py:1212-1219), or the exception. *)
  Variable k : senv.
  Variable has_dir : bool.
  Variable hwp : Z -> res bool.

  (** ** Driver *)

  (** _CPUFreq.py:346-364: one step of get_driver() *)
  Definition driver_cpu (cpu : Z) : M sstate str := fun s =>
    match s_read k (driver_path cpu) s with
    | (Ok name, s') => (Ok (if str_eqb name intel_cpufreq then intel_pstate else name), s')
    | (Exn ENotSupported, s') => (if has_dir then Ok intel_pstate else Exn ENotSupported, s')
    | (Exn e, s') => (Exn e, s')
    end.

  (** _CPUFreq.py:337-364 get_driver() *)
  Definition get_driver (cpus : list Z) : M sstate (list (Z * str)) :=
    mmap cpus (fun cpu => let! d := driver_cpu cpu in ret (cpu, d)).

  (** ** Mode *)

  (** _CPUFreq.py:376-381: one step of get_intel_pstate_mode() *)
  Definition mode_cpu (cpu : Z) : M sstate str :=
    let! d := driver_cpu cpu in
    if negb (str_eqb d intel_pstate) then throw ENotSupported else s_read k status_path.

  (** _CPUFreq.py:366-381 get_intel_pstate_mode() *)
  Definition get_mode (cpus : list Z) : M sstate (list (Z * str)) :=
    mmap cpus (fun cpu => let! m := mode_cpu cpu in ret (cpu, m)).

  (** _CPUFreq.py:396, 441, 518: 'what' *)
  Definition mode_what : option str := Some (s2l "'intel_pstate' driver mode").
  Definition turbo_what : option str := Some (s2l "turbo on/off status").
  Definition governor_what : option str := Some (s2l "CPU frequency governor").

  (** _CPUFreq.py:410-432: the write failed *)
  Definition mode_failed (mode curmode : str) (cpu : Z) (e : exc) : res unit :=
    if negb (catches_error e) then Exn e
    else if negb (str_eqb mode m_off) then Exn e
    else if str_eqb curmode m_off then Ok tt
    else match hwp cpu with
         | Exn x => if catches_error x then Exn e else Exn x
         | Ok b => if bool_eq_str b m_on then Exn ENotSupported else Exn e
         end.

  (** _CPUFreq.py:402-432: one step of the loop. The two generators advance in turn. *)
  Definition set_mode_cpu (mode : str) (cpu : Z) : M sstate unit :=
    let! d := driver_cpu cpu in
    let! curmode := mode_cpu cpu in
    if negb (str_eqb d intel_pstate) then throw ENotSupported
    else fun s => match s_write k status_path mode mode_what s with
                  | (Ok tt, s') => (Ok tt, s')
                  | (Exn e, s') => (mode_failed mode curmode cpu e, s')
                  end.

  (** _CPUFreq.py:383-432 set_intel_pstate_mode() *)
  Definition set_mode (mode : str) (cpus : list Z) : M sstate unit :=
    if negb (str_in mode pstate_modes) then throw EError else mfor cpus (set_mode_cpu mode).

  (** ** Turbo *)

  (** _CPUFreq.py:451-461 and 491-501: reading or writing "no_turbo" failed *)
  Definition turbo_failed (cpu : Z) (e : exc) {A : Type} : M sstate A := fun s =>
    if negb (catches_error e) then (Exn e, s)
    else match mode_cpu cpu s with
         | (Exn x, s') => (if catches_error x then Exn EError else Exn x, s')
         | (Ok mode, s') => (if negb (str_eqb mode m_off) then Exn e else Exn ENotSupported, s')
         end.

  (** _CPUFreq.py:447-471: one step of get_turbo() *)
  Definition turbo_cpu (cpu : Z) : M sstate str :=
    let! d := driver_cpu cpu in
    if str_eqb d intel_pstate then
      fun s => match s_read_int k no_turbo_path s with
               | (Ok disabled, s') => (Ok (on_off (disabled =? 0)), s')
               | (Exn e, s') => turbo_failed cpu e s'
               end
    else if str_eqb d acpi_cpufreq then
      let! enabled := s_read_int k boost_path in ret (on_off (negb (enabled =? 0)))
    else throw ENotSupported.

  (** _CPUFreq.py:434-471 get_turbo() *)
  Definition get_turbo (cpus : list Z) : M sstate (list (Z * str)) :=
    mmap cpus (fun cpu => let! v := turbo_cpu cpu in ret (cpu, v)).

  (** str(int(b)) *)
  Definition bool_text (b : bool) : str := if b then s2l "1" else s2l "0".

  (** _CPUFreq.py:486-509: one step of set_turbo() *)
  Definition set_turbo_cpu (enable : bool) (cpu : Z) : M sstate unit :=
    let! d := driver_cpu cpu in
    if str_eqb d intel_pstate then
      fun s => match s_write k no_turbo_path (bool_text (negb enable)) turbo_what s with
               | (Ok tt, s') => (Ok tt, s')
               | (Exn e, s') => turbo_failed cpu e s'
               end
    else if str_eqb d acpi_cpufreq then s_write k boost_path (bool_text enable) turbo_what
    else throw ENotSupported.

  (** _CPUFreq.py:473-509 set_turbo() *)
  Definition set_turbo (enable : bool) (cpus : list Z) : M sstate unit := mfor cpus (set_turbo_cpu enable).

  (** ** Governor *)

  (** _CPUFreq.py:511-523 get_governor() *)
  Definition get_governor (cpus : list Z) : M sstate (list (Z * str)) :=
    mmap cpus (fun cpu => let! g := s_read k (governor_path cpu) in ret (cpu, g)).

  (** _CPUFreq.py:534-537: one step of get_available_governors() *)
  Definition governors_cpu (cpu : Z) : M sstate (list str) :=
    let! names := s_read k (governors_path cpu) in
    ret (split_csv_line " "%char false false names).

  (** _CPUFreq.py:525-537 get_available_governors() *)
  Definition get_available_governors (cpus : list Z) : M sstate (list (Z * list str)) :=
    mmap cpus (fun cpu => let! l := governors_cpu cpu in ret (cpu, l)).

  (** _CPUFreq.py:549-556: one step of set_governor() *)
  Definition set_governor_cpu (governor : str) (cpu : Z) : M sstate unit :=
    let! l := governors_cpu cpu in
    if negb (str_in governor l) then throw EError
    else s_write k (governor_path cpu) governor governor_what.

  (** _CPUFreq.py:539-556 set_governor() *)
  Definition set_governor (governor : str) (cpus : list Z) : M sstate unit := mfor cpus (set_governor_cpu governor).

  (** ** Frequencies *)

  (** _CPUFreq.py:280-293 get_available_frequencies() *)
  Definition frequencies_cpu (cpu : Z) : M sstate (list Z) :=
    let! val := s_read k (frequencies_path cpu) in
    match rmap (words val) str_to_int with
    | Ok l => ret (zsort (map (fun f => f * 1000) l))
    | Exn _ => throw EError
    end.
  Definition get_available_frequencies (cpus : list Z) : M sstate (list (Z * list Z)) :=
    mmap cpus (fun cpu => let! l := frequencies_cpu cpu in ret (cpu, l)).

  (** A generator that reads a number for every CPU, as far as it comes: what it yields, and the exception *)
  Fixpoint gen_read (rd : Z -> M sstate Z) (cpus : list Z) : sstate -> list (Z * Z) * option exc * sstate := fun s =>
    match cpus with
    | [] => ([], None, s)
    | cpu :: t =>
        match rd cpu s with
        | (Ok v, s1) => let '(l, e, s2) := gen_read rd t s1 in ((cpu, v) :: l, e, s2)
        | (Exn e, s1) => ([], Some e, s1)
        end
    end.

  (** _CPUFreq.py:298-302: one step of _get_base_freq_intel_pstate() *)
  Definition base_freq_pstate_cpu (cpu : Z) : M sstate Z :=
    let! f := s_read_int k (base_path cpu) in ret (f * 1000).

  (** _CPUFreq.py:304-311 _get_base_freq_bios_limit() *)
  Definition base_freq_bios (cpus : list Z) : M sstate (list (Z * Z)) :=
    mmap cpus (fun cpu => let! f := s_read_int k (bios_limit_path cpu) in ret (cpu, f * 1000)).

  (** _CPUFreq.py:313-335 get_base_freq() *)
  Definition get_base_freq (cpus : list Z) : M sstate (list (Z * Z)) := fun s =>
    match gen_read base_freq_pstate_cpu cpus s with
    | (l, None, s') => (Ok l, s')
    | (l, Some ENotSupported, s') =>
        let left := filter (fun cpu => negb (existsb (Z.eqb cpu) (map fst l))) cpus in
        match base_freq_bios left s' with
        | (Ok l2, s'') => (Ok (l ++ l2), s'')
        | (Exn e, s'') => (Exn e, s'')
        end
    | (_, Some e, s') => (Exn e, s')
    end.

  (** ** CPPC *)

  (** _CPUFreq.py:636-655 _read_cppc_sysfs_file(). The cache holds the number instead of the text after it; the
      model keeps its decimal text, which reads as the same number. *)
  Definition read_cppc (cpu : Z) (fname : str) : M sstate Z := fun s =>
    match s_read_int k (cppc_path cpu fname) s with
    | (Exn e, s') => (if catches_error e then Exn ENotSupported else Exn e, s')
    | (Ok v, s') => if v =? 0 then (Exn ENotSupported, s')
                    else (let! _ := cache_add k (cppc_path cpu fname) (dec v) in ret v) s'
    end.

  (** _CPUFreq.py:657-742: the readers of CPPC files; frequencies are in MHz there *)
  Definition cppc_read_all (fname : str) (unit : Z) (cpus : list Z) : M sstate (list (Z * Z)) :=
    mmap cpus (fun cpu => let! v := read_cppc cpu fname in ret (cpu, v * unit)).
  Definition cppc_min_freq_limit := cppc_read_all (s2l "lowest_freq") 1000000.
  Definition cppc_max_freq_limit := cppc_read_all (s2l "highest_freq") 1000000.
  Definition cppc_base_freq := cppc_read_all (s2l "nominal_freq") 1000000.
  Definition cppc_min_perf_limit := cppc_read_all (s2l "lowest_perf") 1.
  Definition cppc_max_perf_limit := cppc_read_all (s2l "highest_perf") 1.
  Definition cppc_base_perf := cppc_read_all (s2l "nominal_perf") 1.

  (** PStates.py:364-398 _get_cppc_freq() for "max_turbo_freq" and "min_oper_freq". [base] is
      _get_prop_cpus_mnames("base_freq", cpus). Simplification: the three generators at the end run one after the
      other instead of in turn, which makes a difference only to which exception comes first. *)
  Definition cppc_freq (base : list Z -> M sstate (list (Z * Z))) (is_max : bool) (cpus : list Z) :
    M sstate (list (Z * Z)) := fun s =>
    match gen_read (fun cpu => let! v := read_cppc cpu (s2l (if is_max then "highest_freq" else "lowest_freq")) in
                               ret (v * 1000000)) cpus s with
    | (l, None, s') => (Ok l, s')
    | (l, Some ENotSupported, s') =>
        (let! b := base cpus in
         let! n := cppc_base_perf cpus in
         let! p := (if is_max then cppc_max_perf_limit else cppc_min_perf_limit) cpus in
         ret (l ++ map (fun x => let '((cpu, base_freq), ((_, nominal_perf), (_, perf))) := x in
                                 (cpu, (base_freq * perf) / nominal_perf)) (combine b (combine n p)))) s'
    | (_, Some e, s') => (Exn e, s')
    end.
End CFreq.

(** PStates.py:594-598: the loop of _get_frequencies_intel(). [n] bounds the number of rounds. *)
Fixpoint freq_loop (n : nat) (freq max_freq bclk : Z) : list Z :=
  match n with
  | O => []
  | S n' => if freq <=? max_freq then freq :: freq_loop n' (freq + bclk) max_freq bclk else []
  end.

(** PStates.py:577-600 _get_frequencies_intel(), one step: the driver, the minimum and maximum frequency and the
    bus clock of the CPU are given. The loop takes one round for every value it adds; it does not end if the bus
    clock is not positive, then the model gives too short a list. *)
Definition frequencies_intel (driver : str) (min_freq max_freq bclk : Z) : res (list Z) :=
  if negb (str_eqb driver intel_pstate) then Exn ENotSupported
  else Ok (freq_loop (Z.to_nat (max_freq - min_freq + 1)) min_freq max_freq bclk).
