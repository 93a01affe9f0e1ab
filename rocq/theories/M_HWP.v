(** Model of the settings in the HWP request registers: pepclibs/msr/HWPRequest.py, the CPU frequency part
    of pepclibs/_CPUFreq.py (class CPUFreqMSR), and the EPP part of pepclibs/EPP.py that uses MSRs. *)
From Coq Require Import Ascii String.
From Verif Require Import Base M_CPUInfo M_Text M_MSR M_FMSR.

(** The settings, by feature name (HWPRequest.py:25-99) *)
Inductive hset := HMin | HMax | HEpp.
Definition hname (k : hset) : str :=
  s2l (match k with HMin => "min_perf" | HMax => "max_perf" | HEpp => "epp" end)%string.
(** f"{fname}_valid" *)
Definition hvalid (k : hset) : str := hname k ++ s2l "_valid"%string.

(** The register objects, which are created when they are needed first (_CPUFreq.py:813-871, EPP.py:30-50):
    MSR_HWP_REQUEST, MSR_HWP_REQUEST_PKG, MSR_FSB_FREQ, or the exception their constructor raises. Is the vendor
    "GenuineIntel"? The P-core CPUs of a hybrid system (none otherwise), and the scaling factor
    (_CPUFreq.py:1221-1232, 1269-1272). Simplification: the objects exist from the beginning; what their
    constructors read of MSR_PM_ENABLE is in [fr_supp]. *)
Record hwp := HW {
  hw_req : res freg;
  hw_pkg : res freg;
  hw_fsb : res freg;
  hw_intel : bool;
  hw_pcores : list Z;
  hw_factor : Z }.

(** _CPUFreq.py:1221-1232 _init_scaling_factor() *)
Definition scaling_factors : list Z := [80000000; 86957000; 78741000].

Section HWP.
  Variable env : menv.
  Variable x : hwp.

  (** _FeaturedMSR.py:230-243 read_cpu_feature() of a feature with numbers *)
  Definition read_num (fr : freg) (fname : str) (c : Z) : M mstate Z :=
    let! l := read_feature env fr fname (Some [c]) in
    match l with (_, VInt n) :: _ => ret n | _ => throw EError end.

  (** _FeaturedMSR.py:267-280 is_cpu_feature_enabled() *)
  Definition is_cpu_enabled (fr : freg) (fname : str) (c : Z) : M mstate bool :=
    let! l := is_feature_enabled env fr fname (Some [c]) in
    match l with (_, b) :: _ => ret b | _ => throw EError end.

  (** HWPRequest.py:111-131 is_cpu_feature_pkg_controlled() *)
  Definition is_pkg_controlled (fr : freg) (k : hset) (c : Z) : M mstate bool :=
    fun s => match is_cpu_enabled fr (s2l "pkg_control"%string) c s with
             | (Exn ENotSupported, s1) => (Ok false, s1)
             | (Exn e, s1) => (Exn e, s1)
             | (Ok false, s1) => (Ok false, s1)
             | (Ok true, s1) => (let! v := is_cpu_enabled fr (hvalid k) c in ret (negb v)) s1
             end.

  (** HWPRequest.py:133-147 disable_cpu_feature_pkg_control() *)
  Definition disable_pkg_control (fr : freg) (k : hset) (c : Z) : M mstate unit :=
    fun s => match is_cpu_enabled fr (s2l "pkg_control"%string) c s with
             | (Exn ENotSupported, s1) => (Ok tt, s1)
             | (Exn e, s1) => (Exn e, s1)
             | (Ok false, s1) => (Ok tt, s1)
             | (Ok true, s1) => write_feature env fr (hvalid k) (VStr (s2l "on"%string)) (Some [c]) s1
             end.

  (** ** Frequencies *)

  (** _CPUFreq.py:830-847 _get_bclks(), one step; the bus clock is in kHz in the model of the register.
      Simplification: the product with 1000000 is exact. *)
  Definition get_bclk (c : Z) : M mstate Z :=
    match hw_fsb x with
    | Exn ENotSupported => if hw_intel x then ret 100000000 else throw ENotSupported
    | Exn e => throw e
    | Ok fsb => let! khz := read_num fsb (s2l "fsb"%string) c in ret (khz * 1000)
    end.

  (** _CPUFreq.py:873-897 _perf_to_freq() *)
  Definition perf_to_freq (c perf bclk : Z) : Z :=
    if inb c (hw_pcores x) then
      let freq := perf * hw_factor x in freq - freq mod bclk
    else perf * bclk.

  (** _CPUFreq.py:914-924: the first loop of _get_freq_msr(). It stops at a CPU with package control. *)
  Fixpoint get_freq_loop1 (fr : freg) (k : hset) (cpus : list Z) : M mstate (list (Z * Z) * bool) :=
    match cpus with
    | [] => ret ([], false)
    | c :: t =>
        let! bclk := get_bclk c in
        let! perf := read_num fr (hname k) c in
        let! b := is_pkg_controlled fr k c in
        if b : bool then ret ([], true)
        else let! (l, again) := get_freq_loop1 fr k t in
             ret ((c, perf_to_freq c perf bclk) :: l, again)
    end.

  (** _CPUFreq.py:934-943: the second loop *)
  Definition get_freq_loop2 (fr pkg : freg) (k : hset) (cpus : list Z) : M mstate (list (Z * Z)) :=
    mmap cpus (fun c =>
      let! bclk := get_bclk c in
      let! perf := read_num fr (hname k) c in
      let! perf_pkg := read_num pkg (hname k) c in
      let! b := is_pkg_controlled fr k c in
      ret (c, perf_to_freq c (if b : bool then perf_pkg else perf) bclk)).

  (** _CPUFreq.py:899-943 _get_freq_msr(). The generators check the features for all the CPUs when they are
      started, and then go on CPU by CPU. *)
  Definition get_freq_msr (k : hset) (cpus : list Z) : M mstate (list (Z * Z)) :=
    let! fr := lift (hw_req x) in
    lift (validate_feature_supported env fr (hname k) (Some cpus)) ;;
    let! (l, again) := get_freq_loop1 fr k cpus in
    if again : bool then
      let left := filter (fun c => negb (inb c (map fst l))) cpus in
      let! pkg := lift (hw_pkg x) in
      lift (validate_feature_supported env fr (hname k) (Some left)) ;;
      lift (validate_feature_supported env pkg (hname k) (Some left)) ;;
      let! l2 := get_freq_loop2 fr pkg k left in
      ret (l ++ l2)
    else ret l.

  (** _CPUFreq.py:975-981: package control is disabled, on all CPUs; ErrorNotSupported is ignored *)
  Definition disable_all_pkg_control (fr : freg) (k : hset) : M mstate unit :=
    fun s => match (let! l := is_feature_enabled env fr (s2l "pkg_control"%string) None in
                    write_feature env fr (hvalid k) (VStr (s2l "on"%string))
                      (Some (map fst (filter (fun ce => snd ce) l)))) s with
             | (Exn ENotSupported, s1) => (Ok tt, s1)
             | r => r
             end.

  (** _CPUFreq.py:987-990: frequency to performance. Simplification: the division of floating point numbers,
      which is exact enough for numbers below 2^53, is a division of integers. *)
  Definition freq_to_perf (c freq bclk : Z) : Z :=
    if inb c (hw_pcores x) then (freq + hw_factor x - 1) / hw_factor x else freq / bclk.

  (** _CPUFreq.py:983-993: the dictionary 'vals' *)
  Definition add_perf (d : list (Z * list Z)) (cp : Z * Z) : list (Z * list Z) :=
    match dget Z.eqb d (snd cp) with
    | None => dset Z.eqb d (snd cp) [fst cp]
    | Some l => dset Z.eqb d (snd cp) (l ++ [fst cp])
    end.

  (** _CPUFreq.py:967-996 _set_freq_msr() *)
  Definition set_freq_msr (k : hset) (freq : Z) (cpus : list Z) : M mstate unit :=
    let! fr := lift (hw_req x) in
    disable_all_pkg_control fr k ;;
    let! l := mmap cpus (fun c => let! bclk := get_bclk c in ret (c, freq_to_perf c freq bclk)) in
    mfor (fold_left add_perf l []) (fun vc => write_feature env fr (hname k) (VInt (fst vc)) (Some (snd vc))).

  (** ** EPP *)

  (** EPP.py:86-101 _read_from_msr(). None: it is not supported. *)
  Definition epp_read_msr (c : Z) : M mstate (option Z) :=
    match hw_req x with
    | Exn ENotSupported => ret None
    | Exn e => throw e
    | Ok fr =>
        let! b := is_pkg_controlled fr HEpp c in
        let! fr' := if b : bool then lift (hw_pkg x) else ret fr in
        fun s => match read_num fr' (hname HEpp) c s with
                 | (Ok n, s1) => (Ok (Some n), s1)
                 | (Exn ENotSupported, s1) => (Ok None, s1)
                 | (Exn e, s1) => (Exn e, s1)
                 end
    end.

  (** EPP.py:103-112 _write_to_msr(); the number comes as a string of decimal digits (_EPBase.py:164) that
      MSR.set_bits() converts (MSR.py:459-462) *)
  Definition epp_write_msr (v c : Z) : M mstate unit :=
    let! fr := lift (hw_req x) in
    disable_pkg_control fr HEpp c ;;
    write_feature env fr (hname HEpp) (VInt v) (Some [c]).
End HWP.
