(** Model of the CPU frequencies that are read from MSRs: pepclibs/_CPUFreq.py, class CPUFreqMSR, the base, minimum
    operating, maximum efficiency and maximum turbo frequencies and the HWP status; pepclibs/BClock.py and the bus
    clock of pepclibs/PStates.py. *)
From Coq Require Import Ascii String.
From Verif Require Import Base M_CPUInfo M_Text M_MSR M_FMSR M_HWP.

(** The register objects of class CPUFreqMSR beside those of [hwp] (_CPUFreq.py:1018-1044, 834-853): MSR_HWP_CAPABILITIES,
    MSR_PLATFORM_INFO, MSR_TURBO_RATIO_LIMIT and MSR_PM_ENABLE, or the exception of the constructor, and the CPU flags.
    Simplification: the objects exist from the beginning; what the constructor of HWPCapabilities reads of MSR_PM_ENABLE
    is in [fr_supp]. *)
Record fregs := FGS {
  fg_cap : res freg;
  fg_plat : res freg;
  fg_trl : res freg;
  fg_pm : res freg;
  fg_flags : Z -> list str }.

(** PlatformInfo.py:73-107 FEATURES *)
Definition platform_feats (ios : option scope) : list (str * feature) :=
  named [ ("max_non_turbo_ratio", fint 15 8 ios false); ("max_eff_ratio", fint 47 40 ios false);
          ("min_oper_ratio", fint 55 48 ios false) ]%string.
(** TurboRatioLimit.py:62-86 FEATURES: both features are the same bits *)
Definition trl_feats (ios : option scope) : list (str * feature) :=
  named [ ("max_1c_turbo_ratio", fint 7 0 ios false); ("max_g0_turbo_ratio", fint 7 0 ios false) ]%string.

(** The three frequencies in MSR_PLATFORM_INFO, and the turbo frequency *)
Inductive fkind := KBase | KMinOper | KMaxEff | KTurbo.

(** The feature names: _CPUFreq.py:1122, 1139, 1156 *)
Definition plat_name (q : fkind) : str :=
  s2l (match q with KBase => "max_non_turbo_ratio" | KMinOper => "min_oper_ratio" | KMaxEff => "max_eff_ratio"
       | KTurbo => "max_1c_turbo_ratio" end)%string.
(** _CPUFreq.py:1123, 1140, 1157, 1208 *)
Definition cap_name (q : fkind) : str :=
  s2l (match q with KBase => "base_perf" | KMinOper => "min_perf" | KMaxEff => "eff_perf" | KTurbo => "max_perf" end)%string.

Section FRead.
  Variable env : menv.
  Variable x : hwp.
  Variable g : fregs.

  (** The check of the "fsb" feature for all the CPUs, when the generator of the bus clocks starts (_CPUFreq.py:845). *)
  Definition check_fsb (cpus : list Z) : res unit :=
    match hw_fsb x with
    | Ok fsb => validate_feature_supported env fsb (s2l "fsb"%string) (Some cpus)
    | Exn _ => Ok tt
    end.

  (** A loop over zip() of the bus clocks and of the values of feature [n] (_CPUFreq.py:1056-1061, 1073-1078,
      1171-1177, 1179-1187). The two generators check the feature for all the CPUs when they start, that is, while
      handling the first CPU, and then go on CPU by CPU. Repeating the checks, which have no effects, for each CPU makes no
      difference. *)
  Definition ratio_loop (fr : freg) (n : str) (conv : Z -> Z -> Z -> Z) (cpus : list Z) : M mstate (list (Z * Z)) :=
    mmap cpus (fun c =>
      lift (check_fsb cpus) ;;
      let! bclk := get_bclk env x c in
      lift (validate_feature_supported env fr n (Some cpus)) ;;
      let! ratio := read_num env fr n c in
      ret (c, conv c ratio bclk)).

  (** _CPUFreq.py:1061: ratio to frequency *)
  Definition ratio_to_freq (c ratio bclk : Z) : Z := ratio * bclk.

  (** _CPUFreq.py:1046-1061 _get_patinfo_freq() *)
  Definition platinfo_freq (n : str) (cpus : list Z) : M mstate (list (Z * Z)) :=
    match cpus with
    | [] => ret []
    | _ => let! fr := lift (fg_plat g) in ratio_loop fr n ratio_to_freq cpus
    end.

  (** _CPUFreq.py:1063-1078 _get_hwpcap_freq() *)
  Definition hwpcap_freq (n : str) (cpus : list Z) : M mstate (list (Z * Z)) :=
    match cpus with
    | [] => ret []
    | _ => let! fr := lift (fg_cap g) in ratio_loop fr n (perf_to_freq x) cpus
    end.

  (** _CPUFreq.py:1161-1192 _get_max_turbo_freq_trl(). What the first loop yielded before it failed is yielded again
      by the second one, and the caller keeps the last value of a CPU. *)
  Definition trl_freq (cpus : list Z) : M mstate (list (Z * Z)) :=
    match cpus with
    | [] => ret []
    | _ =>
        let! fr := lift (fg_trl g) in
        fun s => match ratio_loop fr (s2l "max_1c_turbo_ratio"%string) ratio_to_freq cpus s with
                 | (Exn ENotSupported, s1) => ratio_loop fr (s2l "max_g0_turbo_ratio"%string) ratio_to_freq cpus s1
                 | r => r
                 end
    end.

  (** _CPUFreq.py:1080-1094 _get_from_2_iterators(): the dictionary 'result' *)
  Fixpoint add_second (d : list (Z * Z)) (l : list (Z * Z)) : res (list (Z * Z)) :=
    match l with
    | [] => Ok d
    | (c, f) :: t => if existsb (Z.eqb c) (map fst d) then Exn EError else add_second (dset Z.eqb d c f) t
    end.
  Definition from_2 (cpus : list Z) (l1 l2 : list (Z * Z)) : res (list (Z * Z)) :=
    let? d := add_second (fold_left (fun d cf => dset Z.eqb d (fst cf) (snd cf)) l1 []) l2 in
    rmap cpus (fun c => match dget Z.eqb d c with Some f => Ok (c, f) | None => Exn EKey end).

  (** _CPUFreq.py:1096-1108 _split_cpus() *)
  Definition is_hwp (c : Z) : bool := existsb (str_eqb (s2l "hwp"%string)) (fg_flags g c).

  (** _CPUFreq.py:1110-1159, 1194-1210 get_base_freq(), get_min_oper_freq(), get_max_eff_freq(), get_max_turbo_freq().
      Simplification: the two generators are run to their ends one after the other, as the dictionary is filled. *)
  Definition get_rated (q : fkind) (cpus : list Z) : M mstate (list (Z * Z)) :=
    let leg := filter (fun c => negb (is_hwp c)) cpus in
    let hwps := filter is_hwp cpus in
    let! l1 := match q with KTurbo => trl_freq leg | _ => platinfo_freq (plat_name q) leg end in
    let! l2 := hwpcap_freq (cap_name q) hwps in
    lift (from_2 cpus l1 l2).

  (** _CPUFreq.py:1212-1219 get_hwp() *)
  Definition get_hwp (cpus : list Z) : M mstate (list (Z * bool)) :=
    let! pm := lift (fg_pm g) in is_feature_enabled env pm (s2l "hwp"%string) (Some cpus).

  (** PStates.py:617-642 _get_bus_clock(), mechanism "msr" *)
  Definition bus_clock_msr (cpus : list Z) : M mstate (list (Z * Z)) :=
    let! fsb := lift (hw_fsb x) in
    let! l := read_feature env fsb (s2l "fsb"%string) (Some cpus) in
    lift (rmap l (fun cv => match snd cv with VInt khz => Ok (fst cv, khz * 1000) | _ => Exn EError end)).

  (** PStates.py:617-642 _get_bus_clock(), mechanism "doc" *)
  Definition bus_clock_doc (cpus : list Z) : res (list (Z * Z)) :=
    match hw_fsb x with
    | Exn ENotSupported => if hw_intel x then Ok (map (fun c => (c, 100000000)) cpus) else Exn ENotSupported
    | Exn e => Exn e
    | Ok _ => Exn ETryAnother
    end.
End FRead.
