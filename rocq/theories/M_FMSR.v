(** Model of featured MSRs: pepclibs/msr/_FeaturedMSR.py and the feature tables of its sub-classes. *)
From Coq Require Import Ascii String.
From Verif Require Import Base M_CPUInfo M_Text M_Osa M_MSR.

(** A feature value given or returned: a string, a boolean or a number. Floating point values (the bus clock in
    MHz) are represented by the number of kHz. *)
Inductive fval := VStr (s : str) | VBool (b : bool) | VInt (n : Z).

Definition fval_eqb (a b : fval) : bool :=
  match a, b with
  | VStr x, VStr y => str_eqb x y
  | VBool x, VBool y => Bool.eqb x y
  | VInt x, VInt y => x =? y
  | _, _ => false
  end.

Inductive ftype := FBool | FDict | FInt | FFloat.

Definition ftype_eqb (a b : ftype) : bool :=
  match a, b with FBool, FBool | FDict, FDict | FInt, FInt | FFloat, FFloat => true | _, _ => false end.

(** An entry of the 'FEATURES' dictionary (_FeaturedMSR.py:24-47). CPU models are numbers, CPU flags
    strings. None: the key is missing, or None in case of 'iosname'. *)
Record feature := FE {
  fe_bits : bits_t;
  fe_ios : option scope;
  fe_type : ftype;
  fe_writable : bool;
  fe_vals : option (list (fval * Z));
  fe_aliases : option (list (str * str));
  fe_models : option (list Z);
  fe_flags : option (list str) }.

(** A featured MSR object: the address, the features, and the 'supported' dictionaries. *)
Record freg := FR {
  fr_addr : Z;
  fr_feats : list (str * feature);
  fr_supp : list (str * list (Z * bool)) }.

(** _FeaturedMSR.py:374-391: the 'supported' dictionary of one feature *)
Definition supported_of (model : Z) (flags : Z -> list str) (cpus : list Z) (fe : feature) : list (Z * bool) :=
  let model_bad := match fe_models fe with Some l => negb (inb model l) | None => false end in
  map (fun c =>
    (c, if model_bad then false
        else match fe_flags fe with
             | None => true
             | Some fl => forallb (fun f => existsb (str_eqb f) (flags c)) fl
             end)) cpus.

(** _FeaturedMSR.py:368-396 _init_supported_flag(), and the constructor as far as it matters; the
    HWP-related classes then clear the flag for CPUs with HWP disabled, [off] (HWPRequest.py,
    HWPRequestPkg.py and HWPCapabilities.py __init__()). *)
Definition init_reg (ci : cpuinfo) (model : Z) (flags : Z -> list str) (off : list Z) (addr : Z)
    (feats : list (str * feature)) : res freg :=
  let cpus := get_cpus ci in
  let supp := map (fun nf => (fst nf, supported_of model flags cpus (snd nf))) feats in
  if existsb (fun ns => existsb snd (snd ns)) supp
  then Ok (FR addr feats (map (fun ns => (fst ns, map (fun cb => (fst cb, snd cb && negb (inb (fst cb) off))) (snd ns))) supp))
  else Exn ENotSupported.

Section Reg.
  Variable env : menv.
  Variable fr : freg.
  Let ci := me_ci env.

  (** The feature dictionary lookup of _check_fname() (_FeaturedMSR.py:133-138) and 81-83 *)
  Definition get_feature (fname : str) : res feature :=
    match dget str_eqb (fr_feats fr) fname with Some fe => Ok fe | None => Exn EError end.

  (** _FeaturedMSR.py:72-105 validate_feature_supported() *)
  Definition validate_feature_supported (fname : str) (cpus : nums_t) : res unit :=
    let? _ := get_feature fname in
    let? l := normalize_cpus ci cpus false in
    let? flags := rmap l (fun c =>
      match dget str_eqb (fr_supp fr) fname with
      | Some d => match dget Z.eqb d c with Some b => Ok b | None => Exn EKey end
      | None => Exn EKey
      end) in
    if forallb (fun b => b) flags then Ok tt else Exn ENotSupported.

  (** _FeaturedMSR.py:107-121 is_feature_supported() *)
  Definition is_feature_supported (fname : str) (cpus : nums_t) : res bool :=
    match validate_feature_supported fname cpus with
    | Ok _ => Ok true
    | Exn ENotSupported => Ok false
    | Exn e => Exn e
    end.

  (** _FeaturedMSR.py:140-157 msr_bits_str(): the key "fname" is a string constant *)
  Definition msr_bits (fname : str) : res bits_t :=
    let? _ := get_feature fname in
    match dget str_eqb (fr_feats fr) (s2l "fname") with Some fe => Ok (fe_bits fe) | None => Exn EKey end.

  (** _FeaturedMSR.py:415-418: the reverse dictionary 'rvals' *)
  Definition rvals (vals : list (fval * Z)) : list (Z * fval) :=
    fold_left (fun d nc => dset Z.eqb d (snd nc) (fst nc)) vals [].

  (** _FeaturedMSR.py:420-427: the dictionary 'vals_nocase'; the names of "bool" and "dict" features
      are strings *)
  Definition vals_nocase (vals : list (fval * Z)) : list (str * Z) :=
    fold_left (fun d nc => match fst nc with VStr s => dset str_eqb d (lower s) (snd nc) | _ => d end) vals [].

  (** _FeaturedMSR.py:429-432: the dictionary 'aliases_nocase' *)
  Definition aliases_nocase (aliases : list (str * str)) : list (str * str) :=
    fold_left (fun d an => dset str_eqb d (lower (fst an)) (snd an)) aliases [].

  (** _FeaturedMSR.py:167-174: the alias resolution; ".lower()" of a non-string is an AttributeError *)
  Definition resolve_alias (fe : feature) (v : fval) : res fval :=
    match fe_aliases fe with
    | None => Ok v
    | Some al =>
      match v with
      | VStr s =>
        match dget str_eqb al s with
        | Some n => Ok (VStr n)
        | None => match dget str_eqb (aliases_nocase al) (lower s) with
                  | Some n => Ok (VStr n)
                  | None => Ok v
                  end
        end
      | _ => Exn EValue
      end
    end.

  (** _FeaturedMSR.py:159-191 _normalize_feature_value() *)
  Definition normalize_feature_value (fe : feature) (v : fval) : res fval :=
    match fe_vals fe with
    | None | Some [] => Ok v
    | Some vals =>
      let? v := resolve_alias fe v in
      let v := if ftype_eqb (fe_type fe) FBool
               then match v with VBool true => VStr (s2l "on") | VBool false => VStr (s2l "off") | _ => v end
               else v in
      match dget fval_eqb vals v with
      | Some c => Ok (VInt c)
      | None =>
        if ftype_eqb (fe_type fe) FBool || ftype_eqb (fe_type fe) FDict then
          match v with
          | VStr s => match dget str_eqb (vals_nocase vals) (lower s) with
                      | Some c => Ok (VInt c)
                      | None => Exn EError
                      end
          | _ => Exn EValue
          end
        else Exn EError
      end
    end.

  (** MSR.read_bits() with the I/O scope of the feature. With iosname None the value read cannot be
      added to the cache: CPUInfo.get_cpu_siblings() raises Error (CPUInfo.py:406-434). *)
  Definition read_bits_ios (a : Z) (b : bits_t) (cpus : nums_t) (ios : option scope) : M mstate (list (Z * Z)) :=
    match ios with
    | Some sn => read_bits env a b cpus sn
    | None =>
      if me_cache env then
        let! l := lift (normalize_cpus ci cpus false) in
        match l with
        | [] => ret []
        | c :: _ => let! _ := hw_read env a c in throw EError
        end
      else read_bits env a b cpus SCPU
    end.

  (** _FeaturedMSR.py:219-228: a code without a name is a KeyError *)
  Definition decode (fe : feature) (code : Z) : res fval :=
    match fe_vals fe with
    | None => Ok (VInt code)
    | Some vals => match dget Z.eqb (rvals vals) code with Some v => Ok v | None => Exn EKey end
    end.

  (** _FeaturedMSR.py:193-228 read_feature() of classes without own '_get' methods *)
  Definition read_feature (fname : str) (cpus : nums_t) : M mstate (list (Z * fval)) :=
    let! _ := lift (validate_feature_supported fname cpus) in
    let! fe := lift (get_feature fname) in
    let! l := read_bits_ios (fr_addr fr) (fe_bits fe) cpus (fe_ios fe) in
    lift (rmap l (fun cc => let? v := decode fe (snd cc) in Ok (fst cc, v))).

  (** _FeaturedMSR.py:245-265 is_feature_enabled() *)
  Definition is_feature_enabled (fname : str) (cpus : nums_t) : M mstate (list (Z * bool)) :=
    let! _ := lift (validate_feature_supported fname cpus) in
    let! fe := lift (get_feature fname) in
    if negb (ftype_eqb (fe_type fe) FBool) then throw EError
    else
      let! l := read_feature fname cpus in
      ret (map (fun cv => (fst cv, fval_eqb (snd cv) (VStr (s2l "on")) || fval_eqb (snd cv) (VStr (s2l "enabled")))) l).

  (** MSR.write_bits() with the value check of MSR.set_bits() (MSR.py:459-462): a number, or a boolean
      taken as a number. A string is rejected after the first register was read (strings of digits, which int() accepts,
      are not modelled). An I/O scope of None fails like in reading. *)
  Definition write_bits_ios (a : Z) (b : bits_t) (v : fval) (cpus : nums_t) (ios : option scope) (vf : bool)
    : M mstate unit :=
    match ios, v with
    | Some sn, VInt n => write_bits env a b (Some n) cpus sn vf
    | Some sn, VBool t => write_bits env a b (Some (Z.b2z t)) cpus sn vf
    | Some sn, VStr _ =>
      let! l := lift (normalize_cpus ci cpus false) in
      match l with
      | [] => ret tt
      | c :: _ => let! _ := read_one env a sn c in throw EError
      end
    | None, _ =>
      let! l := lift (normalize_cpus ci cpus false) in
      match l with
      | [] => ret tt
      | c :: _ => let! _ := hw_read env a c in throw EError
      end
    end.

  (** _FeaturedMSR.py:280-315 write_feature() of classes without own '_set' methods *)
  Definition write_feature (fname : str) (v : fval) (cpus : nums_t) : M mstate unit :=
    let! _ := lift (validate_feature_supported fname cpus) in
    let! fe := lift (get_feature fname) in
    let! v := lift (normalize_feature_value fe v) in
    if negb (fe_writable fe) then throw EError
    else write_bits_ios (fr_addr fr) (fe_bits fe) v cpus (fe_ios fe) false.

  (** _FeaturedMSR.py:329-354 enable_feature(); 1 and 0 equal True and False *)
  Definition enable_feature (fname : str) (enable : fval) (cpus : nums_t) : M mstate unit :=
    let! _ := lift (validate_feature_supported fname cpus) in
    let! fe := lift (get_feature fname) in
    if negb (ftype_eqb (fe_type fe) FBool) then throw EError
    else
      if existsb (fval_eqb enable) [VBool true; VInt 1; VStr (s2l "on"); VStr (s2l "enable")]
      then write_feature fname (VStr (s2l "on")) cpus
      else if existsb (fval_eqb enable) [VBool false; VInt 0; VStr (s2l "off"); VStr (s2l "disable")]
      then write_feature fname (VStr (s2l "off")) cpus
      else throw EError.
End Reg.

(** ** The feature tables *)

(** "type": "int" *)
Definition fint (hi lo : Z) (ios : option scope) (w : bool) : feature :=
  FE (hi, lo) ios FInt w None None None None.
(** "type": "float" without 'vals' *)
Definition ffloat (hi lo : Z) (ios : option scope) (w : bool) : feature :=
  FE (hi, lo) ios FFloat w None None None None.
(** "type": "bool" with the code for "on" *)
Definition fbool (bit on : Z) (ios : option scope) (w : bool) : feature :=
  FE (bit, bit) ios FBool w (Some [(VStr (s2l "on"), on); (VStr (s2l "off"), 1 - on)]) None None None.
(** "type": "dict" *)
Definition fdict (hi lo : Z) (ios : option scope) (codes : list (string * Z)) (aliases : list (string * string)) : feature :=
  FE (hi, lo) ios FDict true (Some (map (fun nc => (VStr (s2l (fst nc)), snd nc)) codes))
     (Some (map (fun an => (s2l (fst an), s2l (snd an))) aliases)) None None.
(** the bus clock table, in kHz *)
Definition ffsb (hi lo : Z) (ios : option scope) (codes : list (Z * Z)) : feature :=
  FE (hi, lo) ios FFloat false (Some (map (fun nc => (VInt (fst nc), snd nc)) codes)) None None None.

Definition named (l : list (string * feature)) : list (str * feature) := map (fun nf => (s2l (fst nf), snd nf)) l.

(** PCStateConfigCtl.py:38-71: codes, aliases, bits *)
Definition pkg_cst_tables : list (Z * Z * list (string * Z) * list (string * string)) :=
  [ (2, 0, [("PC0", 0); ("PC2", 1); ("PC6", 2); ("unlimited", 7)], [("PC6N", "PC6")]);
    (2, 0, [("PC0", 0); ("PC2", 1); ("PC6N", 2); ("PC6R", 3); ("unlimited", 7)], [("PC6", "PC6R")]);
    (3, 0, [("PC0", 0); ("PC2", 1); ("PC3", 2); ("PC6", 3)], []);
    (2, 0, [("PC0", 0); ("PC2", 1); ("PC3", 2); ("PC6", 3); ("unlimited", 7)], []);
    (3, 0, [("PC2", 2); ("PC6", 3); ("unlimited", 0)], []);
    (3, 0, [("PC0", 0); ("PC2", 1); ("PC6", 3); ("PC10", 8)], []);
    (3, 0, [("PC0", 0); ("PC2", 1); ("PC3", 2); ("PC6", 3); ("PC7", 4); ("PC7S", 5); ("PC8", 6); ("PC9", 7);
            ("PC10", 8)], []);
    (3, 0, [("PC0", 0); ("PC2", 1); ("PC3", 2); ("PC6", 3); ("PC7", 4); ("PC7S", 5)], []) ]%string.

(** PCStateConfigCtl.py:128-177 FEATURES with _init_features_dict_pkg_cstate_limit() (254-268) applied *)
Definition pcst_reg (ios : option scope) (t : Z * Z * list (string * Z) * list (string * string)) :=
  let '(hi, lo, codes, aliases) := t in
  named [ ("pkg_cstate_limit", fdict hi lo ios codes aliases);
          ("pkg_cstate_limit_lock", fbool 15 1 ios false);
          ("c1_demotion", fbool 26 1 ios true);
          ("c1_undemotion", fbool 28 1 ios true) ]%string.

(** FSBFreq.py:22-45 *)
Definition fsb_tables : list (Z * Z * list (Z * Z)) :=
  [ (2, 0, [(100000, 5); (133330, 1); (166670, 3); (200000, 2); (266670, 0); (333330, 4); (400000, 6)]);
    (2, 0, [(83000, 7); (100000, 5); (133330, 1); (166670, 3)]);
    (2, 0, [(80000, 4); (83300, 0); (100000, 1); (133300, 2); (116700, 3)]);
    (3, 0, [(83300, 0); (100000, 1); (133300, 2); (116700, 3); (80000, 4); (93300, 5); (90000, 6);
            (88900, 7); (87500, 8)]) ].

(** The register addresses and features of every sub-class; a class whose table depends on the CPU
    model is listed once per variant. [ios] is the I/O scope where it depends on the model. CPU models and flags are
    left out. *)
Definition hwp_request_feats : list (str * feature) := (* HWPRequest.py:24-99 *)
  named [ ("min_perf", fint 7 0 (Some SCPU) true); ("max_perf", fint 15 8 (Some SCPU) true);
          ("epp", fint 31 24 (Some SCPU) true); ("pkg_control", fbool 42 1 (Some SCPU) true);
          ("epp_valid", fbool 60 1 (Some SCPU) true); ("max_perf_valid", fbool 62 1 (Some SCPU) true);
          ("min_perf_valid", fbool 63 1 (Some SCPU) true) ]%string.
Definition hwp_request_pkg_feats (ios : option scope) := (* HWPRequestPkg.py:22-52 *)
  named [ ("min_perf", fint 7 0 ios true); ("max_perf", fint 15 8 ios true); ("epp", fint 31 24 ios true) ]%string.
Definition hwp_cap_feats := (* HWPCapabilities.py:21-58 *)
  named [ ("max_perf", fint 7 0 (Some SCPU) true); ("base_perf", fint 15 8 (Some SCPU) true);
          ("eff_perf", fint 23 16 (Some SCPU) true); ("min_perf", fint 31 24 (Some SCPU) true) ]%string.
Definition epb_feats (ios : option scope) := named [ ("epb", fint 3 0 ios true) ]%string. (* EnergyPerfBias.py:26-38 *)
Definition power_ctl_feats (ios : option scope) := (* PowerCtl.py:45-77 *)
  named [ ("c1e_autopromote", fbool 1 1 ios true); ("cstate_prewake", fbool 30 0 ios true); ("ltr", fbool 35 0 ios true) ]%string.
Definition pm_enable_feats (ios : option scope) := named [ ("hwp", fbool 0 1 ios true) ]%string. (* PMEnable.py:21-33 *)
Definition ppl_feats := (* PackagePowerLimit.py:46-131 *)
  let p := Some SPackage in
  named [ ("limit1", ffloat 14 0 p true); ("limit1_enable", fbool 15 1 p true); ("limit1_clamp", fbool 16 1 p true);
          ("limit1_window", ffloat 23 17 p false); ("limit2", ffloat 46 32 p true); ("limit2_enable", fbool 47 1 p true);
          ("limit2_clamp", fbool 48 1 p true); ("limit2_window", ffloat 55 49 p false) ]%string.
Definition rapl_unit_feats (ios : option scope) := (* RaplPowerUnit.py:44-75 *)
  named [ ("power_units", ffloat 3 0 ios false); ("energy_units", ffloat 12 8 ios false); ("time_units", ffloat 19 16 ios false) ]%string.
Definition uncore_ratio_feats := (* UncoreRatioLimit.py:37-60; the I/O scope is never set (73-79) *)
  named [ ("max_ratio", fint 6 0 None true); ("min_ratio", fint 14 8 None true) ]%string.
(** MiscFeatureControl.py:56-101 with _init_features_dict_bits() (117-130): [phi] for Xeon Phi, where the
    two other features are not supported; [l2ios] is the scope of the L2 prefetcher (141-147) *)
Definition misc_feats (phi : bool) (l2ios : option scope) :=
  let core := Some SCore in
  if phi then named [ ("l2_hw_prefetcher", fbool 1 0 l2ios true); ("dcu_hw_prefetcher", fbool 0 0 core true) ]%string
  else named [ ("l2_hw_prefetcher", fbool 0 0 l2ios true); ("l2_adj_prefetcher", fbool 1 0 core true);
               ("dcu_hw_prefetcher", fbool 2 0 core true); ("dcu_ip_prefetcher", fbool 3 0 core true) ]%string.

Definition all_regs (ios : option scope) : list (Z * list (str * feature)) :=
  map (fun t => (226, pcst_reg ios t)) pkg_cst_tables ++
  map (fun t => (205, named [("fsb"%string, let '(hi, lo, codes) := t in ffsb hi lo ios codes)])) fsb_tables ++
  [ (1908, hwp_request_feats); (1906, hwp_request_pkg_feats ios); (1905, hwp_cap_feats);
    (432, epb_feats ios); (508, power_ctl_feats ios); (1904, pm_enable_feats ios);
    (84, named [("domain_id", fint 15 11 (Some SCPU) false); ("module_id", fint 10 3 (Some SCPU) false);
                ("cpu_id", fint 2 0 (Some SCPU) false)]%string); (* PMLogicalId.py:24-55 *)
    (1556, named [("tdp"%string, ffloat 14 0 (Some SPackage) false)]); (* PackagePowerInfo.py:45-56 *)
    (206, named [("max_non_turbo_ratio", fint 15 8 ios false); ("max_eff_ratio", fint 47 40 ios false);
                 ("min_oper_ratio", fint 55 48 ios false)]%string); (* PlatformInfo.py:73-107 *)
    (1542, rapl_unit_feats ios);
    (2562, named [("sxl", fint 25 16 (Some SPackage) true); ("sxlm", fint 28 26 (Some SPackage) true);
                  ("force_sxl", fbool 30 1 (Some SPackage) true); ("sxl_v", fbool 31 1 (Some SPackage) true)]%string); (* SwLTROvrd.py:28-71 *)
    (429, named [("max_1c_turbo_ratio"%string, fint 7 0 ios false)]); (* TurboRatioLimit.py:62-86, on disjoint sets of models *)
    (429, named [("max_g0_turbo_ratio"%string, fint 7 0 ios false)]);
    (430, named [("g0_cpu_cnt"%string, fint 7 0 ios false)]); (* TurboRatioLimit1.py:24-37 *)
    (1568, uncore_ratio_feats); (1552, ppl_feats); (420, misc_feats true ios); (420, misc_feats false ios) ].
