(** Model of how the property classes find the code behind a property: pepclibs/PStates.py, CStates.py, Power.py and
    PMQoS.py.

    The objects behind the classes (pepclibs/_CPUFreq.py, _UncoreFreq.py, EPP.py, EPB.py, CPUIdle.py, _LinuxPMQoS.py and
    pepclibs/msr) are a parameter: what their methods give and do. They are modelled elsewhere. *)
From Coq Require Import Ascii String.
From Verif Require Import Base M_Text M_CPUInfo M_Props M_PStates M_CFreq.
Open Scope list_scope.
Open Scope Z_scope.

(** A property value. The names and keys of the dictionary of the package C-state limit feature
    (PCStateConfigCtl.py:203-252) are texts. *)
Inductive dval :=
| DNum (n : Z)
| DText (s : str)
| DFlag (b : bool)
| DNums (l : list Z)
| DTexts (l : list str)
| DDict (d : list (str * dval)).

(** The objects: CPUFreqSysfs, CPUFreqCPPC, CPUFreqMSR, UncoreFreqSysfs, EPP, EPB, FSBFreq, CPUIdle, PowerCtl,
    PCStateConfigCtl, PackagePowerLimit, PackagePowerInfo, LinuxPMQoS (PStates.py:239-328, CStates.py:130-153,
    Power.py:102-124, PMQoS.py:52-61). *)
Inductive obj :=
| CpufreqSysfs | CpufreqCppc | CpufreqMsr | UncoreSysfs | EppObj | EpbObj | FsbObj
| CpuidleObj | PowerCtlObj | PCStateObj | LimitObj | InfoObj | PmqosObj.

(** What the objects give and do: the generators of values for CPUs and for dies (method, further arguments, CPUs),
    the methods that take no CPUs, the methods that set a value, whether there is an FSBFreq object (_get_fsbfreq(),
    PStates.py:239-248), whether the CPU is by Intel, the CPU number in a caught exception ("err.cpu"), the check of a
    new power limit (Power.py:148-181, modelled in M_Power.v), and the scope names of the EPB object and the "features"
    dictionaries. Simplification: failing to create an object is a failure of its methods; reading does not change the
    state (see M_Props.v). *)
Record lower (St : Type) := LO {
  lo_read : obj -> str -> list str -> list Z -> St -> gen (Z * option dval);
  lo_read_dies : str -> list (Z * Z) -> St -> gen ((Z * Z) * option dval);
  lo_get : obj -> str -> St -> res dval;
  lo_write : obj -> str -> list str -> dval -> list Z -> M St unit;
  lo_write_dies : str -> dval -> list (Z * Z) -> M St unit;
  lo_put : obj -> str -> dval -> M St unit;
  lo_fsb : St -> res unit;
  lo_intel : bool;
  lo_err_cpu : exc -> St -> option Z;
  lo_check : str -> dval -> list Z -> St -> res unit;
  lo_scopes : obj -> str -> St -> res (scope * scope) }.
Arguments LO {St}.
Arguments lo_read {St} _.
Arguments lo_read_dies {St} _.
Arguments lo_get {St} _.
Arguments lo_write {St} _.
Arguments lo_write_dies {St} _.
Arguments lo_put {St} _.
Arguments lo_fsb {St} _.
Arguments lo_intel {St} _.
Arguments lo_err_cpu {St} _.
Arguments lo_check {St} _.
Arguments lo_scopes {St} _.

(** Comparing a name with a literal, "in" for a tuple or set of literals. *)
Definition is (p : str) (s : string) : bool := str_eqb p (s2l s).
Definition is_in (p : str) (l : list string) : bool := existsb (is p) l.

(** str.startswith(), "in" for texts and str.replace() *)
Fixpoint begins (x p : str) : bool :=
  match p, x with
  | [], _ => true
  | c :: p', d :: x' => Ascii.eqb c d && begins x' p'
  | _, [] => false
  end.
Fixpoint has_sub (x p : str) : bool :=
  begins x p || match x with [] => false | _ :: x' => has_sub x' p end.
Fixpoint replace_n (n : nat) (x old new : str) : str :=
  match n, x with
  | S n', c :: x' => if begins x old then new ++ replace_n n' (skipn (length old) x) old new else c :: replace_n n' x' old new
  | _, _ => x
  end.
Definition replace (x old new : str) : str := replace_n (length x) x old new.

(** A generator that raises; one that applies a function to what another one yields; zip(). *)
Definition raises {A} (e : exc) : gen A := ([], Some e).
Fixpoint gmap_l {A B} (f : A -> res B) (l : list A) (e : option exc) : gen B :=
  match l with
  | [] => ([], e)
  | x :: t => match f x with
              | Ok y => let (r, e') := gmap_l f t e in (y :: r, e')
              | Exn x' => ([], Some x')
              end
  end.
Definition gmap {A B} (f : A -> res B) (g : gen A) : gen B := gmap_l f (fst g) (snd g).
Fixpoint gzip_l {A B} (a : list A) (ea : option exc) (b : list B) (eb : option exc) : gen (A * B) :=
  match a, b with
  | [], _ => ([], ea)
  | _, [] => ([], eb)
  | x :: a', y :: b' => let (r, e) := gzip_l a' ea b' eb in ((x, y) :: r, e)
  end.
Definition gzip {A B} (a : gen A) (b : gen B) : gen (A * B) := gzip_l (fst a) (snd a) (fst b) (snd b).

(** A property of a class: its mechanisms and whether it is writable. *)
Definition ptable := list (string * (list string * bool)).

(** PStates.py:52-225 PROPS *)
Definition pstates_table : ptable :=
  [("turbo", (["sysfs"], true)); ("min_freq", (["sysfs"; "msr"], true)); ("max_freq", (["sysfs"; "msr"], true));
   ("min_freq_limit", (["sysfs"], false)); ("max_freq_limit", (["sysfs"], false));
   ("base_freq", (["sysfs"; "msr"; "cppc"], false)); ("bus_clock", (["msr"; "doc"], false));
   ("min_oper_freq", (["msr"; "cppc"], false)); ("max_eff_freq", (["msr"], false));
   ("max_turbo_freq", (["msr"; "cppc"], false)); ("frequencies", (["sysfs"; "doc"], false));
   ("min_uncore_freq", (["sysfs"], true)); ("max_uncore_freq", (["sysfs"], true));
   ("min_uncore_freq_limit", (["sysfs"], false)); ("max_uncore_freq_limit", (["sysfs"], false));
   ("hwp", (["msr"], false)); ("epp", (["sysfs"; "msr"], true)); ("epb", (["sysfs"; "msr"], true));
   ("driver", (["sysfs"], false)); ("intel_pstate_mode", (["sysfs"], true)); ("governor", (["sysfs"], true));
   ("governors", (["sysfs"], false))]%string.

(** CStates.py:32-119 PROPS *)
Definition cstates_table : ptable :=
  [("pkg_cstate_limit", (["msr"], true)); ("pkg_cstate_limit_lock", (["msr"], false));
   ("pkg_cstate_limits", (["doc"], false)); ("pkg_cstate_limit_aliases", (["doc"], false));
   ("c1_demotion", (["msr"], true)); ("c1_undemotion", (["msr"], true)); ("c1e_autopromote", (["msr"], true));
   ("cstate_prewake", (["msr"], true)); ("idle_driver", (["sysfs"], false)); ("governor", (["sysfs"], true));
   ("governors", (["sysfs"], false))]%string.

(** Power.py:25-96 PROPS *)
Definition power_table : ptable :=
  [("tdp", (["msr"], false)); ("ppl1", (["msr"], true)); ("ppl1_enable", (["msr"], true)); ("ppl1_clamp", (["msr"], true));
   ("ppl1_window", (["msr"], false)); ("ppl2", (["msr"], true)); ("ppl2_enable", (["msr"], true));
   ("ppl2_clamp", (["msr"], true)); ("ppl2_window", (["msr"], false))]%string.

(** PMQoS.py:25-42 PROPS *)
Definition pmqos_table : ptable :=
  [("latency_limit", (["sysfs"], true)); ("global_latency_limit", (["cdev"], false))]%string.

(** 'self._props[pname]["mnames"]' *)
Definition mnames_of (t : ptable) (p : str) : res (list str) :=
  match find (fun e => is p (fst e)) t with Some e => Ok (map s2l (fst (snd e))) | None => Exn EKey end.

(** _PropsClassBase.py:519-572 _get_prop_cpus_mnames(), 662-718 _get_prop_dies_mnames(): the mechanisms in turn. *)
Fixpoint mn_loop {A} (g : str -> gen A) (mnames : list str) : gen A :=
  match mnames with
  | [] => raises ENotSupported
  | m :: rest =>
      match g m with
      | ([], Some ENotSupported) => mn_loop g rest
      | (l, Some ENotSupported) => (l, Some EError)
      | r => r
      end
  end.

Section Route.
  Context {St : Type}.
  Variable lo : lower St.
  Local Notation values := (gen (Z * option dval)).

  (** A method of an object for CPUs, without further arguments. *)
  Definition rd (o : obj) (meth : string) (cpus : list Z) (st : St) : values := lo_read lo o (s2l meth) [] cpus st.

  (** ** PStates: reading *)

  Section PStates.
    (** _get_prop_cpus_mnames(pname, cpus, mnames); None is the default, all mechanisms of the property. *)
    Variable again : str -> option (list str) -> list Z -> St -> values.

    (** PStates.py:394-398: (base_freq * perf) // nominal_perf. Values that are not numbers and the division by zero are
        errors that are not subclasses of 'Error'. *)
    Definition scaled (x : ((Z * option dval) * (Z * option dval)) * (Z * option dval)) : res (Z * option dval) :=
      match x with
      | (((cpu, Some (DNum base)), (_, Some (DNum nominal))), (_, Some (DNum perf))) =>
          if nominal =? 0 then Exn EValue else Ok (cpu, Some (DNum ((base * perf) / nominal)))
      | _ => Exn EValue
      end.

    (** PStates.py:364-398 _get_cppc_freq() *)
    Definition get_cppc_freq (pname : str) (cpus : list Z) (st : St) : values :=
      if is pname "base_freq" then rd CpufreqCppc "get_base_freq" cpus st
      else
        match (if is pname "max_turbo_freq" then rd CpufreqCppc "get_max_freq_limit" cpus st
               else if is pname "min_oper_freq" then rd CpufreqCppc "get_min_freq_limit" cpus st
               else raises EError) with
        | (l, Some ENotSupported) =>
            let perf := if is pname "max_turbo_freq" then rd CpufreqCppc "get_max_perf_limit" cpus st
                        else rd CpufreqCppc "get_min_perf_limit" cpus st in
            let (l', e) := gmap scaled (gzip (gzip (again (s2l "base_freq") None cpus st) (rd CpufreqCppc "get_base_perf" cpus st)) perf) in
            (l ++ l', e)
        | r => r
        end.

    (** PStates.py:400-415 _get_min_oper_freq() *)
    Definition get_min_oper_freq (cpus : list Z) (mname : str) (st : St) : values :=
      if is mname "msr" then rd CpufreqMsr "get_min_oper_freq" cpus st
      else if is mname "cppc" then get_cppc_freq (s2l "min_oper_freq") cpus st
      else raises EError.

    (** PStates.py:417-432 _get_max_turbo_freq() *)
    Definition get_max_turbo_freq (cpus : list Z) (mname : str) (st : St) : values :=
      if is mname "msr" then rd CpufreqMsr "get_max_turbo_freq" cpus st
      else if is mname "cppc" then get_cppc_freq (s2l "max_turbo_freq") cpus st
      else raises EError.

    (** PStates.py:434-454 _get_base_freq() *)
    Definition get_base_freq (cpus : list Z) (mname : str) (st : St) : values :=
      if is mname "sysfs" then rd CpufreqSysfs "get_base_freq" cpus st
      else if is mname "msr" then rd CpufreqMsr "get_base_freq" cpus st
      else if is mname "cppc" then get_cppc_freq (s2l "base_freq") cpus st
      else raises EError.

    (** PStates.py:456-470 _get_freq_sysfs() *)
    Definition get_freq_sysfs (pname : str) (cpus : list Z) (st : St) : values :=
      if is pname "min_freq" then rd CpufreqSysfs "get_min_freq" cpus st
      else if is pname "max_freq" then rd CpufreqSysfs "get_max_freq" cpus st
      else if is pname "min_freq_limit" then rd CpufreqSysfs "get_min_freq_limit" cpus st
      else if is pname "max_freq_limit" then rd CpufreqSysfs "get_max_freq_limit" cpus st
      else raises EError.

    (** PStates.py:472-482 _get_freq_msr() *)
    Definition get_freq_msr (pname : str) (cpus : list Z) (st : St) : values :=
      if is pname "min_freq" then rd CpufreqMsr "get_min_freq" cpus st
      else if is pname "max_freq" then rd CpufreqMsr "get_max_freq" cpus st
      else raises EError.

    (** PStates.py:484-498 _get_freq() *)
    Definition get_freq (pname : str) (cpus : list Z) (mname : str) (st : St) : values :=
      if is mname "sysfs" then get_freq_sysfs pname cpus st
      else if is mname "msr" then get_freq_msr pname cpus st
      else raises EError.

    (** PStates.py:508-530 _get_uncore_freq_cpus() *)
    Definition get_uncore_freq_cpus (pname : str) (cpus : list Z) (st : St) : values :=
      if is pname "min_uncore_freq" then rd UncoreSysfs "get_min_freq_cpus" cpus st
      else if is pname "max_uncore_freq" then rd UncoreSysfs "get_max_freq_cpus" cpus st
      else if is pname "min_uncore_freq_limit" then rd UncoreSysfs "get_min_freq_limit_cpus" cpus st
      else if is pname "max_uncore_freq_limit" then rd UncoreSysfs "get_max_freq_limit_cpus" cpus st
      else raises EError.

    (** PStates.py:545-549, 625-627: MSR_FSB_FREQ. Simplification: the object gives kHz, an integer, instead of MHz, a
        floating point number. *)
    Definition get_fsb (cpus : list Z) (st : St) : values :=
      gmap (fun cv => match snd cv with Some (DNum khz) => Ok (fst cv, Some (DNum (khz * 1000))) | _ => Exn EValue end)
           (lo_read lo FsbObj (s2l "read_feature") [s2l "fsb"] cpus st).

    (** PStates.py:532-549 _get_bclks_cpus() *)
    Definition get_bclks_cpus (cpus : list Z) (st : St) : values :=
      match lo_fsb lo st with
      | Exn ENotSupported => if lo_intel lo then (map (fun c => (c, Some (DNum 100000000))) cpus, None) else raises ENotSupported
      | Exn e => raises e
      | Ok _ => get_fsb cpus st
      end.

    (** PStates.py:589-600: one round of the loop of _get_frequencies_intel(), see M_CFreq.v *)
    Definition frequencies_of (x : (((Z * option dval) * (Z * option dval)) * (Z * option dval)) * (Z * option dval)) : res (Z * option dval) :=
      match x with
      | ((((cpu, driver), (_, Some (DNum lo_f))), (_, Some (DNum hi_f))), (_, Some (DNum bclk))) =>
          let? l := frequencies_intel (match driver with Some (DText d) => d | _ => [] end) lo_f hi_f bclk in
          Ok (cpu, Some (DNums l))
      | _ => Exn EValue
      end.

    (** PStates.py:577-600 _get_frequencies_intel() *)
    Definition get_frequencies_intel (cpus : list Z) (st : St) : values :=
      gmap frequencies_of
        (gzip (gzip (gzip (again (s2l "driver") None cpus st) (again (s2l "min_freq") None cpus st))
                    (again (s2l "max_freq") None cpus st)) (get_bclks_cpus cpus st)).

    (** PStates.py:602-617 _get_frequencies() *)
    Definition get_frequencies (cpus : list Z) (mname : str) (st : St) : values :=
      if is mname "sysfs" then rd CpufreqSysfs "get_available_frequencies" cpus st
      else if is mname "doc" then get_frequencies_intel cpus st
      else raises EError.

    (** PStates.py:619-642 _get_bus_clock() *)
    Definition get_bus_clock (cpus : list Z) (mname : str) (st : St) : values :=
      if is mname "msr" then match lo_fsb lo st with Exn e => raises e | Ok _ => get_fsb cpus st end
      else if is mname "doc" then
        match lo_fsb lo st with
        | Exn ENotSupported => if lo_intel lo then (map (fun c => (c, Some (DNum 100000000))) cpus, None) else raises ENotSupported
        | Exn e => raises e
        | Ok _ => raises ETryAnother
        end
      else raises EError.

    (** PStates.py:233-237 _is_uncore_prop() *)
    Definition is_uncore_prop (pname : str) : bool :=
      is_in pname ["min_uncore_freq"; "max_uncore_freq"; "min_uncore_freq_limit"; "max_uncore_freq_limit"]%string.

    (** PStates.py:694-735 _get_prop_cpus() with 330-362, 500-506 and 653-692: the methods that only call another one *)
    Definition pstates_get (pname : str) (cpus : list Z) (mname : str) (st : St) : values :=
      if is pname "epp" then lo_read lo EppObj (s2l "get_vals") [mname] cpus st
      else if is pname "epb" then lo_read lo EpbObj (s2l "get_vals") [mname] cpus st
      else if is pname "max_eff_freq" then rd CpufreqMsr "get_max_eff_freq" cpus st
      else if is pname "hwp" then rd CpufreqMsr "get_hwp" cpus st
      else if is pname "min_oper_freq" then get_min_oper_freq cpus mname st
      else if is pname "max_turbo_freq" then get_max_turbo_freq cpus mname st
      else if is pname "base_freq" then get_base_freq cpus mname st
      else if is_in pname ["min_freq"; "max_freq"]%string then get_freq pname cpus mname st
      else if is_in pname ["min_freq_limit"; "max_freq_limit"]%string then get_freq_sysfs pname cpus st
      else if is_uncore_prop pname then get_uncore_freq_cpus pname cpus st
      else if is pname "frequencies" then get_frequencies cpus mname st
      else if is pname "bus_clock" then get_bus_clock cpus mname st
      else if is pname "turbo" then rd CpufreqSysfs "get_turbo" cpus st
      else if is pname "driver" then rd CpufreqSysfs "get_driver" cpus st
      else if is pname "intel_pstate_mode" then rd CpufreqSysfs "get_intel_pstate_mode" cpus st
      else if is pname "governor" then rd CpufreqSysfs "get_governor" cpus st
      else if is pname "governors" then rd CpufreqSysfs "get_available_governors" cpus st
      else raises EError.
  End PStates.

  (** _PropsClassBase.py:562-572 with PStates.py:694: the code calls itself for other properties. [n] bounds the depth; 1
      is enough. *)
  Fixpoint pstates_read (n : nat) (pname : str) (cpus : list Z) (mname : str) (st : St) : values :=
    pstates_get (fun p ms cpus' st' =>
      match n with
      | O => raises EError
      | S n' =>
          match mnames_of pstates_table p with
          | Exn e => raises e
          | Ok all => mn_loop (fun m => pstates_read n' p cpus' m st') (match ms with Some l => l | None => all end)
          end
      end) pname cpus mname st.

  (** _PropsClassBase.py:562-572 _get_prop_cpus_mnames() of class PStates *)
  Definition pstates_again (p : str) (ms : option (list str)) (cpus : list Z) (st : St) : values :=
    match mnames_of pstates_table p with
    | Exn e => raises e
    | Ok all => mn_loop (fun m => pstates_read 1 p cpus m st) (match ms with Some l => l | None => all end)
    end.

  (** PStates.py:737-759 _get_uncore_freq_dies() *)
  Definition get_uncore_freq_dies (pname : str) (dies : list (Z * Z)) (st : St) : gen ((Z * Z) * option dval) :=
    if is pname "min_uncore_freq" then lo_read_dies lo (s2l "get_min_freq_dies") dies st
    else if is pname "max_uncore_freq" then lo_read_dies lo (s2l "get_max_freq_dies") dies st
    else if is pname "min_uncore_freq_limit" then lo_read_dies lo (s2l "get_min_freq_limit_dies") dies st
    else if is pname "max_uncore_freq_limit" then lo_read_dies lo (s2l "get_max_freq_limit_dies") dies st
    else raises EError.

  (** ** PStates: writing *)

  (** The first value of a generator: next(). *)
  Definition first_val {K} (g : gen (K * option dval)) : res (option dval) :=
    match g with
    | ((_, v) :: _, _) => Ok v
    | ([], None) => Exn EValue
    | ([], Some e) => Exn e
    end.
  Definition first_num {K} (g : gen (K * option dval)) : res Z :=
    match first_val g with
    | Ok (Some (DNum n)) => Ok n
    | Ok _ => Exn EValue
    | Exn e => Exn e
    end.
  Definition reads (f : St -> res Z) : M St Z := fun st => (f st, st).

  (** PStates.py:799-812 _set_freq_prop_cpus_msr() *)
  Definition set_freq_prop_cpus_msr (pname : str) (freq : Z) (cpus : list Z) : M St unit :=
    if is pname "min_freq" then lo_write lo CpufreqMsr (s2l "set_min_freq") [] (DNum freq) cpus
    else if is pname "max_freq" then lo_write lo CpufreqMsr (s2l "set_max_freq") [] (DNum freq) cpus
    else throw EError.

  (** PStates.py:844-857 _set_freq_prop_cpus_sysfs(). 814-842 only add to the message of the exception. *)
  Definition set_freq_prop_cpus_sysfs (pname : str) (freq : Z) (cpus : list Z) : M St unit :=
    if is pname "min_freq" then lo_write lo CpufreqSysfs (s2l "set_min_freq") [] (DNum freq) cpus
    else if is pname "max_freq" then lo_write lo CpufreqSysfs (s2l "set_max_freq") [] (DNum freq) cpus
    else throw EError.

  (** PStates.py:27-49, 890-914: the special values *)
  Definition fval_of (v : dval) : res fval :=
    match v with
    | DNum f => Ok (VNum f)
    | DText t =>
        if is t "min" then Ok VMin
        else if is t "max" then Ok VMax
        else if is_in t ["base"; "hfm"; "P1"]%string then Ok (VSpecial SBase)
        else if is_in t ["eff"; "lfm"; "Pn"]%string then Ok (VSpecial SEff)
        else if is t "Pm" then Ok (VSpecial SPm)
        else Exn EValue
    | _ => Exn EValue
    end.

  (** PStates.py:884-934: what _set_cpu_freq() and _get_numeric_cpu_freq() read and write. Simplification: each CPU is
      asked about by itself, see M_PStates.v. *)
  Definition cpu_io (pname mname : str) : freq_io St Z :=
    FIO (fun is_min cpu => reads (fun st =>
           first_num (pstates_again (s2l (if is_min : bool then "min_freq_limit" else "max_freq_limit")) (Some [mname]) [cpu] st)))
        (fun is_min cpu => reads (fun st =>
           first_num (pstates_again (s2l (if is_min : bool then "min_freq" else "max_freq")) (Some [mname]) [cpu] st)))
        (fun sp cpu => reads (fun st =>
           first_num (pstates_again (s2l (match sp with
                                          | SBase => "base_freq"
                                          | SEff => "max_eff_freq"
                                          | SPm => "min_oper_freq"
                                          | SMdl => "mdl"
                                          end)) None [cpu] st)))
        (fun _ freq cpus =>
           if is mname "sysfs" then set_freq_prop_cpus_sysfs pname freq cpus
           else if is mname "msr" then set_freq_prop_cpus_msr pname freq cpus
           else throw EUnbound).

  (** PStates.py:916-957 _set_cpu_freq(). "min" and "max" are the limits of the mechanisms of the limit properties, that
      is "sysfs" only. *)
  Definition set_cpu_freq (pname : str) (val : dval) (cpus : list Z) (mname : str) : M St unit :=
    let! v := lift (fval_of val) in
    set_freq (cpu_io pname mname) (has_sub pname (s2l "min")) v cpus.

  (** PStates.py:959-984 _handle_epp_set_exception(): what is raised in the end *)
  Definition handle_epp (val : dval) (mname : str) (e : exc) (st : St) : exc :=
    if negb (is mname "sysfs") then e
    else if match val with DText t => is_in t ["0"; "performance"]%string | _ => false end then e
    else match lo_err_cpu lo e st with
         | None => e
         | Some cpu =>
             match first_val (pstates_again (s2l "driver") None [cpu] st) with
             | Exn x => x
             | Ok (Some (DText d)) =>
                 if negb (is d "intel_pstate") then e
                 else match first_val (pstates_again (s2l "intel_pstate_mode") None [cpu] st) with
                      | Exn x => x
                      | Ok (Some (DText m)) =>
                          if negb (is m "active") then e
                          else match first_val (pstates_again (s2l "governor") None [cpu] st) with
                               | Exn x => x
                               | Ok _ => e
                               end
                      | Ok _ => e
                      end
             | Ok _ => e
             end
         end.

  (** PStates.py:986-1009 _set_prop_cpus() with 775-797 *)
  Definition pstates_set (pname : str) (val : dval) (cpus : list Z) (mname : str) : M St unit :=
    if is pname "epp" then fun st =>
      match lo_write lo EppObj (s2l "set_vals") [mname] val cpus st with
      | (Exn e, st1) => (Exn (if catches_error e then handle_epp val mname e st1 else e), st1)
      | r => r
      end
    else if is pname "epb" then lo_write lo EpbObj (s2l "set_vals") [mname] val cpus
    else if is pname "turbo" then lo_write lo CpufreqSysfs (s2l "set_turbo") [] val cpus
    else if is pname "intel_pstate_mode" then lo_write lo CpufreqSysfs (s2l "set_intel_pstate_mode") [] val cpus
    else if is pname "governor" then lo_write lo CpufreqSysfs (s2l "set_governor") [] val cpus
    else if is_in pname ["min_freq"; "max_freq"]%string then set_cpu_freq pname val cpus mname
    else throw EError.

  (** PStates.py:1011-1021 _set_uncore_freq_prop_dies() *)
  Definition set_uncore_freq_prop_dies (pname : str) (freq : Z) (dies : list (Z * Z)) : M St unit :=
    if is pname "min_uncore_freq" then lo_write_dies lo (s2l "set_min_freq_dies") (DNum freq) dies
    else if is pname "max_uncore_freq" then lo_write_dies lo (s2l "set_max_freq_dies") (DNum freq) dies
    else throw EError.

  (** _PropsClassBase.py:708-718 _get_prop_dies_mnames() of class PStates for one die and an uncore property: there is one
      mechanism, and PStates.py:761-773 does not look at it *)
  Definition uncore_again (pname : str) (die : Z * Z) (st : St) : gen ((Z * Z) * option dval) :=
    mn_loop (fun _ => get_uncore_freq_dies pname [die] st) [s2l "sysfs"].

  (** PStates.py:551-569 _get_bclks_dies() *)
  Definition get_bclk_die (st : St) : res Z :=
    match lo_fsb lo st with
    | Exn ENotSupported => if lo_intel lo then Ok 100000000 else Exn ENotSupported
    | Exn e => Exn e
    | Ok _ => Exn EError
    end.

  (** PStates.py:1036-1040: "mdl", rounded half to even *)
  Definition middle (bclk lo_f hi_f : Z) : Z :=
    let q := (lo_f + hi_f) / (2 * bclk) in
    let r := (lo_f + hi_f) mod (2 * bclk) in
    bclk * (if r <? bclk then q else if bclk <? r then q + 1 else if Z.even q then q else q + 1).

  (** PStates.py:1023-1061: what _set_uncore_freq() and _get_numeric_uncore_freq() read and write *)
  Definition die_io (pname : str) : freq_io St (Z * Z) :=
    let limit (is_min : bool) die := reads (fun st =>
      first_num (uncore_again (s2l (if is_min then "min_uncore_freq_limit" else "max_uncore_freq_limit")) die st)) in
    FIO limit
        (fun is_min die => reads (fun st =>
           first_num (uncore_again (s2l (if is_min : bool then "min_uncore_freq" else "max_uncore_freq")) die st)))
        (fun sp die => match sp with
                       | SMdl => let! bclk := reads get_bclk_die in
                                 let! l := limit true die in
                                 let! h := limit false die in
                                 ret (middle bclk l h)
                       | _ => throw EValue
                       end)
        (fun _ freq dies => set_uncore_freq_prop_dies pname freq dies).

  (** PStates.py:1030-1044 *)
  Definition uval_of (v : dval) : res fval :=
    match v with
    | DNum f => Ok (VNum f)
    | DText t =>
        if is t "min" then Ok VMin
        else if is t "max" then Ok VMax
        else if is t "mdl" then Ok (VSpecial SMdl)
        else Exn EValue
    | _ => Exn EValue
    end.

  (** PStates.py:1046-1095 _set_uncore_freq(), _set_prop_dies(): None is the default implementation, which is in M_Props.v *)
  Definition pstates_set_dies (pname : str) (val : dval) (dies : list (Z * Z)) : option (M St unit) :=
    if negb (is_in pname ["min_uncore_freq"; "max_uncore_freq"]%string) then None
    else Some (let! v := lift (uval_of val) in
               set_freq (die_io pname) (has_sub pname (s2l "min")) v dies).

  (** ** CStates *)

  (** PowerCtl.py:45-77, PCStateConfigCtl.py:128-177: the names in FEATURES *)
  Definition powerctl_features : list string := ["c1e_autopromote"; "cstate_prewake"; "ltr"]%string.
  Definition pcstate_features : list string := ["pkg_cstate_limit"; "pkg_cstate_limit_lock"; "c1_demotion"; "c1_undemotion"]%string.

  (** CStates.py:198-209 get_prop_from_msr() *)
  Definition get_prop_from_msr (pname : str) (cpus : list Z) (st : St) : values :=
    if is_in pname powerctl_features then lo_read lo PowerCtlObj (s2l "read_feature") [pname] cpus st
    else lo_read lo PCStateObj (s2l "read_feature") [pname] cpus st.

  (** CStates.py:211-223 _get_pkg_cstate_limit() *)
  Definition get_pkg_cstate_limit (pname : str) (cpus : list Z) (st : St) : values :=
    if is pname "pkg_cstate_limit_lock" then lo_read lo PCStateObj (s2l "read_feature") [pname] cpus st
    else gmap (fun cv => match snd cv with
                         | Some (DDict d) => match dget str_eqb d pname with Some v => Ok (fst cv, Some v) | None => Exn EKey end
                         | _ => Exn EValue
                         end) (lo_read lo PCStateObj (s2l "read_feature") [s2l "pkg_cstate_limit"] cpus st).

  (** CStates.py:225-240 _get_cpuidle_prop() *)
  Definition get_cpuidle_prop (pname : str) (cpus : list Z) (st : St) : values :=
    match lo_get lo CpuidleObj (s2l (if is pname "idle_driver" then "get_idle_driver"
                                     else if is pname "governor" then "get_current_governor"
                                     else "get_available_governors")) st with
    | Ok v => (map (fun c => (c, Some v)) cpus, None)
    | Exn e => raises e
    end.

  (** CStates.py:242-255 _get_prop_cpus() *)
  Definition cstates_get (pname : str) (cpus : list Z) (mname : str) (st : St) : values :=
    if begins pname (s2l "pkg_cstate_") then get_pkg_cstate_limit pname cpus st
    else if is_in pname ["idle_driver"; "governor"; "governors"]%string then get_cpuidle_prop pname cpus st
    else if is mname "msr" then get_prop_from_msr pname cpus st
    else raises EError.

  (** CStates.py:257-273 _set_prop_cpus() *)
  Definition cstates_set (pname : str) (val : dval) (cpus : list Z) (mname : str) : M St unit :=
    if is mname "msr" && is_in pname powerctl_features then lo_write lo PowerCtlObj (s2l "write_feature") [pname] val cpus
    else if is mname "msr" && is_in pname pcstate_features then lo_write lo PCStateObj (s2l "write_feature") [pname] val cpus
    else if is mname "sysfs" && is pname "governor" then lo_put lo CpuidleObj (s2l "set_current_governor") val
    else throw EError.

  (** ** Power *)

  (** Power.py:126-130 _pname2fname() *)
  Definition pname2fname (pname : str) : str := replace pname (s2l "ppl") (s2l "limit").

  (** Power.py:132-146 _get_prop_cpus(). The assertion is an error that is not a subclass of 'Error'. *)
  Definition power_get (pname : str) (cpus : list Z) (mname : str) (st : St) : values :=
    if negb (is mname "msr") then raises EValue
    else if begins pname (s2l "ppl") then lo_read lo LimitObj (s2l "read_feature") [pname2fname pname] cpus st
    else lo_read lo InfoObj (s2l "read_feature") [pname] cpus st.

  (** Power.py:183-208 _do_set_prop(), _set_prop_cpus(). The messages of the exceptions are not modelled. *)
  Definition power_set (pname : str) (val : dval) (cpus : list Z) (mname : str) : M St unit :=
    if negb (is mname "msr") then throw EError
    else
      (if is_in pname ["ppl1"; "ppl2"]%string then fun st => (lo_check lo pname val cpus st, st) else ret tt) ;;
      lo_write lo LimitObj (s2l "write_feature") [pname2fname pname] val cpus.

  (** ** PMQoS *)

  (** PMQoS.py:63-78 _get_prop_cpus() *)
  Definition pmqos_get (pname : str) (cpus : list Z) (st : St) : values :=
    if is pname "latency_limit" then rd PmqosObj "get_latency_limit" cpus st
    else if is pname "global_latency_limit" then
      match lo_get lo PmqosObj (s2l "get_global_latency_limit") st with
      | Ok v => (map (fun c => (c, Some v)) cpus, None)
      | Exn e => raises e
      end
    else raises EError.

  (** PMQoS.py:80-88 _set_prop_cpus() *)
  Definition pmqos_set (pname : str) (val : dval) (cpus : list Z) : M St unit :=
    if is pname "latency_limit" then lo_write lo PmqosObj (s2l "set_latency_limit") [] val cpus
    else throw EError.

  (** ** Scopes *)

  (** The "sname" keys of the tables: PStates.py:52-225, CStates.py:32-119, Power.py:25-96, PMQoS.py:25-42; None where the
      scope depends on the platform. *)
  Definition pstates_sname (pname : str) : option scope :=
    if is_in pname ["turbo"; "hwp"; "driver"; "intel_pstate_mode"; "governors"]%string then Some SGlobal
    else if is_uncore_prop pname then Some SDie
    else if is_in pname ["epb"; "bus_clock"]%string then None
    else Some SCPU.

  (** PStates.py:1097-1115 _set_sname(): the scope and the I/O scope that are known after it. *)
  Definition pstates_set_sname (pname : str) (st : St) : res (scope * scope) :=
    match pstates_sname pname with
    | Some sc => Ok (sc, sc)
    | None =>
        if is pname "epb" then let? x := lo_scopes lo EpbObj (s2l "epb") st in Ok (fst x, fst x)
        else match lo_fsb lo st with
             | Ok _ => let? x := lo_scopes lo FsbObj (s2l "fsb") st in Ok (fst x, fst x)
             | Exn ENotSupported => Ok (SGlobal, SGlobal)
             | Exn e => Exn e
             end
    end.

  (** CStates.py:275-293 _set_sname() *)
  Definition cstates_set_sname (pname : str) (st : St) : res (scope * scope) :=
    if is_in pname ["pkg_cstate_limits"; "pkg_cstate_limit_aliases"; "idle_driver"; "governor"; "governors"]%string then Ok (SGlobal, SGlobal)
    else if is_in pname pcstate_features then lo_scopes lo PCStateObj pname st
    else if is_in pname powerctl_features then lo_scopes lo PowerCtlObj pname st
    else Exn EError.
End Route.
