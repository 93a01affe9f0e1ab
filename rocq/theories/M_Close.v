(** Model of closing objects: ClassHelpers.close() (pepclibs/helperlibs/ClassHelpers.py:124-197), and which objects the classes are given,
    which they make themselves, and what their close() methods pass to ClassHelpers.close(). *)
From Coq Require Import Ascii String.
From Verif Require Import Base M_Text.
Open Scope list_scope.
Open Scope Z_scope.

(** The value of an attribute: None, a boolean, or an object and whether it has a close() method. Simplification: all objects are true. *)
Inductive aval := ANone | ABool (b : bool) | AObj (i : Z) (closable : bool).

Definition truthy_val (v : aval) : bool := match v with ANone => false | ABool b => b | AObj _ _ => true end.

(** The attributes of an object. *)
Definition attrs := list (str * aval).
Definition getattr (d : attrs) (a : str) : option aval := dget str_eqb d a.
Definition setattr (d : attrs) (a : str) (v : aval) : attrs := dset str_eqb d a v.

(** ClassHelpers.py:167-170: the name of the attribute that tells whether to close *)
Definition close_name (a : str) : str :=
  match a with "_"%char :: _ => s2l "_close" ++ a | _ => s2l "_close_" ++ a end.

Section Close.
  Context {W : Type}.
  (** Calling close() of an object. Simplification: it does not change the attributes of the object being closed here. *)
  Variable cl : Z -> M W unit.

  Definition cstate := (attrs * W)%type.

  Definition in_world {A} (m : M W A) : M cstate A :=
    fun s => let '(r, w) := m (snd s) in (r, (fst s, w)).

  (** ClassHelpers.py:181-186 *)
  Definition call_close (v : aval) : M cstate unit :=
    match v with AObj i true => in_world (cl i) | _ => ret tt end.

  (** ClassHelpers.py:158-188: one attribute of 'close_attrs'. The local variable 'name' is threaded, None when not assigned yet. The
      warnings are left out. *)
  Definition close_attr (a : str) (name : option str) : M cstate (option str) :=
    let! o := gets (fun s => getattr (fst s) a) in
    match o with
    | None => ret name
    | Some v =>
        if negb (truthy_val v) then ret name
        else
          let nm := close_name a in
          let! f := gets (fun s => getattr (fst s) nm) in
          match f with
          | None | Some (ABool true) => call_close v ;; modify (fun s => (setattr (fst s) a ANone, snd s))
          | Some (ABool false) => modify (fun s => (setattr (fst s) a ANone, snd s))
          | Some _ => modify (fun s => (setattr (fst s) a ANone, snd s))
          end ;; ret (Some nm)
    end.

  Fixpoint close_attrs (l : list str) (name : option str) : M cstate (option str) :=
    match l with
    | [] => ret name
    | a :: t => let! name := close_attr a name in close_attrs t name
    end.

  (** ClassHelpers.py:190-197: one attribute of 'unref_attrs'. The warning about a missing attribute uses 'name' of the loop before. *)
  Definition unref_attr (name : option str) (a : str) : M cstate unit :=
    let! o := gets (fun s => getattr (fst s) a) in
    match o with
    | None => match name with None => throw EUnbound | Some _ => ret tt end
    | Some v => if truthy_val v then modify (fun s => (setattr (fst s) a ANone, snd s)) else ret tt
    end.

  (** ClassHelpers.py:124-197 close() *)
  Definition close (cattrs uattrs : list str) : M cstate unit :=
    let! name := close_attrs cattrs None in
    mfor uattrs (unref_attr name).

  (** A close() method: one call of ClassHelpers.close() for the class and one for its base class. *)
  Definition close_object (calls : list (list str * list str)) : M cstate unit :=
    mfor calls (fun c => close (fst c) (snd c)).
End Close.

(** How a class comes to what an attribute refers to:
    - Given: an argument of the constructor;
    - Optional: an optional argument, made by the class if it is not given, with "self._close_x = x is None";
    - Unmarked: the same, without "self._close_x";
    - Made: not an argument, made by the class. *)
Inductive how := Given | Optional | Unmarked | Made.

Record cls := CLS { k_slots : list (str * how); k_close : list (list str * list str) }.

Definition A (l : list string) : list str := map s2l l.
Definition slots_of (l : list (string * how)) : list (str * how) := map (fun p => (s2l (fst p), snd p)) l.

Section Classes.
Open Scope string_scope.

(** pepclibs/_PropsClassBase.py:1297-1305, 1324-1328 *)
Definition c_base : cls := CLS (slots_of [("_pman", Optional); ("_cpuinfo", Optional); ("_msr", Optional); ("_sysfs_io", Optional)])
  [(A ["_sysfs_io"; "_msr"; "_cpuinfo"; "_pman"], [])].
(** A class and its base class, which is closed last. *)
Definition extends (base : cls) (slots : list (str * how)) (cattrs : list str) : cls :=
  CLS (k_slots base ++ slots) ((cattrs, []) :: k_close base)%list.
(** pepclibs/CStates.py:311-328 *)
Definition c_cstates : cls := extends c_base (slots_of [("_cpuidle", Optional); ("_powerctl", Made); ("_pcstatectl", Made)])
  (A ["_pcstatectl"; "_powerctl"; "_cpuidle"]).
(** pepclibs/PStates.py:1133-1156 *)
Definition c_pstates : cls := extends c_base
  (slots_of [("_eppobj", Made); ("_epbobj", Made); ("_fsbfreq", Made); ("_cpufreq_sysfs_obj", Made); ("_cpufreq_cppc_obj", Made);
             ("_cpufreq_msr_obj", Made); ("_uncfreq_sysfs_obj", Made)])
  (A ["_eppobj"; "_epbobj"; "_fsbfreq"; "_cpufreq_sysfs_obj"; "_cpufreq_cppc_obj"; "_cpufreq_msr_obj"; "_uncfreq_sysfs_obj"]).
(** pepclibs/PMQoS.py:100-112 *)
Definition c_pmqos : cls := extends c_base (slots_of [("_linux_pmqos_obj", Made)]) (A ["_linux_pmqos_obj"]).
(** pepclibs/Power.py:219-230 *)
Definition c_power : cls := extends c_base (slots_of [("_pplobj", Made); ("_ppiobj", Made)]) (A ["_pplobj"; "_ppiobj"]).

(** pepclibs/_EPBase.py:247-276 *)
Definition c_epbase : cls := CLS (slots_of [("_pman", Optional); ("_cpuinfo", Optional); ("_msr", Optional); ("_pcache", Made)])
  [(A ["_msr"; "_cpuinfo"; "_pman"; "_pcache"], [])].
(** pepclibs/EPP.py:176-193 *)
Definition c_epp : cls := extends c_epbase (slots_of [("_hwpreq", Made); ("_hwpreq_pkg", Made)]) (A ["_hwpreq"; "_hwpreq_pkg"]).
(** pepclibs/EPB.py:126-144 *)
Definition c_epb : cls := extends c_epbase (slots_of [("_epb_msr", Made)]) (A ["_epb_msr"]).
(** pepclibs/_PropsCache.py:145-162 *)
Definition c_propscache : cls := CLS (slots_of [("_cpuinfo", Optional)]) [(A ["_cpuinfo"], [])].

(** pepclibs/msr/MSR.py:627-642, 659-661 *)
Definition c_msr : cls := CLS (slots_of [("_pman", Optional); ("_cpuinfo", Given); ("_msr_drv", Made); ("_cache", Made)])
  [(A ["_pman"; "_msr_drv"; "_cache"], A ["_cpuinfo"])].
(** pepclibs/msr/_FeaturedMSR.py:499-530 *)
Definition c_featured : cls := CLS (slots_of [("_pman", Optional); ("_cpuinfo", Given); ("_msr", Optional)])
  [(A ["_msr"; "_pman"], A ["_cpuinfo"])].
(** pepclibs/msr/PackagePowerLimit.py:246-257, pepclibs/msr/PackagePowerInfo.py:114-124 *)
Definition c_pkgpower : cls := extends c_featured (slots_of [("_unitobj", Made)]) (A ["_unitobj"]).
(** pepclibs/_PerCPUCache.py:110-121 *)
Definition c_percpu : cls := CLS (slots_of [("_cpuinfo", Given)]) [([], A ["_cpuinfo"])].

(** pepclibs/_CPUFreq.py:575-608 CPUFreqSysfs *)
Definition c_cpufreq_sysfs : cls :=
  CLS (slots_of [("_pman", Optional); ("_cpuinfo", Optional); ("_msr", Optional); ("_sysfs_io", Optional); ("_cpufreq_msr_obj", Made)])
    [(A ["_sysfs_io"; "_msr"; "_cpufreq_msr_obj"; "_cpuinfo"; "_pman"], [])].
(** pepclibs/_CPUFreq.py:754-775 CPUFreqCPPC *)
Definition c_cpufreq_cppc : cls := CLS (slots_of [("_pman", Optional); ("_cpuinfo", Optional); ("_sysfs_io", Optional)])
  [(A ["_sysfs_io"; "_cpuinfo"; "_pman"], [])].
(** pepclibs/_CPUFreq.py:804-871, 1243-1279 CPUFreqMSR *)
Definition c_cpufreq_msr : cls :=
  CLS (slots_of [("_pman", Optional); ("_cpuinfo", Optional); ("_msr", Unmarked); ("_fsbfreq", Made); ("_pmenable", Made); ("_hwpreq", Made);
                 ("_hwpreq_pkg", Made); ("_hwpcap", Made); ("_platinfo", Made); ("_trl", Made)])
    [(A ["_trl"; "_platinfo"; "_fsbfreq"; "_pmenable"; "_hwpreq"; "_hwpreq_pkg"; "_hwpcap"; "_cpuinfo"; "_pman"], [])].
(** pepclibs/_UncoreFreq.py:612-661 *)
Definition c_uncore : cls := CLS (slots_of [("_pman", Optional); ("_cpuinfo", Given); ("_sysfs_io", Optional); ("_drv", Made)])
  [(A ["_sysfs_io"; "_drv"; "_pman"], A ["_cpuinfo"])].
(** pepclibs/_CPUInfoBase.py:436-441, 484-486 *)
Definition c_cpuinfo : cls := CLS (slots_of [("_pman", Optional); ("_msr", Made); ("_pliobj", Made); ("_uncfreq_obj", Made)])
  [(A ["_uncfreq_obj"; "_pliobj"; "_msr"; "_pman"], [])].
(** pepclibs/CPUIdle.py:509-528 *)
Definition c_cpuidle : cls := CLS (slots_of [("_pman", Optional); ("_cpuinfo", Optional); ("_cache", Made)])
  [(A ["_cache"; "_cpuinfo"; "_pman"], [])].
(** pepclibs/_LinuxPMQoS.py:104-123 *)
Definition c_linux_pmqos : cls := CLS (slots_of [("_pman", Optional); ("_sysfs_io", Optional)]) [(A ["_sysfs_io"; "_pman"], [])].
(** pepclibs/CPUOnline.py:171-189, pepctool/_OpTarget.py:371-376, 507-511 *)
Definition c_online : cls := CLS (slots_of [("_pman", Optional); ("_cpuinfo", Optional)]) [(A ["_cpuinfo"; "_pman"], [])].
(** pepclibs/_SysfsIO.py:380-399, pepclibs/ASPM.py:162-175, pepclibs/helperlibs/PCI.py:67-77, pepclibs/helperlibs/Systemctl.py:163-178,
    pepclibs/helperlibs/Dmesg.py:85-95 *)
Definition c_pman : cls := CLS (slots_of [("_pman", Optional)]) [(A ["_pman"], [])].
(** pepclibs/helperlibs/KernelModule.py:124-139 *)
Definition c_module : cls := CLS (slots_of [("_pman", Optional); ("_dmesg_obj", Optional)]) [(A ["_dmesg_obj"; "_pman"], [])].
(** pepclibs/Tpmi.py:984, 1028, pepclibs/helperlibs/ToolChecker.py:217-224 *)
Definition c_tpmi : cls := CLS (slots_of [("_pman", Given)]) [([], A ["_pman"])].
(** pepctool/_PepcSetter.py:204-214 *)
Definition c_setter : cls :=
  CLS (slots_of [("_pman", Given); ("_pobj", Given); ("_cpuinfo", Given); ("_pcsprint", Given); ("_msr", Given); ("_sysfs_io", Given)])
    [([], A ["_sysfs_io"; "_msr"; "_pcsprint"; "_cpuinfo"; "_pobj"; "_pman"])].
(** pepctool/_PepcPrinter.py:521-533 *)
Definition c_printer : cls := CLS (slots_of [("_pobj", Given); ("_cpuinfo", Given); ("_fobj", Given)])
  [([], A ["_fobj"; "_cpuinfo"; "_pobj"])].

(** All of them but CPUFreqMSR. *)
Definition classes : list cls :=
  [c_base; c_cstates; c_pstates; c_pmqos; c_power; c_epbase; c_epp; c_epb; c_propscache; c_msr; c_featured; c_pkgpower; c_percpu;
   c_cpufreq_sysfs; c_cpufreq_cppc; c_uncore; c_cpuinfo; c_cpuidle; c_linux_pmqos; c_online; c_pman; c_module; c_tpmi; c_setter; c_printer].
End Classes.

(** What a constructor does to the attributes, see the classes above: [args] are the arguments. *)
Definition new_slot (args : str -> aval) (p : str * how) : attrs :=
  let (a, h) := p in
  match h with
  | Given | Unmarked => [(a, args a)]
  | Optional => [(a, args a); (s2l "_close" ++ a, ABool (match args a with ANone => true | _ => false end))]
  | Made => [(a, ANone)]
  end.
Definition new (k : cls) (args : str -> aval) : attrs := concat (map (new_slot args) (k_slots k)).

(** "if not self._x: self._x = X(...)", in the constructor or later, for example _PropsClassBase.py:426-444, 1319-1322. The object made is
    [i]; all classes that are used so have a close() method. *)
Definition make (k : cls) (d : attrs) (o : str * Z) : attrs :=
  let (a, i) := o in
  match dget str_eqb (k_slots k) a with
  | None | Some Given => d
  | Some _ =>
      match getattr d a with
      | Some v => if truthy_val v then d else setattr d a (AObj i true)
      | None => d
      end
  end.

(** An object after its constructor and any use: [ops] tells for which attributes an object was needed, and which would be made. *)
Definition live (k : cls) (args : str -> aval) (ops : list (str * Z)) : attrs := fold_left (make k) ops (new k args).
