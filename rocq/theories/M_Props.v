(** Model of pepclibs/_PropsClassBase.py: reading and writing properties through mechanisms.

    The sub-class (CStates, PStates, Power, PMQoS) is a parameter: how it reads and writes a property
    with one mechanism. Properties and mechanisms are named by numbers. *)
From Verif Require Import Base M_CPUInfo.

(** An entry of the properties dictionary: "mnames" and "writable" (e.g. pepclibs/PStates.py:52-225).
    The "name", "type" and "unit" keys only matter for messages and for the value normalisation. *)
Record pdesc := PD { pd_mnames : list Z; pd_writable : bool }.

(** The property value dictionaries of _construct_cpu_pvinfo() and its siblings
    (_PropsClassBase.py:402-424). The key is a CPU, a (package, die) pair, or a package. The
    translation of True/False to "on"/"off" is not modelled. *)
Record pvinfo (K V : Type) := PV { pv_pname : Z; pv_key : K; pv_mname : Z; pv_val : option V }.
Arguments PV {K V} _ _ _ _.
Arguments pv_pname {K V} _.
Arguments pv_key {K V} _.
Arguments pv_mname {K V} _.
Arguments pv_val {K V} _.

(** What a generator produced: the values it yielded and how it ended. Consumers are modelled as
    running the generator to its end, except where the code takes only the first item. *)
Definition gen (A : Type) : Type := list A * option exc.

(** A sub-class, its property table, and the CPUInfo object. Reading does not change [St] (the caches
    of the lower layers are invisible, see C05 and C07). *)
Record pclass (St V : Type) := PC {
  pc_props : list (Z * pdesc);                        (* self._props *)
  pc_mechs : list (Z * bool);                         (* self.mechanisms: name -> writable *)
  pc_ci : cpuinfo;                                    (* self._cpuinfo *)
  pc_veqb : V -> V -> bool;                           (* "==" on property values *)
  pc_sname : St -> Z -> option scope;                 (* self._props[pname]["sname"] *)
  pc_iosname : St -> Z -> option scope;               (* self._props[pname]["iosname"] *)
  pc_set_sname : Z -> M St unit;                      (* _set_sname() *)
  pc_get : Z -> list Z -> Z -> St -> gen (Z * option V);   (* _get_prop_cpus(pname, cpus, mname) *)
  pc_set : Z -> V -> list Z -> Z -> M St unit;        (* _set_prop_cpus(pname, val, cpus, mname) *)
  pc_norm : Z -> V -> res V }.                        (* the value part of _normalize_inprop() *)
Arguments PC {St V}.
Arguments pc_props {St V} _.
Arguments pc_mechs {St V} _.
Arguments pc_ci {St V} _.
Arguments pc_veqb {St V} _.
Arguments pc_sname {St V} _.
Arguments pc_iosname {St V} _.
Arguments pc_set_sname {St V} _.
Arguments pc_get {St V} _.
Arguments pc_set {St V} _.
Arguments pc_norm {St V} _.

(** The state, with two ghost logs: the mechanisms consulted for reading, and the calls made to the
    sub-class for writing. *)
Record pst (St V : Type) := PS { ps_st : St; ps_gets : list Z; ps_sets : list (Z * V * list Z) }.
Arguments PS {St V} _ _ _.
Arguments ps_st {St V} _.
Arguments ps_gets {St V} _.
Arguments ps_sets {St V} _.

Section Class.
  Context {St V : Type}.
  Variable cls : pclass St V.
  Let ci := pc_ci cls.

  (** _PropsClassBase.py:133-161 _validate_mname(), with 'pname' given *)
  Definition validate_mname (p : pdesc) (allow_readonly : bool) (mname : Z) : res unit :=
    if negb (inb mname (pd_mnames p)) then Exn ENotSupported
    else match dget Z.eqb (pc_mechs cls) mname with
         | None => if allow_readonly then Ok tt else Exn EKey
         | Some writable => if negb allow_readonly && negb writable then Exn EError else Ok tt
         end.

  (** _PropsClassBase.py:163-176 _normalize_mnames() with 'pname' given; None is the default
      argument. *)
  Definition normalize_mnames (pname : Z) (mnames : option (list Z)) (allow_readonly : bool)
    : res (list Z) :=
    match dget Z.eqb (pc_props cls) pname with
    | None => match mnames with Some [] => Ok [] | _ => Exn EKey end
    | Some p =>
      match mnames with
      | None => Ok (pd_mnames p)
      | Some l => let? _ := rmap l (validate_mname p allow_readonly) in Ok (dedup l)
      end
    end.

  (** _PropsClassBase.py:230-235 _validate_pname() *)
  Definition validate_pname (pname : Z) : res pdesc :=
    match dget Z.eqb (pc_props cls) pname with Some p => Ok p | None => Exn EError end.

  (** "if not mnames: mnames = prop["mnames"]" (526-527, 1019-1020 and others) *)
  Definition or_default (p : pdesc) (mnames : list Z) : list Z :=
    match mnames with [] => pd_mnames p | _ => mnames end.

  (** A state change of the sub-class. *)
  Definition on_st {A} (m : M St A) : M (pst St V) A :=
    fun s => match m (ps_st s) with (r, st) => (r, PS st (ps_gets s) (ps_sets s)) end.

  Definition log_get (m : Z) : M (pst St V) unit :=
    modify (fun s => PS (ps_st s) (ps_gets s ++ [m]) (ps_sets s)).

  (** ** Reading *)

  (** The loop over mechanisms shared by _get_prop_pvinfo_cpus() (531-550),
      _get_prop_pvinfo_dies() (674-695) and _get_prop_pvinfo_packages() (848-867); [g] is the
      generator of the sub-class. None: no mechanism succeeded. *)
  Fixpoint pv_loop {K} (g : Z -> St -> gen (K * option V)) (pname : Z) (mnames : list Z)
    : M (pst St V) (option (list (pvinfo K V))) :=
    match mnames with
    | [] => ret None
    | m :: rest =>
      log_get m ;;
      fun s => match g m (ps_st s) with
               | (vals, None) => (Ok (Some (map (fun kv => PV pname (fst kv) m (snd kv)) vals)), s)
               | ([], Some ENotSupported) => pv_loop g pname rest s
               | (_, Some ENotSupported) => (Exn EError, s)
               | (_, Some e) => (Exn e, s)
               end
    end.

  (** The rest of the same functions (552-560, 697-706, 869-877): [keys] are the CPUs, dies or
      packages asked for. The message for CPUs and packages takes the first number ([index0]), also when there is
      none. *)
  Definition pv_get {K} (g : Z -> St -> gen (K * option V)) (keys : list K) (pname : Z)
      (mnames : list Z) (raise_not_supported index0 : bool) : M (pst St V) (list (pvinfo K V)) :=
    let! p := lift (match dget Z.eqb (pc_props cls) pname with Some p => Ok p | None => Exn EKey end) in
    let ms := or_default p mnames in
    let! r := pv_loop g pname ms in
    match r with
    | Some l => ret l
    | None =>
      match ms with
      | [] => throw EIndex
      | m0 :: _ => if index0 && match keys with [] => true | _ => false end then throw EIndex
                   else if raise_not_supported then throw ENotSupported
                   else ret (map (fun k => PV pname k (last ms m0) None) keys)
      end
    end.

  (** _PropsClassBase.py:519-560 _get_prop_pvinfo_cpus() *)
  Definition get_pvinfo_cpus (pname : Z) (cpus mnames : list Z) (raise_ns : bool) :=
    pv_get (pc_get cls pname cpus) cpus pname mnames raise_ns true.

  (** _set_sname() with ErrorNotSupported turned into false (614-619, 776-782, 929-934) *)
  Definition try_set_sname (pname : Z) : M (pst St V) bool :=
    fun s => match on_st (pc_set_sname cls pname) s with
             | (Ok _, s1) => (Ok true, s1)
             | (Exn ENotSupported, s1) => (Ok false, s1)
             | (Exn e, s1) => (Exn e, s1)
             end.

  (** "mnames[-1]" *)
  Definition last_mname (mnames : list Z) : res Z :=
    match mnames with [] => Exn EIndex | m :: _ => Ok (last mnames m) end.

  (** _PropsClassBase.py:583-621 get_prop_cpus() *)
  Definition get_prop_cpus (pname : Z) (cpus : nums_t) (mnames : option (list Z))
    : M (pst St V) (list (pvinfo Z V)) :=
    let! _ := lift (validate_pname pname) in
    let! ms := lift (normalize_mnames pname mnames true) in
    let! l := lift (normalize_cpus ci cpus false) in
    match l with
    | [] => ret []
    | _ =>
      let! known := try_set_sname pname in
      if known then get_pvinfo_cpus pname l ms false
      else let! m := lift (last_mname ms) in ret (map (fun c => PV pname c m None) l)
    end.

  (** _PropsClassBase.py:574-581 _get_cpu_prop_mnames() with one mechanism: next() on the generator
      of _get_prop_pvinfo_cpus(). A generator that ends without a value makes next() raise
      StopIteration, which inside a generator becomes RuntimeError (EValue here). *)
  Definition cpu_prop_1 (pname cpu mname : Z) (st : St) : res (option V) :=
    match pc_get cls pname [cpu] mname st with
    | ((_, v) :: _, _) => Ok v
    | ([], None) => Exn EValue
    | ([], Some e) => Exn e
    end.

  (** A generator that maps [f] over the keys. *)
  Fixpoint gen_map {K A} (f : K -> res A) (keys : list K) : gen (K * A) :=
    match keys with
    | [] => ([], None)
    | k :: rest => match f k with
                   | Ok v => let (l, e) := gen_map f rest in ((k, v) :: l, e)
                   | Exn e => ([], Some e)
                   end
    end.

  Definition first_of (l : list Z) : res Z := match l with [] => Exn EIndex | x :: _ => Ok x end.

  (** _PropsClassBase.py:645-660 _get_prop_dies(), the default implementation. [dies] lists the
      (package, die) pairs in dictionary order. *)
  Definition gen_dies (pname : Z) (dies : list (Z * Z)) (mname : Z) (st : St) : gen ((Z * Z) * option V) :=
    gen_map (fun pd => let? cpus := dies_to_cpus ci (Some [snd pd]) (Some [fst pd]) in
                       let? cpu := first_of cpus in
                       cpu_prop_1 pname cpu mname st) dies.

  (** _PropsClassBase.py:820-834 _get_prop_packages(), the default implementation *)
  Definition gen_packages (pname : Z) (packages : list Z) (mname : Z) (st : St) : gen (Z * option V) :=
    gen_map (fun p => let? cpus := package_to_cpus ci p in
                      let? cpu := first_of cpus in
                      cpu_prop_1 pname cpu mname st) packages.

  (** _PropsClassBase.py:316-336 _validate_prop_vs_scope() *)
  Definition validate_prop_vs_scope (sn : option scope) (want : scope) : res unit :=
    match want, sn with
    | SDie, Some SDie | SDie, Some SPackage | SDie, Some SGlobal
    | SPackage, Some SPackage | SPackage, Some SGlobal => Ok tt
    | _, _ => Exn EError
    end.

  Definition val_eqb (a b : option V) : bool :=
    match a, b with
    | None, None => true
    | Some x, Some y => pc_veqb cls x y
    | _, _ => false
    end.

  (** _PropsClassBase.py:338-400 _validate_prop_vs_ioscope(): the values of the CPUs must all equal
      that of the first one (the code compares with 'prev_cpu', which is never advanced). *)
  Definition validate_prop_vs_ioscope (pname : Z) (cpus mnames : list Z) : M (pst St V) unit :=
    let! l := get_pvinfo_cpus pname cpus mnames false in
    match l with
    | [] => ret tt
    | x :: rest => if forallb (fun y => val_eqb (pv_val y) (pv_val x)) rest then ret tt else throw EUsePerCPU
    end.

  Definition scope_opt_eqb (a b : option scope) : bool :=
    match a, b with
    | None, None => true
    | Some x, Some y => scope_eqb x y
    | _, _ => false
    end.

  (** The dictionary argument {package: dies} of the per-die methods; the value of a package may be
      "all". None is the string "all", the documented default. *)
  Definition dies_arg := option (list (Z * nums_t)).

  (** _PropsClassBase.py:762-766 and 1159-1163. With dies == "all" the code indexes the string:
      "all"[package] is a letter, which normalize_dies() rejects, or an IndexError. *)
  Definition normalize_dies_arg (dies : list (Z * nums_t)) : res (list (Z * Z)) :=
    let? pkgs := normalize_packages ci (Some (map fst dies)) in
    let? ll := rmap pkgs (fun p =>
                 match dget Z.eqb dies p with
                 | None => Exn EKey
                 | Some d => let? l := normalize_dies ci d p in Ok (map (pair p) l)
                 end) in
    Ok (concat ll).

  Definition is_empty_dies (d : nums_t) : bool := match d with Some [] => true | _ => false end.

  (** _PropsClassBase.py:729-794 get_prop_dies(). The line 781 passes the package where the property
      name is expected. The code also removes the empty die lists from the caller's dictionary, which
      is not modelled. *)
  Definition get_prop_dies (pname : Z) (dies : dies_arg) (mnames : option (list Z))
    : M (pst St V) (list (pvinfo (Z * Z) V)) :=
    let! _ := lift (validate_pname pname) in
    let! ms := lift (normalize_mnames pname mnames true) in
    match dies with
    | None => throw EError
    | Some ds =>
      let! nd := lift (normalize_dies_arg ds) in
      if forallb (fun d => is_empty_dies (snd d)) ds then ret []
      else
        let! known := try_set_sname pname in
        if negb known then
          let! m := lift (last_mname ms) in ret (map (fun pd => PV (fst pd) pd m None) nd)
        else
          let! sn := gets (fun s => pc_sname cls (ps_st s) pname) in
          lift (validate_prop_vs_scope sn SDie) ;;
          mfor nd (fun pd =>
            let! io := gets (fun s => pc_iosname cls (ps_st s) pname) in
            if scope_opt_eqb sn io then ret tt
            else let! cpus := lift (dies_to_cpus ci (Some [snd pd]) (Some [fst pd])) in
                 validate_prop_vs_ioscope pname cpus ms) ;;
          pv_get (gen_dies pname nd) nd pname ms false false
    end.

  (** _PropsClassBase.py:900-945 get_prop_packages() *)
  Definition get_prop_packages (pname : Z) (packages : nums_t) (mnames : option (list Z))
    : M (pst St V) (list (pvinfo Z V)) :=
    let! _ := lift (validate_pname pname) in
    let! ms := lift (normalize_mnames pname mnames true) in
    let! l := lift (normalize_packages ci packages) in
    match l with
    | [] => ret []
    | _ =>
      let! known := try_set_sname pname in
      if negb known then
        let! m := lift (last_mname ms) in ret (map (fun p => PV pname p m None) l)
      else
        let! sn := gets (fun s => pc_sname cls (ps_st s) pname) in
        lift (validate_prop_vs_scope sn SPackage) ;;
        mfor l (fun p =>
          let! io := gets (fun s => pc_iosname cls (ps_st s) pname) in
          if scope_opt_eqb sn io then ret tt
          else let! cpus := lift (package_to_cpus ci p) in
               validate_prop_vs_ioscope pname cpus ms) ;;
        pv_get (gen_packages pname l) l pname ms false true
    end.

  (** ** Writing *)

  (** _PropsClassBase.py:969-1005 _normalize_inprop(); None is Python's None *)
  Definition normalize_inprop (pname : Z) (val : option V) : res V :=
    let? p := validate_pname pname in
    match val with
    | None => Exn EError
    | Some v => if negb (pd_writable p) then Exn EError else pc_norm cls pname v
    end.

  Definition do_set (pname : Z) (v : V) (cpus : list Z) (m : Z) : M (pst St V) unit :=
    modify (fun s => PS (ps_st s) (ps_gets s) (ps_sets s ++ [(m, v, cpus)])) ;;
    on_st (pc_set cls pname v cpus m).

  (** The loop over mechanisms of _set_prop_cpus_mnames() (1024-1033), _set_prop_dies_mnames()
      (1130-1139) and _set_prop_packages_mnames() (1213-1222); [w m] writes with mechanism [m], [fail] is
      raised if none succeeded. *)
  Fixpoint set_loop (w : Z -> M (pst St V) unit) (fail : exc) (mnames : list Z) : M (pst St V) Z :=
    match mnames with
    | [] => throw fail
    | m :: rest =>
      fun s => match w m s with
               | (Ok _, s1) => (Ok m, s1)
               | (Exn ENotSupported, s1) => set_loop w fail rest s1
               | (Exn ETryAnother, s1) => set_loop w fail rest s1
               | (Exn e, s1) => (Exn e, s1)
               end
    end.

  Definition prop_of (pname : Z) : res pdesc :=
    match dget Z.eqb (pc_props cls) pname with Some p => Ok p | None => Exn EKey end.

  (** _PropsClassBase.py:1016-1033 _set_prop_cpus_mnames(); the error message takes "cpus[0]" *)
  Definition set_prop_cpus_mnames (pname : Z) (v : V) (cpus mnames : list Z) : M (pst St V) Z :=
    let! p := lift (prop_of pname) in
    set_loop (do_set pname v cpus) (match cpus with [] => EIndex | _ => ENotSupported end)
             (or_default p mnames).

  (** _PropsClassBase.py:237-314 _validate_cpus_vs_scope() *)
  Definition validate_cpus_vs_scope (sn : option scope) (cpus : list Z) : res unit :=
    match sn with
    | Some SCPU => Ok tt
    | Some SGlobal => if subsetb (get_cpus ci) cpus then Ok tt else Exn EError
    | Some SPackage => let? r := cpus_div_packages ci (Some cpus) None in
                       match snd r with [] => Ok tt | _ => Exn EError end
    | Some SDie => let? r := cpus_div_dies ci (Some cpus) in
                   match snd r with [] => Ok tt | _ => Exn EError end
    | Some SCore => let? r := cpus_div_cores ci (Some cpus) in
                    match snd r with [] => Ok tt | _ => Exn EError end
    | _ => Exn EError
    end.

  (** _PropsClassBase.py:1035-1063 set_prop_cpus() *)
  Definition set_prop_cpus (pname : Z) (val : option V) (cpus : nums_t) (mnames : option (list Z))
    : M (pst St V) Z :=
    let! ms := lift (normalize_mnames pname mnames false) in
    let! v := lift (normalize_inprop pname val) in
    let! l := lift (normalize_cpus ci cpus false) in
    match l with
    | [] => throw EError
    | _ =>
      on_st (pc_set_sname cls pname) ;;
      let! sn := gets (fun s => pc_sname cls (ps_st s) pname) in
      lift (validate_cpus_vs_scope sn l) ;;
      set_prop_cpus_mnames pname v l ms
    end.

  (** The loop at _PropsClassBase.py:1090-1099; [handled] and [reduced] are sets. The siblings list
      always contains the CPU itself; "siblings[0]" of an empty list is an IndexError. *)
  Fixpoint reduce_loop (ios : scope) (cpus handled reduced : list Z) : res (list Z) :=
    match cpus with
    | [] => Ok reduced
    | c :: rest =>
      if inb c handled then reduce_loop ios rest handled reduced
      else
        let? sib := get_cpu_siblings ci c ios in
        match sib with
        | [] => Exn EIndex
        | x :: tl => reduce_loop ios rest (handled ++ tl) (x :: reduced)
        end
    end.

  (** _PropsClassBase.py:1077-1106 _reduce_cpus_ioscope(); an unknown scope name makes
      get_cpu_siblings() fail. *)
  Definition reduce_cpus_ioscope (cpus : list Z) (ios : option scope) : res (list Z) :=
    match ios with
    | Some SCPU => Ok cpus
    | Some sc => let? reduced := reduce_loop sc cpus [] [] in
                 Ok (filter (fun c => inb c reduced) cpus)
    | None => match cpus with [] => Ok [] | _ => Exn EError end
    end.

  (** _PropsClassBase.py:1108-1120 _set_prop_dies(), 1192-1203 _set_prop_packages(): the default
      implementations; [units_cpus] are the CPUs of the requested dies or packages. *)
  Definition set_units (pname : Z) (v : V) (units_cpus : res (list (list Z))) (m : Z) : M (pst St V) unit :=
    let! ll := lift units_cpus in
    let! io := gets (fun s => pc_iosname cls (ps_st s) pname) in
    let! cpus := lift (reduce_cpus_ioscope (concat ll) io) in
    let! _ := set_prop_cpus_mnames pname v cpus [m] in
    ret tt.

  Definition dies_cpus (dies : list (Z * Z)) : res (list (list Z)) :=
    rmap dies (fun pd => dies_to_cpus ci (Some [snd pd]) (Some [fst pd])).
  Definition pkgs_cpus (packages : list Z) : res (list (list Z)) :=
    rmap packages (fun p => packages_to_cpus ci (Some [p])).

  (** _PropsClassBase.py:1141-1177 set_prop_dies(). Note 1165-1172 test the caller's dictionary. *)
  Definition set_prop_dies (pname : Z) (val : option V) (dies : dies_arg) (mnames : option (list Z))
    : M (pst St V) Z :=
    let! ms := lift (normalize_mnames pname mnames false) in
    let! v := lift (normalize_inprop pname val) in
    match dies with
    | None => throw EError
    | Some ds =>
      let! nd := lift (normalize_dies_arg ds) in
      if existsb (fun d => is_empty_dies (snd d)) ds then throw EError
      else match ds with
           | [] => throw EError
           | _ =>
             on_st (pc_set_sname cls pname) ;;
             let! sn := gets (fun s => pc_sname cls (ps_st s) pname) in
             lift (validate_prop_vs_scope sn SDie) ;;
             let! p := lift (prop_of pname) in
             set_loop (set_units pname v (dies_cpus nd)) ENotSupported (or_default p ms)
           end
    end.

  (** _PropsClassBase.py:1224-1249 set_prop_packages() *)
  Definition set_prop_packages (pname : Z) (val : option V) (packages : nums_t) (mnames : option (list Z))
    : M (pst St V) Z :=
    let! ms := lift (normalize_mnames pname mnames false) in
    let! v := lift (normalize_inprop pname val) in
    let! l := lift (normalize_packages ci packages) in
    match packages with
    | Some [] => throw EError
    | _ =>
      on_st (pc_set_sname cls pname) ;;
      let! sn := gets (fun s => pc_sname cls (ps_st s) pname) in
      lift (validate_prop_vs_scope sn SPackage) ;;
      let! p := lift (prop_of pname) in
      set_loop (set_units pname v (pkgs_cpus l)) ENotSupported (or_default p ms)
    end.
End Class.

(** ** The property tables of the sub-classes *)

(** The mechanisms (_PropsClassBase.py:43-69): sysfs 0, cdev 1, msr 2, cppc 3, doc 4. *)
Definition mechanisms : list (Z * bool) := [(0, true); (1, true); (2, true); (3, false); (4, false)].

(** pepclibs/PStates.py:52-235 PROPS, in the order of the file: turbo, min_freq, max_freq,
    min_freq_limit, max_freq_limit, base_freq, bus_clock, min_oper_freq, max_eff_freq, max_turbo_freq,
    frequencies, min_uncore_freq, max_uncore_freq, min_uncore_freq_limit, max_uncore_freq_limit, hwp,
    epp, epb, driver, intel_pstate_mode, governor, governors *)
Definition pstates_props : list pdesc :=
  [PD [0] true; PD [0; 2] true; PD [0; 2] true; PD [0] false; PD [0] false; PD [0; 2; 3] false;
   PD [2; 4] false; PD [2; 3] false; PD [2] false; PD [2; 3] false; PD [0; 4] false; PD [0] true;
   PD [0] true; PD [0] false; PD [0] false; PD [2] false; PD [0; 2] true; PD [0; 2] true;
   PD [0] false; PD [0] true; PD [0] true; PD [0] false].

(** pepclibs/CStates.py:32-119 PROPS: pkg_cstate_limit, pkg_cstate_limit_lock, pkg_cstate_limits,
    pkg_cstate_limit_aliases, c1_demotion, c1_undemotion, c1e_autopromote, cstate_prewake,
    idle_driver, governor, governors *)
Definition cstates_props : list pdesc :=
  [PD [2] true; PD [2] false; PD [4] false; PD [4] false; PD [2] true; PD [2] true; PD [2] true;
   PD [2] true; PD [0] false; PD [0] true; PD [0] false].

(** pepclibs/Power.py:25-96 PROPS: tdp, ppl1, ppl1_enable, ppl1_clamp, ppl1_window, ppl2, ppl2_enable,
    ppl2_clamp, ppl2_window *)
Definition power_props : list pdesc :=
  [PD [2] false; PD [2] true; PD [2] true; PD [2] true; PD [2] false; PD [2] true; PD [2] true;
   PD [2] true; PD [2] false].

(** pepclibs/PMQoS.py:25-42 PROPS: latency_limit, global_latency_limit *)
Definition pmqos_props : list pdesc := [PD [0] true; PD [1] false].
