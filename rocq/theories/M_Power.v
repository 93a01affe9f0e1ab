(** Model of the package power limits: pepclibs/Power.py, pepclibs/msr/PackagePowerLimit.py,
    PackagePowerInfo.py and RaplPowerUnit.py. *)
From Coq Require Import Ascii String QArith.
From Verif Require Import Base M_CPUInfo M_Text M_MSR M_FMSR.

(** The Power object: the MSR object and the power units remembered by the PackagePowerLimit and the
    PackagePowerInfo object (PackagePowerLimit.py:157-162, PackagePowerInfo.py:83-88). A unit is 1 / 2^u Watts
    (RaplPowerUnit.py:105) and is represented by u; it is never zero, so the test 'if not' (160, 86) is true only
    for None. *)
Record pwstate := PW { pw_ms : mstate; pw_lim : option Z; pw_info : option Z }.

Definition on_ms {A} (m : M mstate A) : M pwstate A := fun p =>
  let (r, s) := m (pw_ms p) in (r, PW s (pw_lim p) (pw_info p)).

(** n units of 1 / 2^u Watts. All the numbers compared or scaled by the code are binary fractions with at most
    31 significant bits, so that floating point arithmetic is exact. *)
Definition watts (u n : Z) : Q := Qmake n (Z.to_pos (2 ^ u)).

(** int(val / units), where int() truncates: PackagePowerLimit.py:198. Dividing by a power of two is exact. *)
Definition to_units (u : Z) (val : Q) : Z := Z.quot (Qnum val * 2 ^ u) (Zpos (Qden val)).

Definition Qgtb (x y : Q) : bool := negb (Qle_bool x y).

(** Feature names; [two]: of the second limit (Power.py:126-130) *)
Definition n_units : str := s2l "power_units".
Definition n_tdp : str := s2l "tdp".
Definition n_ppl (two : bool) : str := s2l (if two then "limit2" else "limit1").
Inductive switch_name := Enable | Clamp.
Definition n_switch (two : bool) (k : switch_name) : str :=
  s2l (match two, k with
       | false, Enable => "limit1_enable" | false, Clamp => "limit1_clamp"
       | true, Enable => "limit2_enable" | true, Clamp => "limit2_clamp"
       end).

Section Power.
  Variable env : menv.
  Variables fru frl fri : freg.   (* the RaplPowerUnit, PackagePowerLimit and PackagePowerInfo objects *)
  Let ci := me_ci env.

  (** RaplPowerUnit.py:95-107 _get_units(): the register is read with the default I/O scope, "CPU" *)
  Definition read_units (c : Z) : M mstate Z :=
    let! _ := lift (validate_feature_supported env fru n_units (Some [c])) in
    let! fe := lift (get_feature fru n_units) in
    let! l := read_bits env (fr_addr fru) (fe_bits fe) (Some [c]) SCPU in
    match l with
    | (_, u) :: _ => ret u
    | [] => throw EError
    end.

  (** PackagePowerLimit.py:151-162, [lim], and PackagePowerInfo.py:77-88 _get_units() and _get_power_units() *)
  Definition power_units (lim : bool) : M pwstate Z :=
    let! m := gets (if lim then pw_lim else pw_info) in
    match m with
    | Some u => ret u
    | None =>
      match get_cpus ci with
      | [] => throw EIndex
      | c :: _ =>
        let! u := on_ms (read_units c) in
        modify (fun p => if lim then PW (pw_ms p) (Some u) (pw_info p) else PW (pw_ms p) (pw_lim p) (Some u)) ;;
        ret u
      end
    end.

  (** One step of the loops of PackagePowerLimit.py:184-193 and PackagePowerInfo.py:95-99 _get_feature() *)
  Definition scaled_one (lim : bool) (a : Z) (b : bits_t) (sn : scope) (c : Z) : M pwstate (Z * Q) :=
    let! (_, r) := on_ms (read_one env a sn c) in
    let! n := lift (get_bits r b) in
    let! u := power_units lim in
    ret (c, watts u n).

  Definition limit_or_info (lim : bool) : freg := if lim then frl else fri.

  (** Power.py:132-146 _get_prop_cpus() with _FeaturedMSR.py:193-211 read_feature(), for the properties in Watts.
      The I/O scope is "package" in the tables. *)
  Definition get_watts (lim : bool) (fname : str) (cpus : nums_t) : M pwstate (list (Z * Q)) :=
    let fr := limit_or_info lim in
    let! _ := lift (validate_feature_supported env fr fname cpus) in
    let! fe := lift (get_feature fr fname) in
    let! l := lift (normalize_cpus ci cpus false) in
    mmap l (scaled_one lim (fr_addr fr) (fe_bits fe) SPackage).

  (** The checks of Power.py:163-181 for one CPU: [other] is the other limit *)
  Definition check_ppl (two : bool) (val tdp other : Q) : res unit :=
    if (if two then Qgtb other val else Qgtb val other) then Exn EError
    else
      let minval := (tdp / 8)%Q in
      let maxval := (tdp * (if two then 5 else 2))%Q in
      if Qgtb val maxval || Qgtb minval val then Exn EError else Ok tt.

  (** Power.py:148-181 _validate_ppl(). The two generators are advanced in turns; both start before the loop
      here. *)
  Definition validate_ppl (two : bool) (val : Q) (cpus : nums_t) : M pwstate unit :=
    let! _ := lift (validate_feature_supported env fri n_tdp cpus) in
    let! ft := lift (get_feature fri n_tdp) in
    let! _ := lift (validate_feature_supported env frl (n_ppl (negb two)) cpus) in
    let! fo := lift (get_feature frl (n_ppl (negb two))) in
    let! l := lift (normalize_cpus ci cpus false) in
    mfor l (fun c =>
      let! (_, tdp) := scaled_one false (fr_addr fri) (fe_bits ft) SPackage c in
      let! (_, other) := scaled_one true (fr_addr frl) (fe_bits fo) SPackage c in
      lift (check_ppl two val tdp other)).

  (** Power.py:183-190 _do_set_prop() for "ppl1" and "ppl2", with _FeaturedMSR.py:280-308 write_feature() and
      PackagePowerLimit.py:195-199 _set_limit() *)
  Definition set_ppl (two : bool) (val : Q) (cpus : nums_t) : M pwstate unit :=
    validate_ppl two val cpus ;;
    let! _ := lift (validate_feature_supported env frl (n_ppl two) cpus) in
    let! fe := lift (get_feature frl (n_ppl two)) in
    if negb (fe_writable fe) then throw EError
    else
      let! u := power_units true in
      on_ms (write_bits env (fr_addr frl) (fe_bits fe) (Some (to_units u val)) cpus SPackage false).

  (** The "enable" and "clamp" properties: Power.py:183-190, PackagePowerLimit.py:210-217; only the error message
      changes on ErrorVerifyFailed *)
  Definition set_switch (two : bool) (k : switch_name) (v : fval) (cpus : nums_t) : M pwstate unit :=
    let! _ := lift (validate_feature_supported env frl (n_switch two k) cpus) in
    let! fe := lift (get_feature frl (n_switch two k)) in
    let! w := lift (normalize_feature_value fe v) in
    if negb (fe_writable fe) then throw EError
    else
      let! _ := on_ms (flush_transaction env) in
      match w with
      | VInt code =>
        on_ms (write_bits env (fr_addr frl) (fe_bits fe) (Some code) cpus SPackage true) ;;
        let! _ := on_ms (flush_transaction env) in ret tt
      | _ => throw EError
      end.

  (** Histories: calls of the Power object, and other uses of the MSR object it shares *)
  Inductive pop :=
  | PSet (two : bool) (val : Q) (cpus : nums_t)
  | PSwitch (two : bool) (k : switch_name) (v : fval) (cpus : nums_t)
  | PGet (two : bool) (cpus : nums_t)
  | PTdp (cpus : nums_t)
  | PMsr (o : mop).

  Definition pstep (o : pop) : M pwstate (list (Z * Q)) :=
    match o with
    | PSet two val cpus => set_ppl two val cpus ;; ret []
    | PSwitch two k v cpus => set_switch two k v cpus ;; ret []
    | PGet two cpus => get_watts true (n_ppl two) cpus
    | PTdp cpus => get_watts false n_tdp cpus
    | PMsr o => on_ms (mstep env o) ;; ret []
    end.

  (** Any sequence of calls; the caller may go on after an exception. *)
  Definition prun (ops : list pop) (p : pwstate) : pwstate :=
    fold_left (fun p o => snd (pstep o p)) ops p.
End Power.

(** A new Power object *)
Definition power_init (hw : Z -> Z -> Z) (faults : list bool) : pwstate := PW (msr_init hw faults) None None.
