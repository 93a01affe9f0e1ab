(** Specification of the package power limits (C29). *)
From Coq Require Import Ascii String QArith.
From Verif Require Import Base M_CPUInfo S_CPUInfo M_Text M_MSR S_MSR M_FMSR S_FMSR M_Power.

(** MSR_PKG_POWER_LIMIT, MSR_PKG_POWER_INFO and RAPL_POWER_UNIT *)
Definition a_limit : Z := 1552.
Definition a_info : Z := 1556.
Definition a_unit : Z := 1542.

(** The fields of the two limits. *)
Definition limit_field (two : bool) : bits_t := if two then (46, 32) else (14, 0).

(** The three register objects, as the code creates them: which CPUs support the features does not matter. *)
Definition power_regs (fru frl fri : freg) : Prop :=
  fr_addr frl = a_limit /\ fr_feats frl = ppl_feats /\
  fr_addr fri = a_info /\ fr_feats fri = named [("tdp"%string, ffloat 14 0 (Some SPackage) false)] /\
  fr_addr fru = a_unit /\ exists ios, fr_feats fru = rapl_unit_feats ios.

(** The limit and information registers exist once per package. The unit register is read per CPU; it is never
    written, so whether CPUs share it makes no difference. *)
Definition power_scopes (sc : Z -> scope) : Prop :=
  sc a_limit = SPackage /\ sc a_info = SPackage /\ sc a_unit = SCPU.

(** The power unit, in Watts, that the first online CPU reports. *)
Definition unit_watts (env : menv) (s : mstate) (q : Q) : Prop :=
  exists c u, In c (ci_online (me_ci env)) /\ (forall x, In x (ci_online (me_ci env)) -> c <= x) /\
    is_field (3, 0) (view env s a_unit (me_dom env a_unit c)) u /\ (q == / inject_Z (2 ^ u))%Q.

(** A field of a power register of CPU [c], in Watts. *)
Definition field_watts (env : menv) (s : mstate) (a : Z) (b : bits_t) (c : Z) (w : Q) : Prop :=
  exists n q, is_field b (view env s a (me_dom env a c)) n /\ unit_watts env s q /\ (w == inject_Z n * q)%Q.

Definition ppl (env : menv) (s : mstate) (two : bool) (c : Z) (w : Q) : Prop :=
  field_watts env s a_limit (limit_field two) c w.
Definition tdp (env : menv) (s : mstate) (c : Z) (w : Q) : Prop := field_watts env s a_info (14, 0) c w.

(** On every online CPU the first limit does not exceed the second. *)
Definition ordered (env : menv) (s : mstate) : Prop :=
  forall c w1 w2, In c (ci_online (me_ci env)) -> ppl env s false c w1 -> ppl env s true c w2 -> (w1 <= w2)%Q.

(** The setting is acceptable for CPU [c]: in the right order with the other limit, between an eighth of the TDP
    and twice (first limit) or five times (second limit) the TDP. *)
Definition acceptable (env : menv) (s : mstate) (two : bool) (val : Q) (c : Z) : Prop :=
  exists o t, ppl env s (negb two) c o /\ tdp env s c t /\
    (if two then o <= val else val <= o)%Q /\ (t * (1 # 8) <= val)%Q /\
    (val <= t * (if two then 5 else 2))%Q.

(** Calls on the MSR object made by others: with the right scopes, and not writing the power registers. *)
Definition foreign_ok (env : menv) (sc : Z -> scope) (o : mop) : Prop :=
  op_scoped sc o /\ forall d, ~ op_touches env o a_limit d /\ ~ op_touches env o a_unit d.

Definition pop_rep (env : menv) (rep : Z -> Z -> Z) (o : pop) : Prop :=
  match o with
  | PSet _ _ cpus | PSwitch _ _ _ cpus => first_is env rep a_limit cpus
  | PGet _ _ | PTdp _ => True
  | PMsr o => op_rep env rep o
  end.

(** As for MSR histories: no transactions, or shared registers addressed through the same first CPU. *)
Definition pdisciplined (env : menv) (sc : Z -> scope) (ops : list pop) : Prop :=
  (forall o, In (PMsr o) ops -> foreign_ok env sc o) /\
  ((~ In (PMsr OStart) ops) \/ exists rep, forall o, In o ops -> pop_rep env rep o).

(** The value does not fit into the 15 bits of the limit. *)
Definition too_large (env : menv) (s : mstate) (two : bool) (val : Q) : Prop :=
  exists q, unit_watts env s q /\ (inject_Z (2 ^ field_width (limit_field two)) * q <= val)%Q.

(** The feature is marked as supported on every online CPU. *)
Definition supported_online (env : menv) (fr : freg) (f : str) : Prop :=
  exists d, dget str_eqb (fr_supp fr) f = Some d /\ forall c, In c (ci_online (me_ci env)) -> dget Z.eqb d c = Some true.

(** The processor has all the features a setting of a limit uses. *)
Definition power_supported (env : menv) (fru frl fri : freg) : Prop :=
  supported_online env fru (s2l "power_units") /\ supported_online env fri (s2l "tdp") /\
  forall two : bool, supported_online env frl (s2l (if two then "limit2" else "limit1")).

(** The bits that enable and clamp the limits, and the values they are set with. *)
Definition switch_field (two : bool) (k : switch_name) : bits_t :=
  match two, k with
  | false, Enable => (15, 15) | false, Clamp => (16, 16) | true, Enable => (47, 47) | true, Clamp => (48, 48)
  end.
Definition on_off (v : fval) (on : bool) : Prop :=
  v = VBool on \/ v = VStr (s2l (if on then "on" else "off")).
