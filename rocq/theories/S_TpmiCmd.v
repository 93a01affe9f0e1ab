(** Specification of the 'tpmi read' and 'tpmi write' commands (C64), in terms of the devices, the
    words of their dumps and what was typed. *)
From Verif Require Import Base M_Text S_Text M_CPUInfo M_MSR S_MSR M_Tpmi S_Tpmi M_TpmiCmd.

(** What a typed list of package or instance numbers stands for; without one, everything. *)
Inductive typed : option str -> option (list Z) -> Prop :=
| T_absent : typed None None
| T_blank : typed (Some []) None
| T_list its ts : Forall2 written its ts -> Forall (fun i => ~ descending i) its -> commas ts <> [] ->
    typed (Some (commas ts)) (Some (flat_map meaning its)).

(** The number a typed value stands for: decimal digits, or "0x" and hexadecimal digits. *)
Inductive typed_value : str -> Z -> Prop :=
| V_dec s n : numeral s n -> typed_value s n
| V_neg s n : numeral s n -> typed_value ("-"%char :: s) (- n)
| V_hex s : s <> [] -> Forall is_hex s -> typed_value ("0"%char :: "x"%char :: s) (hexval s).

(** The instance 'i' of the device 'a' (of the package 'p') of the feature is one of those asked for. *)
Definition asked_for (nm : tnames) (env : tenv) (created : list ((Z * Z) * dump)) (s : tstate) (f : Z)
    (addrs packages instances : option (list Z)) (a p i : Z) : Prop :=
  exists d, selected nm env created s f addrs packages a p d /\ In i (map ds_inst d) /\ wanted instances i.

(** The register value after writing 'v' to the register, or to its bit field. *)
Definition after_write (rd : rdict) (bf : option Z) (v old new : Z) : Prop :=
  match bf with
  | None => new = v
  | Some b => exists sm hl, dget Z.eqb (rd_fields rd) b = Some sm /\ mask_of hl sm /\ is_set hl v old new
  end.

(** The value fits into the register, or into its bit field. *)
Definition fits_in (rd : rdict) (bf : option Z) (v : Z) : Prop :=
  match bf with
  | None => 0 <= v < 2 ^ rd_width rd
  | Some b => exists sm hl, dget Z.eqb (rd_fields rd) b = Some sm /\ mask_of hl sm /\ fst hl < rd_width rd /\ fits hl v
  end.

(** Only words of the feature's devices that are 'P' differ. *)
Definition only_words (f : Z) (P : Z -> Z -> Z -> Prop) (s s' : tstate) : Prop :=
  (forall a g, g <> f -> dget pair_eqb (t_devs s') (a, g) = dget pair_eqb (t_devs s) (a, g)) /\
  (forall a, match dget pair_eqb (t_devs s) (a, f), dget pair_eqb (t_devs s') (a, f) with
             | Some d, Some d' => same_layout d d' /\
                 forall i o w, ~ P a i o -> (holds d i o w <-> holds d' i o w)
             | None, None => True
             | _, _ => False
             end).

(** The register of the instances that are 'T' was written. *)
Definition all_written (f : Z) (rd : rdict) (bf : option Z) (v : Z) (T : Z -> Z -> Prop) (s s' : tstate) : Prop :=
  forall a i, T a i -> exists d d' old new,
    dget pair_eqb (t_devs s) (a, f) = Some d /\ dget pair_eqb (t_devs s') (a, f) = Some d' /\
    reg_value d i rd old /\ reg_value d' i rd new /\ after_write rd bf v old new.

(** The filters name existing things: addresses are devices of the feature, packages have devices, every
    address is in every package, and instances exist in all the devices selected. *)
Definition filters_fit (nm : tnames) (env : tenv) (created : list ((Z * Z) * dump)) (s : tstate) (f : Z)
    (addrs packages instances : option (list Z)) : Prop :=
  (exists a d, dget pair_eqb (t_devs s) (a, f) = Some d) /\
  (forall l a, addrs = Some l -> In a l -> exists d, dget pair_eqb (t_devs s) (a, f) = Some d) /\
  (forall l p, packages = Some l -> In p l -> match addrs with
     | None => exists a, reports nm (te_fdicts env) created a p
     | Some la => forall a, In a la -> reports nm (te_fdicts env) created a p
     end) /\
  (forall l i a p d, instances = Some l -> In i l -> selected nm env created s f addrs packages a p d -> In i (map ds_inst d)).

(** What 'tpmi read' tells about a register of an instance. *)
Definition tells_reg (out : rinfo) (f a p i r v : Z) (fields : list (Z * Z)) : Prop :=
  exists devs insts regs, dget Z.eqb out f = Some devs /\ dget Z.eqb devs a = Some (p, insts) /\
    dget Z.eqb insts i = Some regs /\ dget Z.eqb regs r = Some (v, fields).

(** The registers and bit fields asked for; without being asked, those not reserved. *)
Definition reg_asked (env : tenv) (x : rargs) (f r : Z) : Prop :=
  match ra_regs x with
  | Some l => In r l
  | None => exists rd, reg_def env f r rd /\ ra_reserved x r = false
  end.
Definition field_asked (x : rargs) (rd : rdict) (b : Z) : Prop :=
  ra_reserved x b = false /\
  match ra_bfs x with Some l => In b l | None => dget Z.eqb (rd_fields rd) b <> None end.

(** The features asked for; without being asked, those that have devices. *)
Definition feature_asked (env : tenv) (s : tstate) (x : rargs) (f : Z) : Prop :=
  match ra_fnames x with
  | Some l => In f l
  | None => exists a d, dget pair_eqb (t_devs s) (a, f) = Some d
  end.

(** What is told about the bit fields of a register with the value 'v': exactly those asked for, with
    their values. *)
Definition fields_told (x : rargs) (rd : rdict) (v : Z) (fields : list (Z * Z)) : Prop :=
  (forall b y, dget Z.eqb fields b = Some y -> field_asked x rd b /\
     exists sm hl, dget Z.eqb (rd_fields rd) b = Some sm /\ mask_of hl sm /\ is_field hl v y) /\
  (forall b, field_asked x rd b -> dget Z.eqb fields b <> None).

(** No item of a typed list is there twice, whatever the way it is written. *)
Inductive typed_once : option str -> option (list Z) -> Prop :=
| O_absent : typed_once None None
| O_blank : typed_once (Some []) None
| O_list its ts : Forall2 written its ts -> Forall (fun i => ~ descending i) its -> commas ts <> [] ->
    NoDup (flat_map meaning its) -> typed_once (Some (commas ts)) (Some (flat_map meaning its)).

(** Register names are the keys of a dictionary. *)
Definition keys_once (env : tenv) : Prop := forall f fd, dget Z.eqb (te_fdicts env) f = Some fd -> NoDup (map fst fd).

(** Nothing the command was told is there twice. *)
Definition read_once (x : rargs) : Prop :=
  (forall l, ra_regs x = Some l -> NoDup l) /\ (forall l, ra_addrs x = Some l -> NoDup l).
