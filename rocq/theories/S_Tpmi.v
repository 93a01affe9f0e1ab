(** Independent vocabulary for the TPMI properties. *)
From Verif Require Import Base M_Text S_Text M_CPUInfo M_MSR S_MSR M_Tpmi.

(** Lower-case hexadecimal digits. *)
Definition is_hex (c : ascii) : Prop :=
  (48 <= nat_of_ascii c <= 57)%nat \/ (97 <= nat_of_ascii c <= 102)%nat.

(** The words of a dump as (instance, offset, text of the word), in the order printed. *)
Fixpoint row_words (i o : Z) (ws : list str) : list (Z * Z * str) :=
  match ws with
  | [] => []
  | w :: t => (i, o, w) :: row_words i (o + 4) t
  end.
Definition words (d : dump) : list (Z * Z * str) :=
  flat_map (fun s => flat_map (fun r => row_words (ds_inst s) (hexval (dr_at r)) (dr_words r)) (ds_rows s)) d.

(** The word with the value 'v' at the offset 'o' of the instance 'i'. *)
Definition holds (d : dump) (i o v : Z) : Prop := exists w, In (i, o, w) (words d) /\ hexval w = v.

(** What the kernel prints: 8-digit words, hexadecimal offsets, no word twice, no instance twice and
    none without words. *)
Definition row_ok (r : drow) : Prop :=
  dr_at r <> [] /\ Forall is_hex (dr_at r) /\ dr_words r <> [] /\
  Forall (fun w => length w = 8%nat /\ Forall is_hex w) (dr_words r).
Definition dump_ok (d : dump) : Prop :=
  Forall (fun s => 0 <= ds_inst s /\ ds_where s <> [] /\ Forall is_hex (ds_where s) /\
                   ds_rows s <> [] /\ Forall row_ok (ds_rows s)) d /\
  NoDup (map ds_inst d) /\ NoDup (map fst (words d)).

(** The same dump with other register values. *)
Definition same_row (r r' : drow) : Prop :=
  dr_old r = dr_old r' /\ dr_at r = dr_at r' /\ length (dr_words r) = length (dr_words r').
Definition same_layout (d d' : dump) : Prop :=
  Forall2 (fun s s' => ds_inst s = ds_inst s' /\ ds_where s = ds_where s' /\
                       Forall2 same_row (ds_rows s) (ds_rows s')) d d'.

(** The value of a register: one word, or two words with the lower one first. *)
Definition reg_value (d : dump) (i : Z) (rd : rdict) (v : Z) : Prop :=
  rd_width rd = 32 /\ holds d i (rd_offset rd) v \/
  rd_width rd = 64 /\ exists lo hi, holds d i (rd_offset rd) lo /\ holds d i (rd_offset rd + 4) hi /\
                                   v = lo + 2 ^ 32 * hi.

(** The words a register is made of. *)
Definition reg_word (rd : rdict) (o : Z) : Prop :=
  o = rd_offset rd \/ rd_width rd = 64 /\ o = rd_offset rd + 4.

(** The dump 'd1' is 'd' with the register set to 'v' and every other word unchanged. *)
Definition reg_changed (d d1 : dump) (i : Z) (rd : rdict) (v : Z) : Prop :=
  dump_ok d1 /\ same_layout d d1 /\ reg_value d1 i rd v /\
  forall i' o' x, ~ (i' = i /\ reg_word rd o') -> holds d i' o' x <-> holds d1 i' o' x.

(** A shift and a mask stand for the bits 'snd b' to 'fst b'. *)
Definition mask_of (b : bits_t) (sm : Z * Z) : Prop :=
  fst sm = snd b /\ 0 <= snd b <= fst b /\
  forall n, 0 <= n -> Z.testbit (snd sm) n = true <-> in_field b n.

(** What '_format_fdict()' makes sure of. *)
Definition reg_ok (rd : rdict) : Prop :=
  0 <= rd_offset rd /\ rd_offset rd mod 4 = 0 /\ (rd_width rd = 32 \/ rd_width rd = 64) /\
  forall b sm, dget Z.eqb (rd_fields rd) b = Some sm -> exists hl, mask_of hl sm.

(** The directories the constructor finds are those of the devices. *)
Definition dirs_match (fid2fname : list (Z * Z)) (paths : list (Z * list Z)) (devs : list ((Z * Z) * dump)) : Prop :=
  forall a f, (exists fids fid, In (a, fids) paths /\ In fid fids /\ dget Z.eqb fid2fname fid = Some f) <->
              (exists d, dget pair_eqb devs (a, f) = Some d).

(** The package number a device reports: the PACKAGE_ID field of TPMI_BUS_INFO of its instance 0. *)
Definition reports (nm : tnames) (fdicts : list (Z * list (Z * rdict))) (devs : list ((Z * Z) * dump)) (a p : Z) : Prop :=
  exists fd rd sm d v, dget Z.eqb fdicts (n_info nm) = Some fd /\ dget Z.eqb fd (n_bus nm) = Some rd /\
    dget Z.eqb (rd_fields rd) (n_pkgid nm) = Some sm /\
    dget pair_eqb devs (a, n_info nm) = Some d /\ reg_value d 0 rd v /\
    exists b, mask_of b sm /\ is_field b v p.

(** All registers of the tables are well-formed. *)
Definition tables_ok (fdicts : list (Z * list (Z * rdict))) : Prop :=
  forall f fd r rd, dget Z.eqb fdicts f = Some fd -> dget Z.eqb fd r = Some rd -> reg_ok rd.

(** The states a 'Tpmi' object and the devices can be in: the constructor, then any reads, writes and
    iterations (successful or not), while register values may change by themselves.
    'created' records the devices as they were when the object was created. *)
Inductive reached (nm : tnames) (env : tenv) (created : list ((Z * Z) * dump)) : tstate -> Prop :=
| R_init fid2fname paths s :
    (forall k d, dget pair_eqb created k = Some d -> dump_ok d) -> dirs_match fid2fname paths created ->
    tables_ok (te_fdicts env) ->
    tpmi_init nm (te_fdicts env) fid2fname paths (TS created []) = (Ok env, s) -> reached nm env created s
| R_read s f a i r b : reached nm env created s -> reached nm env created (snd (t_read_register env f a i r b s))
| R_write s v f a i r b : reached nm env created s -> reached nm env created (snd (t_write_register env v f a i r b s))
| R_iter s f a p i : reached nm env created s -> reached nm env created (snd (iter_feature env f a p i s))
| R_change s k d d' : reached nm env created s -> dget pair_eqb (t_devs s) k = Some d -> same_layout d d' -> dump_ok d' ->
    reached nm env created (TS (dset pair_eqb (t_devs s) k d') (t_mds s)).

(** The register definition a feature, a device address and a register name stand for. *)
Definition reg_def (env : tenv) (f r : Z) (rd : rdict) : Prop :=
  exists fd, dget Z.eqb (te_fdicts env) f = Some fd /\ dget Z.eqb fd r = Some rd.

(** 'None' stands for everything. *)
Definition wanted (l : option (list Z)) (x : Z) : Prop :=
  match l with None => True | Some l => In x l end.

(** A device of the feature that passes the filters. *)
Definition selected (nm : tnames) (env : tenv) (created : list ((Z * Z) * dump)) (s : tstate) (f : Z)
    (addrs packages : option (list Z)) (a p : Z) (d : dump) : Prop :=
  dget pair_eqb (t_devs s) (a, f) = Some d /\ reports nm (te_fdicts env) created a p /\
  wanted addrs a /\ wanted packages p.

(** All selected devices have the same instances. *)
Definition uniform (nm : tnames) (env : tenv) (created : list ((Z * Z) * dump)) (s : tstate) (f : Z)
    (addrs packages : option (list Z)) : Prop :=
  forall a p d a' p' d' i,
    selected nm env created s f addrs packages a p d -> selected nm env created s f addrs packages a' p' d' ->
    In i (map ds_inst d) -> In i (map ds_inst d').
