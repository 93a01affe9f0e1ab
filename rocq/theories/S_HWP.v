(** Specification of the settings in the HWP request registers, as the hardware manual defines them. *)
From Coq Require Import Ascii String.
From Verif Require Import Base M_CPUInfo S_CPUInfo M_Text M_MSR S_MSR M_FMSR S_FMSR M_HWP.

(** ** The registers

    0x774 (1908) is the request of a CPU, 0x772 (1906) the request of a package, 0xcd (205) the bus clock. Both
    requests have a field for every setting. Bit 42 of the CPU's request hands the CPU over to its package's request,
    except for the settings with the "valid" bit set. *)
Definition REQ : Z := 1908.
Definition PKG : Z := 1906.
Definition FSB : Z := 205.

Definition hbits (k : hset) : bits_t := match k with HMin => (7, 0) | HMax => (15, 8) | HEpp => (31, 24) end.
Definition valid_bit (k : hset) : Z := match k with HMin => 63 | HMax => 62 | HEpp => 60 end.
Definition pkg_bit : Z := 42.

(** The CPU has the feature. *)
Definition has (fr : freg) (fname : str) (c : Z) : bool :=
  match dget str_eqb (fr_supp fr) fname with
  | Some d => match dget Z.eqb d c with Some b => b | None => false end
  | None => false
  end.
Definition has_pkg_control (x : hwp) (c : Z) : bool :=
  match hw_req x with Ok fr => has fr (s2l "pkg_control"%string) c | Exn _ => false end.

Section Spec.
  Variable env : menv.
  Variable x : hwp.
  Notation dom := (me_dom env).

  (** [L a d]: what register copy [d] at address [a] holds. Does the package decide about the setting? *)
  Definition pkg_decides (L : Z -> Z -> Z) (k : hset) (c : Z) : bool :=
    has_pkg_control x c && Z.testbit (L REQ (dom REQ c)) pkg_bit && negb (Z.testbit (L REQ (dom REQ c)) (valid_bit k)).

  (** The value in effect. *)
  Definition setting (L : Z -> Z -> Z) (k : hset) (c v : Z) : Prop :=
    is_field (hbits k) (if pkg_decides L k c then L PKG (dom PKG c) else L REQ (dom REQ c)) v.

  (** The bus clock, in Hz. *)
  Definition bus_clock (L : Z -> Z -> Z) (c b : Z) : Prop :=
    match hw_fsb x with
    | Exn _ => hw_intel x = true /\ b = 100000000
    | Ok fsb => exists fe khz code, dget str_eqb (fr_feats fsb) (s2l "fsb"%string) = Some fe /\
        is_field (fe_bits fe) (L FSB (dom FSB c)) code /\ In (VInt khz, code) (vals_of fe) /\ b = khz * 1000
    end.

  (** The frequency that a performance level stands for: a multiple of the bus clock, or, on P-cores of a hybrid
      system, the highest multiple of the bus clock that is not above the performance level in other units. *)
  Definition level_freq (c bclk perf f : Z) : Prop :=
    if inb c (hw_pcores x) then (exists q, f = q * bclk) /\ f <= perf * hw_factor x < f + bclk
    else f = perf * bclk.

  (** The minimum or maximum frequency in effect. *)
  Definition freq_in_effect (L : Z -> Z -> Z) (k : hset) (c f : Z) : Prop :=
    exists bclk perf, bus_clock L c bclk /\ setting L k c perf /\ level_freq c bclk perf f.

  (** The performance level to be set for a frequency: the highest one that is not above the frequency, or, on
      P-cores, the lowest one that is not below it. *)
  Definition freq_level (c bclk f perf : Z) : Prop :=
    if inb c (hw_pcores x) then (perf - 1) * hw_factor x < f <= perf * hw_factor x
    else perf * bclk <= f < (perf + 1) * bclk.
End Spec.

(** The register objects are those of the code, the "valid" bits are there if the settings or package control are
    (HWPRequest.py:25-99: the CPU flags), and hybrid systems have a bus clock of 100 MHz and one of the scaling
    factors. *)
Record hwp_ok (env : menv) (sc : Z -> scope) (x : hwp) : Prop := {
  ho_sc : sc REQ = SCPU;
  ho_req : forall fr, hw_req x = Ok fr -> fr_addr fr = REQ /\ fr_feats fr = hwp_request_feats /\
    (forall k c, has fr (hname k) c = true -> has fr (hvalid k) c = true) /\
    (forall k c, k <> HEpp -> has fr (s2l "pkg_control"%string) c = true -> has fr (hvalid k) c = true);
  ho_pkg : forall fr, hw_pkg x = Ok fr -> fr_addr fr = PKG /\ fr_feats fr = hwp_request_pkg_feats (Some (sc PKG));
  ho_fsb : forall fr, hw_fsb x = Ok fr -> fr_addr fr = FSB /\ exists hi lo codes, In (hi, lo, codes) fsb_tables /\
    fr_feats fr = named [("fsb"%string, ffsb hi lo (Some (sc FSB)) codes)];
  ho_hybrid : hw_pcores x <> [] -> hw_fsb x = Exn ENotSupported /\ In (hw_factor x) scaling_factors }.

(** Package control is a feature of all the CPUs or of none. *)
Definition uniform (env : menv) (x : hwp) : Prop :=
  forall c c', In c (ci_online (me_ci env)) -> In c' (ci_online (me_ci env)) -> has_pkg_control x c = has_pkg_control x c'.

(** ** Histories: MSR calls, reading and setting frequencies and EPP; the caller goes on after exceptions *)
Inductive hop :=
| HMsr (o : mop)
| HGetFreq (k : hset) (cpus : list Z)
| HSetFreq (k : hset) (f : Z) (cpus : list Z)
| HGetEpp (c : Z)
| HSetEpp (v c : Z).

Definition hstep (env : menv) (x : hwp) (s : mstate) (o : hop) : mstate :=
  match o with
  | HMsr o => snd (mstep env o s)
  | HGetFreq k cpus => snd (get_freq_msr env x k cpus s)
  | HSetFreq k f cpus => snd (set_freq_msr env x k f cpus s)
  | HGetEpp c => snd (epp_read_msr env x c s)
  | HSetEpp v c => snd (epp_write_msr env x v c s)
  end.
Definition hrun (env : menv) (x : hwp) (ops : list hop) (s : mstate) : mstate := fold_left (hstep env x) ops s.

(** The MSR calls use the right scopes; there is no transaction, or shared registers are always addressed through
    the same first CPU. Values are not negative. *)
Definition hdisciplined (env : menv) (sc : Z -> scope) (ops : list hop) : Prop :=
  (forall o, In (HMsr o) ops -> op_scoped sc o) /\
  (forall k f cpus, In (HSetFreq k f cpus) ops -> 0 <= f) /\
  (forall v c, In (HSetEpp v c) ops -> 0 <= v) /\
  ((~ In (HMsr OStart) ops) \/
   exists rep, (forall o, In (HMsr o) ops -> op_rep env rep o) /\
     forall c, In c (ci_online (me_ci env)) -> rep REQ (me_dom env REQ c) = c).

(** A call that writes the setting [k] of CPU [c]: a request to set it, or a write to the CPU's request register or
    to its bus clock. *)
Definition hop_touches (env : menv) (k : hset) (c : Z) (o : hop) : Prop :=
  match o with
  | HMsr o => op_touches env o REQ (me_dom env REQ c) \/ op_touches env o FSB (me_dom env FSB c)
  | HSetFreq k' _ cpus => k' = k /\ In c cpus
  | HSetEpp _ c' => k = HEpp /\ c' = c
  | HGetFreq _ _ | HGetEpp _ => False
  end.

(** The CPU keeps all of its settings. *)
Definition same_settings (env : menv) (x : hwp) (L L' : Z -> Z -> Z) (c : Z) : Prop :=
  forall k v, setting env x L' k c v <-> setting env x L k c v.
