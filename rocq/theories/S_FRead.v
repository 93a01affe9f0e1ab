(** Specification of the CPU frequencies that are read from MSRs, as the hardware manual defines them. *)
From Coq Require Import Ascii String.
From Verif Require Import Base M_CPUInfo S_CPUInfo M_Text M_MSR S_MSR M_FMSR S_FMSR M_HWP S_HWP M_FRead.

(** 0x771 (1905) tells the performance levels of a CPU with HWP, 0xce (206) and 0x1ad (429) the ratios of the others,
    0x770 (1904) whether HWP is enabled. *)
Definition CAP : Z := 1905.
Definition PLAT : Z := 206.
Definition TRL : Z := 429.
Definition PM : Z := 1904.

Definition cap_bits (q : fkind) : bits_t :=
  match q with KTurbo => (7, 0) | KBase => (15, 8) | KMaxEff => (23, 16) | KMinOper => (31, 24) end.
Definition ratio_reg (q : fkind) : Z := match q with KTurbo => TRL | _ => PLAT end.
Definition ratio_bits (q : fkind) : bits_t :=
  match q with KTurbo => (7, 0) | KBase => (15, 8) | KMaxEff => (47, 40) | KMinOper => (55, 48) end.

Section Spec.
  Variable env : menv.
  Variable x : hwp.
  Variable g : fregs.
  Notation dom := (me_dom env).

  (** The CPU has HWP. *)
  Definition with_hwp (c : Z) : Prop := In (s2l "hwp"%string) (fg_flags g c).

  (** The frequency [f] of kind [q] of CPU [c], with the registers holding [L]: the performance level of the HWP
      capabilities on CPUs with HWP, and the ratio times the bus clock on others. *)
  Definition rated (L : Z -> Z -> Z) (q : fkind) (c f : Z) : Prop :=
    exists bclk, bus_clock env x L c bclk /\
      ((with_hwp c /\ exists perf, is_field (cap_bits q) (L CAP (dom CAP c)) perf /\ level_freq x c bclk perf f) \/
       (~ with_hwp c /\ exists ratio, is_field (ratio_bits q) (L (ratio_reg q) (dom (ratio_reg q) c)) ratio /\
          f = ratio * bclk)).

  (** The register objects are those of the code; for the turbo ratios, it is known of every CPU whether it has them
      (_FeaturedMSR.py: the constructor goes over all the features and CPUs). *)
  Record fregs_ok (sc : Z -> scope) : Prop := {
    fo_sc : sc CAP = SCPU;
    fo_cap : forall fr, fg_cap g = Ok fr -> fr_addr fr = CAP /\ fr_feats fr = hwp_cap_feats;
    fo_plat : forall fr, fg_plat g = Ok fr -> fr_addr fr = PLAT /\ fr_feats fr = platform_feats (Some (sc PLAT));
    fo_trl : forall fr, fg_trl g = Ok fr -> fr_addr fr = TRL /\ fr_feats fr = trl_feats (Some (sc TRL)) /\
      forall n c, In n (map fst (trl_feats None)) -> In c (ci_online (me_ci env)) -> exists d b, dget str_eqb (fr_supp fr) n = Some d /\ dget Z.eqb d c = Some b;
    fo_pm : forall fr, fg_pm g = Ok fr -> fr_addr fr = PM /\ fr_feats fr = pm_enable_feats (Some (sc PM)) }.

  (** The CPU has a bus clock that is known: the system has no register for it, or the register of the CPU tells one. *)
  Definition clock_known (L : Z -> Z -> Z) (c : Z) : Prop :=
    (exists bclk, bus_clock env x L c bclk) /\
    match hw_fsb x with Ok fsb => has fsb (s2l "fsb"%string) c = true | Exn e => e = ENotSupported end.

  (** The CPUs have the registers with the frequencies. *)
  Definition has_levels (q : fkind) (cpus : list Z) : Prop :=
    forall c, In c cpus -> with_hwp c -> exists fr, fg_cap g = Ok fr /\ has fr (cap_name q) c = true.
  Definition has_ratios (q : fkind) (cpus : list Z) : Prop :=
    match q with
    | KTurbo => (forall c, In c cpus -> with_hwp c) \/
        exists fr n, fg_trl g = Ok fr /\ In n (map fst (trl_feats None)) /\
          forall c, In c cpus -> ~ with_hwp c -> has fr n c = true
    | _ => forall c, In c cpus -> ~ with_hwp c -> exists fr, fg_plat g = Ok fr /\ has fr (plat_name q) c = true
    end.
End Spec.

(** ** Histories: those of C26 and C27, and reading these frequencies *)
Inductive fop :=
| FHwp (o : hop)
| FRated (q : fkind) (cpus : list Z)
| FStatus (cpus : list Z)
| FClock (cpus : list Z).

Definition fstep (env : menv) (x : hwp) (g : fregs) (s : mstate) (o : fop) : mstate :=
  match o with
  | FHwp o => hstep env x s o
  | FRated q cpus => snd (get_rated env x g q cpus s)
  | FStatus cpus => snd (get_hwp env g cpus s)
  | FClock cpus => snd (bus_clock_msr env x cpus s)
  end.
Definition frun (env : menv) (x : hwp) (g : fregs) (ops : list fop) (s : mstate) : mstate :=
  fold_left (fstep env x g) ops s.

Definition hops_of (ops : list fop) : list hop :=
  flat_map (fun o => match o with FHwp h => [h] | _ => [] end) ops.
