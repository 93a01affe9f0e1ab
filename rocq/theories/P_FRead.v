(** C56: CPU frequencies, the HWP status and the bus clock that are read from MSRs. *)
From Coq Require Import Ascii String ZifyBool.
From Verif Require Import Base L_Base M_CPUInfo S_CPUInfo X_CPUInfo M_Text M_MSR S_MSR X_MSR M_FMSR S_FMSR M_HWP S_HWP X_HWP M_FRead S_FRead L_FRead2 X_FRead.

(** C56. Reading the base, minimum operating, maximum efficiency or maximum turbo frequency tells, for every CPU and in
    the order asked for, the frequency in the register of the CPU's kind, whatever happened before. It succeeds only
    if all the CPUs have the registers. *)
Theorem C56_read : forall env sc,
  wf_ci (me_ci env) -> (forall a, scope_right env a (sc a)) -> faithful env ->
  forall x, hwp_ok env sc x -> forall g, fregs_ok env g sc ->
  forall ops hw faults, hdisciplined env sc (hops_of ops) ->
  forall q cpus r s', get_rated env x g q cpus (frun env x g ops (msr_init hw faults)) = (Ok r, s') ->
  map fst r = cpus /\
  (forall c f, In (c, f) r <-> In c cpus /\ rated env x g (view env (frun env x g ops (msr_init hw faults))) q c f) /\
  (forall c, In c cpus -> In c (ci_online (me_ci env))) /\ has_levels g q cpus /\ has_ratios g q cpus.
Proof. exact C56_read_l. Qed.
Print Assumptions C56_read.

(** It succeeds if I/O works, the CPUs have the registers and their bus clock is known. *)
Theorem C56_succeeds : forall env sc,
  wf_ci (me_ci env) -> (forall a, scope_right env a (sc a)) -> faithful env ->
  forall x, hwp_ok env sc x -> forall g, fregs_ok env g sc ->
  forall ops hw faults, hdisciplined env sc (hops_of ops) ->
  forall q cpus, io_works (frun env x g ops (msr_init hw faults)) -> NoDup cpus ->
  (forall c, In c cpus -> In c (ci_online (me_ci env)) /\ clock_known env x (view env (frun env x g ops (msr_init hw faults))) c) ->
  has_levels g q cpus -> has_ratios g q cpus ->
  exists r s', get_rated env x g q cpus (frun env x g ops (msr_init hw faults)) = (Ok r, s').
Proof. exact C56_succeeds_l. Qed.
Print Assumptions C56_succeeds.

(** These frequencies stay the same, no matter what frequencies or EPP are set, unless the registers that tell them
    are written. *)
Theorem C56_stable : forall env sc,
  wf_ci (me_ci env) -> (forall a, scope_right env a (sc a)) -> faithful env ->
  forall x, hwp_ok env sc x -> forall g, fregs_ok env g sc ->
  forall ops ops2 hw faults q cpus r1 s1 r2 s2, hdisciplined env sc (hops_of (ops ++ ops2)) ->
  get_rated env x g q cpus (frun env x g ops (msr_init hw faults)) = (Ok r1, s1) ->
  get_rated env x g q cpus (frun env x g ops2 s1) = (Ok r2, s2) ->
  (forall m a d, In (FHwp (HMsr m)) ops2 -> In a [CAP; PLAT; TRL; FSB] -> ~ op_touches env m a d) -> r2 = r1.
Proof. exact C56_stable_l. Qed.
Print Assumptions C56_stable.

(** Reading changes nothing, whether it succeeds or fails. *)
Theorem C56_read_only : forall env sc,
  wf_ci (me_ci env) -> (forall a, scope_right env a (sc a)) -> faithful env ->
  forall x, hwp_ok env sc x -> forall g, fregs_ok env g sc ->
  forall ops hw faults, hdisciplined env sc (hops_of ops) ->
  forall a d, let s := frun env x g ops (msr_init hw faults) in
  (forall q cpus, view env (snd (get_rated env x g q cpus s)) a d = view env s a d) /\
  (forall cpus, view env (snd (get_hwp env g cpus s)) a d = view env s a d) /\
  (forall cpus, view env (snd (bus_clock_msr env x cpus s)) a d = view env s a d).
Proof. exact C56_read_only_l. Qed.
Print Assumptions C56_read_only.

(** The HWP status is the lowest bit of the enable register. *)
Theorem C56_hwp : forall env sc,
  wf_ci (me_ci env) -> (forall a, scope_right env a (sc a)) -> faithful env ->
  forall x, hwp_ok env sc x -> forall g, fregs_ok env g sc ->
  forall ops hw faults, hdisciplined env sc (hops_of ops) ->
  forall cpus r s', get_hwp env g cpus (frun env x g ops (msr_init hw faults)) = (Ok r, s') ->
  (NoDup cpus -> map fst r = cpus) /\
  forall c b, In (c, b) r <-> In c cpus /\ b = Z.testbit (view env (frun env x g ops (msr_init hw faults)) PM (me_dom env PM c)) 0.
Proof. exact C56_hwp_l. Qed.
Print Assumptions C56_hwp.

Theorem C56_hwp_succeeds : forall env sc,
  wf_ci (me_ci env) -> (forall a, scope_right env a (sc a)) -> faithful env ->
  forall x, hwp_ok env sc x -> forall g, fregs_ok env g sc ->
  forall ops hw faults, hdisciplined env sc (hops_of ops) ->
  forall cpus fr, io_works (frun env x g ops (msr_init hw faults)) -> fg_pm g = Ok fr ->
  (forall c, In c cpus -> In c (ci_online (me_ci env)) /\ has fr (s2l "hwp"%string) c = true) ->
  exists r s', get_hwp env g cpus (frun env x g ops (msr_init hw faults)) = (Ok r, s').
Proof. exact C56_hwp_succeeds_l. Qed.
Print Assumptions C56_hwp_succeeds.

(** The bus clock, from whichever of the two mechanisms. *)
Theorem C56_clock : forall env sc,
  wf_ci (me_ci env) -> (forall a, scope_right env a (sc a)) -> faithful env ->
  forall x, hwp_ok env sc x -> forall g, fregs_ok env g sc ->
  forall ops hw faults, hdisciplined env sc (hops_of ops) ->
  forall cpus r, (exists s', bus_clock_msr env x cpus (frun env x g ops (msr_init hw faults)) = (Ok r, s')) \/ bus_clock_doc x cpus = Ok r ->
  (NoDup cpus -> map fst r = cpus) /\
  forall c b, In (c, b) r <-> In c cpus /\ bus_clock env x (view env (frun env x g ops (msr_init hw faults))) c b.
Proof. exact C56_clock_l. Qed.
Print Assumptions C56_clock.

Theorem C56_clock_succeeds : forall env sc,
  wf_ci (me_ci env) -> (forall a, scope_right env a (sc a)) -> faithful env ->
  forall x, hwp_ok env sc x -> forall g, fregs_ok env g sc ->
  forall ops hw faults, hdisciplined env sc (hops_of ops) ->
  forall cpus, io_works (frun env x g ops (msr_init hw faults)) ->
  (forall c, In c cpus -> In c (ci_online (me_ci env)) /\ clock_known env x (view env (frun env x g ops (msr_init hw faults))) c) ->
  cpus <> [] ->
  exists r, (exists s', bus_clock_msr env x cpus (frun env x g ops (msr_init hw faults)) = (Ok r, s')) \/ bus_clock_doc x cpus = Ok r.
Proof. exact C56_clock_succeeds_l. Qed.
Print Assumptions C56_clock_succeeds.

(** Not true: the frequency is told for every CPU that has the ratio in a register that can be read. A CPU with HWP
    that is not enabled has it, but reading says "not supported". *)
Theorem C56_hwp_off_refuted : exists env sc x g hw c fr ratio,
  wf_ci (me_ci env) /\ (forall a, scope_right env a (sc a)) /\ faithful env /\ hwp_ok env sc x /\ fregs_ok env g sc /\
  In c (ci_online (me_ci env)) /\ io_works (msr_init hw []) /\ clock_known env x (view env (msr_init hw [])) c /\
  fst (get_hwp env g [c] (msr_init hw [])) = Ok [(c, false)] /\
  fg_plat g = Ok fr /\ has fr (plat_name KBase) c = true /\
  is_field (ratio_bits KBase) (view env (msr_init hw []) PLAT (me_dom env PLAT c)) ratio /\ ratio = 22 /\
  fst (get_rated env x g KBase [c] (msr_init hw [])) = Exn ENotSupported.
Proof. exact C56_hwp_off_refuted_l. Qed.
Print Assumptions C56_hwp_off_refuted.

(** ** A case: CPUs with and without HWP, a bus clock register, some calls before. *)
Example C56_case :
  (exists s', get_rated h_env (h_plain []) r_all KTurbo [5; 0; 4] r_now = (Ok [(5, 3500000000); (0, 4000000000); (4, 3300000000)], s')) /\
  (exists s', get_rated h_env (h_plain []) r_all KBase [5; 0; 4] r_now = (Ok [(5, 2200000000); (0, 2400000000); (4, 2200000000)], s')) /\
  (exists s', get_rated h_env (h_plain []) r_all KMinOper [2; 7] r_now = (Ok [(2, 400000000); (7, 500000000)], s')) /\
  (exists s', get_rated h_env (h_plain []) r_all KMaxEff [2; 7] r_now = (Ok [(2, 1000000000); (7, 800000000)], s')) /\
  (exists s', get_hwp h_env r_all [3; 6] r_now = (Ok [(3, true); (6, true)], s')) /\
  (exists s', bus_clock_msr h_env (h_plain []) [3; 6] r_now = (Ok [(3, 100000000); (6, 100000000)], s')).
Proof.
  repeat (match goal with |- _ /\ _ => split end); (apply run_ex; vm_compute; reflexivity).
Qed.

Example C56_case_hyps : forall q, exists r s', get_rated h_env (h_plain []) r_all q [5; 0; 4] r_now = (Ok r, s').
Proof.
  assert (H : forall c, In c [5; 0; 4] -> In c (ci_online xci)) by (intros c [<-|[<-|[<-|[]]]]; vm_compute; tauto).
  intros q.  apply (C56_succeeds h_env h_sc xci_wf h_scope_right h_faithful _ (h_plain_ok []) _ (r_ok _) r_ops r_hw [] r_disciplined q).
  - exact r_works.
  - repeat constructor; cbn; intuition discriminate.
  - intros c Hc. split; [now apply H|]. apply (r_clock (ci_online xci)). now apply H.
  - now apply r_levels.
  - now apply r_ratios.
Qed.
