(** C26, C27: frequencies and EPP through the HWP request registers. *)
From Coq Require Import Ascii String ZifyBool.
From Verif Require Import Base M_CPUInfo S_CPUInfo X_CPUInfo M_Text M_MSR S_MSR X_MSR M_FMSR S_FMSR M_HWP S_HWP L_HWP6 X_HWP.

(** C26. A multiple of the bus clock that was set is read back, on both core types, whatever happened before and
    whatever calls that do not set it again are made in between. *)
Theorem C26_roundtrip : forall env sc,
  wf_ci (me_ci env) -> (forall a, scope_right env a (sc a)) -> faithful env ->
  forall x, hwp_ok env sc x ->
  forall k f cpus ops ops2 hw faults s1 c cpus' r s2 g b,
  k <> HEpp -> uniform env x -> hdisciplined env sc (ops ++ HSetFreq k f cpus :: ops2) ->
  set_freq_msr env x k f cpus (hrun env x ops (msr_init hw faults)) = (Ok tt, s1) -> In c cpus ->
  (forall o, In o ops2 -> ~ hop_touches env k c o) ->
  get_freq_msr env x k cpus' (hrun env x ops2 s1) = (Ok r, s2) -> In (c, g) r ->
  bus_clock env x (view env s1) c b -> (exists q, f = q * b) -> g = f.
Proof. exact C26_roundtrip_l. Qed.
Print Assumptions C26_roundtrip.

(** For any frequency, a multiple of the bus clock is read back that is less than one bus clock away. It is not above
    the frequency asked for on CPUs that are not P-cores. Missing: P-cores, for which this is not true. *)
Theorem C26_floor_partial : forall env sc,
  wf_ci (me_ci env) -> (forall a, scope_right env a (sc a)) -> faithful env ->
  forall x, hwp_ok env sc x ->
  forall k f cpus ops ops2 hw faults s1 c cpus' r s2 g b,
  k <> HEpp -> uniform env x -> hdisciplined env sc (ops ++ HSetFreq k f cpus :: ops2) ->
  set_freq_msr env x k f cpus (hrun env x ops (msr_init hw faults)) = (Ok tt, s1) -> In c cpus ->
  (forall o, In o ops2 -> ~ hop_touches env k c o) ->
  get_freq_msr env x k cpus' (hrun env x ops2 s1) = (Ok r, s2) -> In (c, g) r ->
  bus_clock env x (view env s1) c b ->
  (exists q, g = q * b) /\ Z.abs (g - f) < b /\ (~ In c (hw_pcores x) -> g <= f).
Proof. exact C26_floor_partial_l. Qed.
Print Assumptions C26_floor_partial.

Theorem C26_pcore_refuted : exists env sc x hw f c s1 s2 g,
  wf_ci (me_ci env) /\ (forall a, scope_right env a (sc a)) /\ faithful env /\ hwp_ok env sc x /\ uniform env x /\
  In c (ci_online (me_ci env)) /\
  set_freq_msr env x HMax f [c] (msr_init hw []) = (Ok tt, s1) /\
  get_freq_msr env x HMax [c] s1 = (Ok [(c, g)], s2) /\ f < g.
Proof. exact C26_pcore_refuted_l. Qed.
Print Assumptions C26_pcore_refuted.

(** C27. Reading returns the frequency in effect, each CPU once. *)
Theorem C27_read_freq : forall env sc,
  wf_ci (me_ci env) -> (forall a, scope_right env a (sc a)) -> faithful env ->
  forall x, hwp_ok env sc x ->
  forall ops hw faults, hdisciplined env sc ops ->
  forall k cpus r s', get_freq_msr env x k cpus (hrun env x ops (msr_init hw faults)) = (Ok r, s') ->
  (NoDup cpus -> map fst r = cpus) /\
  forall c f, In (c, f) r <-> In c cpus /\ freq_in_effect env x (view env (hrun env x ops (msr_init hw faults))) k c f.
Proof. exact C27_read_freq_l. Qed.
Print Assumptions C27_read_freq.

Theorem C27_read_epp : forall env sc,
  wf_ci (me_ci env) -> (forall a, scope_right env a (sc a)) -> faithful env ->
  forall x, hwp_ok env sc x ->
  forall ops hw faults, hdisciplined env sc ops ->
  forall c v s', epp_read_msr env x c (hrun env x ops (msr_init hw faults)) = (Ok (Some v), s') ->
  setting env x (view env (hrun env x ops (msr_init hw faults))) HEpp c v.
Proof. exact C27_read_epp_l. Qed.
Print Assumptions C27_read_epp.

(** Reading changes nothing. *)
Theorem C27_read_only : forall env sc,
  wf_ci (me_ci env) -> (forall a, scope_right env a (sc a)) -> faithful env ->
  forall x, hwp_ok env sc x ->
  forall ops hw faults, hdisciplined env sc ops ->
  forall a d, let s := hrun env x ops (msr_init hw faults) in
  (forall k cpus, view env (snd (get_freq_msr env x k cpus s)) a d = view env s a d) /\
  (forall c, view env (snd (epp_read_msr env x c s)) a d = view env s a d).
Proof. exact C27_read_only_l. Qed.
Print Assumptions C27_read_only.

(** A frequency that was set is in effect, rounded to a level, until the CPU's setting is written again, no matter
    whether the packages had been in control. Missing: systems where only some of the CPUs know package control. *)
Theorem C27_set_freq_partial : forall env sc,
  wf_ci (me_ci env) -> (forall a, scope_right env a (sc a)) -> faithful env ->
  forall x, hwp_ok env sc x ->
  forall k f cpus ops ops2 hw faults s1 c,
  k <> HEpp -> uniform env x -> hdisciplined env sc (ops ++ HSetFreq k f cpus :: ops2) ->
  set_freq_msr env x k f cpus (hrun env x ops (msr_init hw faults)) = (Ok tt, s1) -> In c cpus ->
  (forall o, In o ops2 -> ~ hop_touches env k c o) ->
  exists b p, bus_clock env x (view env s1) c b /\ freq_level x c b f p /\
    setting env x (view env (hrun env x ops2 s1)) k c p /\
    forall g, freq_in_effect env x (view env (hrun env x ops2 s1)) k c g <-> level_freq x c b p g.
Proof. exact C27_set_freq_l. Qed.
Print Assumptions C27_set_freq_partial.

Theorem C27_mixed_refuted : exists env sc x hw f c s1 s2,
  wf_ci (me_ci env) /\ (forall a, scope_right env a (sc a)) /\ faithful env /\ hwp_ok env sc x /\
  In c (ci_online (me_ci env)) /\
  set_freq_msr env x HMax f [c] (msr_init hw []) = (Ok tt, s1) /\
  get_freq_msr env x HMax [c] s1 = (Ok [(c, 4000000000)], s2) /\ f = 1500000000.
Proof. exact C27_mixed_refuted_l. Qed.
Print Assumptions C27_mixed_refuted.

(** Setting a frequency, successfully or not, leaves the other settings of all CPUs alone, and all settings of the CPUs that
    were not asked for, and other registers. Missing: the CPUs that were not asked for and leave this setting to their
    package, for which this is not true. *)
Theorem C27_set_others_partial : forall env sc,
  wf_ci (me_ci env) -> (forall a, scope_right env a (sc a)) -> faithful env ->
  forall x, hwp_ok env sc x ->
  forall ops hw faults, hdisciplined env sc ops ->
  forall k f cpus r s' c, 0 <= f ->
  set_freq_msr env x k f cpus (hrun env x ops (msr_init hw faults)) = (r, s') -> In c (ci_online (me_ci env)) ->
  let s := hrun env x ops (msr_init hw faults) in
  (forall k' v, k' <> k -> setting env x (view env s') k' c v <-> setting env x (view env s) k' c v) /\
  (~ In c cpus -> pkg_decides env x (view env s) k c = false -> same_settings env x (view env s) (view env s') c) /\
  (forall a d, a <> REQ -> view env s' a d = view env s a d).
Proof. exact C27_set_others_l. Qed.
Print Assumptions C27_set_others_partial.

Theorem C27_set_others_refuted : exists env sc x hw f c c' s1 s2,
  wf_ci (me_ci env) /\ (forall a, scope_right env a (sc a)) /\ faithful env /\ hwp_ok env sc x /\ uniform env x /\
  In c (ci_online (me_ci env)) /\ In c' (ci_online (me_ci env)) /\ c <> c' /\
  set_freq_msr env x HMax f [c] (msr_init hw []) = (Ok tt, s1) /\
  fst (get_freq_msr env x HMax [c'] (msr_init hw [])) = Ok [(c', 4000000000)] /\
  get_freq_msr env x HMax [c'] s1 = (Ok [(c', 3000000000)], s2).
Proof. exact C27_set_refuted_l. Qed.
Print Assumptions C27_set_others_refuted.

(** If setting a frequency fails, each CPU that decides itself has its old setting or the new one. *)
Theorem C27_set_failed : forall env sc,
  wf_ci (me_ci env) -> (forall a, scope_right env a (sc a)) -> faithful env ->
  forall x, hwp_ok env sc x ->
  forall ops hw faults, hdisciplined env sc ops ->
  forall k f cpus e s' c, 0 <= f ->
  set_freq_msr env x k f cpus (hrun env x ops (msr_init hw faults)) = (Exn e, s') -> In c (ci_online (me_ci env)) ->
  let s := hrun env x ops (msr_init hw faults) in pkg_decides env x (view env s) k c = false ->
  (forall v, setting env x (view env s') k c v <-> setting env x (view env s) k c v) \/
  (In c cpus /\ exists b p, bus_clock env x (view env s) c b /\ freq_level x c b f p /\
     forall v, setting env x (view env s') k c v <-> v = p).
Proof. exact C27_set_failed_l. Qed.
Print Assumptions C27_set_failed.

(** EPP that was set is in effect, and read, until it is set again, no matter whether the package had been in control. *)
Theorem C27_epp : forall env sc,
  wf_ci (me_ci env) -> (forall a, scope_right env a (sc a)) -> faithful env ->
  forall x, hwp_ok env sc x ->
  forall v c ops ops2 hw faults s1, hdisciplined env sc (ops ++ HSetEpp v c :: ops2) ->
  epp_write_msr env x v c (hrun env x ops (msr_init hw faults)) = (Ok tt, s1) ->
  (forall o, In o ops2 -> ~ hop_touches env HEpp c o) ->
  (forall w, setting env x (view env (hrun env x ops2 s1)) HEpp c w <-> w = v) /\
  forall r s2, epp_read_msr env x c (hrun env x ops2 s1) = (Ok r, s2) -> r = Some v.
Proof. exact C27_epp_l. Qed.
Print Assumptions C27_epp.

(** Setting EPP, successfully or not, changes neither any setting of the other CPUs nor the other settings of the CPU. *)
Theorem C27_epp_others : forall env sc,
  wf_ci (me_ci env) -> (forall a, scope_right env a (sc a)) -> faithful env ->
  forall x, hwp_ok env sc x ->
  forall ops hw faults, hdisciplined env sc ops ->
  forall v c r s' c', 0 <= v ->
  epp_write_msr env x v c (hrun env x ops (msr_init hw faults)) = (r, s') -> In c' (ci_online (me_ci env)) ->
  let s := hrun env x ops (msr_init hw faults) in
  (c' <> c -> same_settings env x (view env s) (view env s') c') /\
  (forall k w, k <> HEpp -> setting env x (view env s') k c' w <-> setting env x (view env s) k c' w) /\
  (forall a d, a <> REQ -> view env s' a d = view env s a d).
Proof. exact C27_epp_others_l. Qed.
Print Assumptions C27_epp_others.

(** ** The hypotheses are met by a system with package control, where CPU 1 leaves its settings to its package. *)
Definition h_all := h_plain (ci_online xci).
Definition h_before := hrun h_env h_all h_ops (msr_init h_hw []).
Definition h_set := set_freq_msr h_env h_all HMax 2050000000 [1; 2] h_before.

Example C26_case :
  wf_ci (me_ci h_env) /\ (forall a, scope_right h_env a (h_sc a)) /\ faithful h_env /\ hwp_ok h_env h_sc h_all /\ uniform h_env h_all /\
  hdisciplined h_env h_sc (h_ops ++ HSetFreq HMax 2050000000 [1; 2] :: h_ops2) /\
  fst (get_freq_msr h_env h_all HMax [0; 1; 2; 5] h_before) = Ok [(0, 3000000000); (1, 4000000000); (2, 3000000000); (5, 4000000000)] /\
  fst h_set = Ok tt /\
  (forall o, In o h_ops2 -> ~ hop_touches h_env HMax 1 o) /\
  fst (get_freq_msr h_env h_all HMax [1; 2] (hrun h_env h_all h_ops2 (snd h_set))) = Ok [(1, 2000000000); (2, 2000000000)].
Proof.
  split; [exact xci_wf|]. split; [exact h_scope_right|]. split; [exact h_faithful|]. split; [apply h_plain_ok|].
  split; [exact (h_uniform_all false)|]. split; [apply h_all_disciplined; lia|].
  split; [vm_compute; reflexivity|]. split; [vm_compute; reflexivity|]. split; [|vm_compute; reflexivity].
  intros o Ho. cbn in Ho. repeat (destruct Ho as [<-|Ho]; [cbn; unfold targeted; intuition (try discriminate; try lia)|]). destruct Ho.
Qed.

(** A hybrid system: 2.4 GHz on the P-core 0 and on CPU 2. *)
Example C26_hybrid_case :
  let x := h_hybrid (ci_online xci) in hwp_ok h_env h_sc x /\ uniform h_env x /\
  hdisciplined h_env h_sc (h_ops ++ HSetFreq HMax 2400000000 [0; 2] :: h_ops2) /\
  let s1 := set_freq_msr h_env x HMax 2400000000 [0; 2] (hrun h_env x h_ops (msr_init h_hw [])) in
  fst s1 = Ok tt /\ fst (get_freq_msr h_env x HMax [0; 2] (snd s1)) = Ok [(0, 2400000000); (2, 2400000000)] /\
  bus_clock h_env x (view h_env (snd s1)) 0 100000000.
Proof.
  split; [apply h_hybrid_ok|]. split; [exact (h_uniform_all true)|]. split; [apply h_all_disciplined; lia|].
  split; [vm_compute; reflexivity|]. split; [vm_compute; reflexivity|]. split; reflexivity.
Qed.

Example C27_case :
  pkg_decides h_env h_all (view h_env (msr_init h_hw [])) HEpp 1 = true /\
  fst (epp_read_msr h_env h_all 1 (msr_init h_hw [])) = Ok (Some 128) /\
  fst (epp_write_msr h_env h_all 33 1 (msr_init h_hw [])) = Ok tt /\
  fst (epp_read_msr h_env h_all 1 (snd (epp_write_msr h_env h_all 33 1 (msr_init h_hw [])))) = Ok (Some 33) /\
  fst (epp_read_msr h_env h_all 5 (snd (epp_write_msr h_env h_all 33 1 (msr_init h_hw [])))) = Ok (Some 128) /\
  fst (set_freq_msr h_env h_all HMin 200000000000 [0; 3] (msr_init h_hw [])) = Exn EError.
Proof. repeat (split; [vm_compute; reflexivity|]). vm_compute. reflexivity. Qed.
