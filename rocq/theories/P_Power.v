(** Property theorems C29: package power limits. *)
From Coq Require Import Ascii String QArith.
From Verif Require Import Base L_Base M_CPUInfo S_CPUInfo X_CPUInfo M_Text M_MSR S_MSR X_MSR M_FMSR S_FMSR
  M_Power S_Power L_Power L_Power2 L_Power3 L_Power4 X_Power.

(** Whatever is set, read or switched, in whatever order, with whatever I/O failures and other users of the MSR
    object: if no CPU starts with the first limit above the second, none ever has it. *)
Theorem C29_ordered : forall env sc,
  wf_ci (me_ci env) -> (forall a, scope_right env a (sc a)) -> faithful env ->
  forall fru frl fri, power_regs fru frl fri -> power_scopes sc ->
  forall ops hw faults, pdisciplined env sc ops ->
  ordered env (pw_ms (power_init hw faults)) ->
  ordered env (pw_ms (prun env fru frl fri ops (power_init hw faults))).
Proof. exact C29_ordered_l. Qed.
Print Assumptions C29_ordered.

(** A setting that succeeds was acceptable for every CPU of the call, and the limit is then less than one unit
    below the value asked for. The rest of the register and all other registers are as before. *)
Theorem C29_accepted : forall env sc,
  wf_ci (me_ci env) -> (forall a, scope_right env a (sc a)) -> faithful env ->
  forall fru frl fri, power_regs fru frl fri -> power_scopes sc ->
  forall ops hw faults two val cpus, pdisciplined env sc (ops ++ [PSet two val cpus]) ->
  let p := prun env fru frl fri ops (power_init hw faults) in
  forall p', set_ppl env fru frl fri two val cpus p = (Ok tt, p') ->
  (forall c, In c (targets env cpus) -> acceptable env (pw_ms p) two val c /\
     exists w q, ppl env (pw_ms p') two c w /\ unit_watts env (pw_ms p') q /\ (w <= val)%Q /\ (val < w + q)%Q) /\
  (forall d i, targeted env a_limit cpus d -> 0 <= i -> ~ in_field (limit_field two) i ->
     Z.testbit (view env (pw_ms p') a_limit d) i = Z.testbit (view env (pw_ms p) a_limit d) i) /\
  (forall a d, ~ (a = a_limit /\ targeted env a_limit cpus d) -> view env (pw_ms p') a d = view env (pw_ms p) a d).
Proof. exact C29_accepted_l. Qed.
Print Assumptions C29_accepted.

(** A setting that is not acceptable for some CPU of the call, or too large for the register, is rejected, and
    nothing at all is written. *)
Theorem C29_rejected : forall env sc,
  wf_ci (me_ci env) -> (forall a, scope_right env a (sc a)) -> faithful env ->
  forall fru frl fri, power_regs fru frl fri -> power_scopes sc ->
  forall ops hw faults two val cpus, pdisciplined env sc (ops ++ [PSet two val cpus]) ->
  let p := prun env fru frl fri ops (power_init hw faults) in
  (exists c, In c (targets env cpus) /\ ~ acceptable env (pw_ms p) two val c) \/
  (targets env cpus <> [] /\ too_large env (pw_ms p) two val) ->
  exists e p', set_ppl env fru frl fri two val cpus p = (Exn e, p') /\
    ms_hw (pw_ms p') = ms_hw (pw_ms p) /\ ms_tbuf (pw_ms p') = ms_tbuf (pw_ms p) /\ ms_log (pw_ms p') = ms_log (pw_ms p).
Proof. exact C29_rejected_l. Qed.
Print Assumptions C29_rejected.

(** Conversely, a setting which is acceptable for every CPU of the call and fits into the register is not
    rejected, unless I/O fails. *)
Theorem C29_available : forall env sc,
  wf_ci (me_ci env) -> (forall a, scope_right env a (sc a)) -> faithful env ->
  forall fru frl fri, power_regs fru frl fri -> power_scopes sc ->
  forall ops hw faults two val cpus, pdisciplined env sc (ops ++ [PSet two val cpus]) ->
  let p := prun env fru frl fri ops (power_init hw faults) in
  power_supported env fru frl fri ->
  io_works (pw_ms p) -> (forall d, 0 <= view env (pw_ms p) a_limit d < 2 ^ 64) ->
  targets env cpus <> [] ->
  (forall c, In c (targets env cpus) -> In c (ci_online (me_ci env)) /\ acceptable env (pw_ms p) two val c) ->
  ~ too_large env (pw_ms p) two val ->
  exists p', set_ppl env fru frl fri two val cpus p = (Ok tt, p').
Proof. exact C29_available_l. Qed.
Print Assumptions C29_available.

(** Whatever the reason of a failure, registers of CPUs not in the call and all other registers are as before, and
    each limit register is as before or has just the acceptable new value in it. *)
Theorem C29_failed : forall env sc,
  wf_ci (me_ci env) -> (forall a, scope_right env a (sc a)) -> faithful env ->
  forall fru frl fri, power_regs fru frl fri -> power_scopes sc ->
  forall ops hw faults two val cpus, pdisciplined env sc (ops ++ [PSet two val cpus]) ->
  let p := prun env fru frl fri ops (power_init hw faults) in
  forall e p', set_ppl env fru frl fri two val cpus p = (Exn e, p') ->
  (forall a d, ~ (a = a_limit /\ targeted env a_limit cpus d) -> view env (pw_ms p') a d = view env (pw_ms p) a d) /\
  ((forall d, view env (pw_ms p') a_limit d = view env (pw_ms p) a_limit d) \/
   ((forall c, In c (targets env cpus) -> acceptable env (pw_ms p) two val c) /\
    forall d, view env (pw_ms p') a_limit d = view env (pw_ms p) a_limit d \/
      exists n q, unit_watts env (pw_ms p) q /\ (inject_Z n * q <= val)%Q /\ (val < inject_Z (n + 1) * q)%Q /\
        is_set (limit_field two) n (view env (pw_ms p) a_limit d) (view env (pw_ms p') a_limit d))).
Proof. exact C29_failed_l. Qed.
Print Assumptions C29_failed.

(** The limits read are those the registers hold (including what waits in a transaction), in Watts, for the CPUs asked
    for; reading writes nothing. *)
Theorem C29_reported : forall env sc,
  wf_ci (me_ci env) -> (forall a, scope_right env a (sc a)) -> faithful env ->
  forall fru frl fri, power_regs fru frl fri -> power_scopes sc ->
  forall ops hw faults two cpus r p', pdisciplined env sc (ops ++ [PGet two cpus]) ->
  let p := prun env fru frl fri ops (power_init hw faults) in
  pstep env fru frl fri (PGet two cpus) p = (Ok r, p') ->
  (forall c, In c (map fst r) <-> In c (targets env cpus)) /\
  (forall c w, In (c, w) r -> ppl env (pw_ms p) two c w) /\
  ms_hw (pw_ms p') = ms_hw (pw_ms p) /\ ms_tbuf (pw_ms p') = ms_tbuf (pw_ms p) /\ ms_log (pw_ms p') = ms_log (pw_ms p).
Proof.
  exact (fun env sc Hwf Hsc Hf fru frl fri Hr Hs ops hw faults two cpus r p' =>
    C29_reported_l env sc Hwf Hsc Hf fru frl fri Hr Hs ops hw faults true two cpus r p').
Qed.
Print Assumptions C29_reported.

(** The same for the TDP. *)
Theorem C29_tdp : forall env sc,
  wf_ci (me_ci env) -> (forall a, scope_right env a (sc a)) -> faithful env ->
  forall fru frl fri, power_regs fru frl fri -> power_scopes sc ->
  forall ops hw faults cpus r p', pdisciplined env sc (ops ++ [PTdp cpus]) ->
  let p := prun env fru frl fri ops (power_init hw faults) in
  pstep env fru frl fri (PTdp cpus) p = (Ok r, p') ->
  (forall c, In c (map fst r) <-> In c (targets env cpus)) /\
  (forall c w, In (c, w) r -> tdp env (pw_ms p) c w) /\
  ms_hw (pw_ms p') = ms_hw (pw_ms p) /\ ms_tbuf (pw_ms p') = ms_tbuf (pw_ms p) /\ ms_log (pw_ms p') = ms_log (pw_ms p).
Proof.
  exact (fun env sc Hwf Hsc Hf fru frl fri Hr Hs ops hw faults cpus r p' =>
    C29_reported_l env sc Hwf Hsc Hf fru frl fri Hr Hs ops hw faults false true cpus r p').
Qed.
Print Assumptions C29_tdp.

(** A switch that is set successfully has its bit set on every targeted package; nothing else changes. *)
Theorem C29_switch : forall env sc,
  wf_ci (me_ci env) -> (forall a, scope_right env a (sc a)) -> faithful env ->
  forall fru frl fri, power_regs fru frl fri -> power_scopes sc ->
  forall ops hw faults two k v on cpus, pdisciplined env sc (ops ++ [PSwitch two k v cpus]) -> on_off v on ->
  let p := prun env fru frl fri ops (power_init hw faults) in
  forall p', set_switch env frl two k v cpus p = (Ok tt, p') ->
  (forall d, targeted env a_limit cpus d ->
     is_set (switch_field two k) (if on then 1 else 0) (view env (pw_ms p) a_limit d) (view env (pw_ms p') a_limit d)) /\
  (forall a d, ~ (a = a_limit /\ targeted env a_limit cpus d) -> view env (pw_ms p') a d = view env (pw_ms p) a d).
Proof. exact C29_switch_l. Qed.
Print Assumptions C29_switch.

Example C29_switch_case : on_off (VBool false) false /\
  fst (set_switch xp_env xp_l false Enable (VBool false) (Some [4; 5]) xp_state) = Ok tt /\
  Z.testbit (view xp_env (pw_ms xp_state) 1552 1) 15 = true /\
  Z.testbit (view xp_env (pw_ms (snd (set_switch xp_env xp_l false Enable (VBool false) (Some [4; 5]) xp_state))) 1552 1) 15 = false.
Proof. split; [now left|]. repeat split; vm_compute; reflexivity. Qed.

(** The hypotheses hold for the two-package system of X_Power.v and a history with a transaction. *)
Example C29_ex_hyps : wf_ci (me_ci xp_env) /\ (forall a, scope_right xp_env a (xp_sc a)) /\ faithful xp_env /\
  power_regs xp_u xp_l xp_i /\ power_scopes xp_sc /\ pdisciplined xp_env xp_sc (xp_ops ++ [xp_last]) /\
  ordered xp_env (pw_ms (power_init xp_hw [])).
Proof.
  exact (conj xci_wf (conj xp_scope_right (conj xp_faithful (conj xp_regs (conj xp_scopes (conj xp_disc xp_init_ordered)))))).
Qed.

Example C29_ex_run : fst xp_next = Ok tt /\
  view xp_env (pw_ms (snd xp_next)) 1552 1 = 1200 * 2 ^ 32 + 1005 + 2 ^ 15 + 5 * 2 ^ 17 /\
  view xp_env (pw_ms (snd xp_next)) 1552 0 = 1200 * 2 ^ 32 + 800 + 2 ^ 15 + 5 * 2 ^ 17.
Proof. exact C29_ex_run_l. Qed.

Example C29_ex_acceptable : (exists c, In c (targets xp_env (Some [4; 5])) /\
    ~ acceptable xp_env (pw_ms xp_state) false 180 c) /\
  (forall c, In c (targets xp_env (Some [4; 5])) ->
    In c (ci_online xci) /\ acceptable xp_env (pw_ms xp_state) false (1005 # 8) c) /\
  too_large xp_env (pw_ms xp_state) false 4096 /\ ~ too_large xp_env (pw_ms xp_state) false (1005 # 8) /\
  io_works (pw_ms xp_state) /\ power_supported xp_env xp_u xp_l xp_i.
Proof. exact C29_ex_acceptable_l. Qed.
