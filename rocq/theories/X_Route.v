(** Examples for what stands behind the properties (C73): a machine. *)
From Coq Require Import Ascii String.
From Verif Require Import Base M_Text M_CPUInfo M_Props M_PStates M_CFreq M_Route S_Route.
Open Scope list_scope.
Open Scope Z_scope.

(** What is written is kept in a list. *)
Definition xstate := list (obj * str * list str * dval * list Z).
Definition xnum (n : Z) (cpus : list Z) : gen (Z * option dval) := (map (fun c => (c, Some (DNum n))) cpus, None).
Definition xdict : dval :=
  DDict [(s2l "pkg_cstate_limit", DText (s2l "PC6")); (s2l "pkg_cstate_limits", DTexts [s2l "PC0"; s2l "PC6"]);
         (s2l "pkg_cstate_limit_aliases", DDict [])].

Definition xread (o : obj) (meth : str) (args : list str) (cpus : list Z) (st : xstate) : gen (Z * option dval) :=
  let m s := str_eqb meth (s2l s) in
  match o with
  | CpufreqSysfs =>
      if m "get_min_freq_limit"%string then xnum 800 cpus else if m "get_max_freq_limit"%string then xnum 3000 cpus
      else if m "get_min_freq"%string then xnum 1000 cpus else if m "get_max_freq"%string then xnum 2500 cpus
      else if m "get_driver"%string then (map (fun c => (c, Some (DText (s2l "intel_pstate")))) cpus, None)
      else if m "get_governor"%string then (map (fun c => (c, Some (DText (s2l "powersave")))) cpus, None)
      else ([], Some ENotSupported)
  | CpufreqMsr => if m "get_base_freq"%string then xnum 2000 cpus else ([], Some ENotSupported)
  | CpufreqCppc =>
      if m "get_base_perf"%string then xnum 20 cpus else if m "get_min_perf_limit"%string then xnum 5 cpus
      else if m "get_max_perf_limit"%string then xnum 35 cpus else ([], Some ENotSupported)
  | PCStateObj => match args with
                  | [a] => if str_eqb a (s2l "pkg_cstate_limit") then (map (fun c => (c, Some xdict)) cpus, None) else ([], Some ENotSupported)
                  | _ => ([], Some ENotSupported)
                  end
  | LimitObj => xnum 150 cpus
  | PmqosObj => xnum 7 cpus
  | _ => ([], Some ENotSupported)
  end.

Definition xlower : lower xstate :=
  LO xread
     (fun meth dies _ => (map (fun d => (d, Some (DNum (if str_eqb meth (s2l "get_min_freq_limit_dies") then 800000000
                                                        else if str_eqb meth (s2l "get_max_freq_limit_dies") then 2500000000
                                                        else if str_eqb meth (s2l "get_min_freq_dies") then 800000000 else 2400000000)))) dies, None))
     (fun o meth _ => Ok (DText meth))
     (fun o meth args v cpus st =>
        match o with
        | EppObj => (Exn EError, st)
        | _ => (Ok tt, st ++ [(o, meth, args, v, cpus)])
        end)
     (fun meth v dies st => (Ok tt, st ++ [(UncoreSysfs, meth, [], v, map fst dies)]))
     (fun o meth v st => (Ok tt, st ++ [(o, meth, [], v, [])]))
     (fun _ => Exn ENotSupported) true (fun _ _ => Some 0) (fun _ v _ _ => match v with DNum n => if n <? 100 then Exn EError else Ok tt | _ => Exn EError end)
     (fun _ _ _ => Ok (SPackage, SCore)).

Lemma x_sources : pstates_read xlower 1 (s2l "min_freq") [0; 4] (s2l "sysfs") [] = ([(0, Some (DNum 1000)); (4, Some (DNum 1000))], None) /\
  cstates_get xlower (s2l "pkg_cstate_limits") [2] (s2l "doc") [] = ([(2, Some (DTexts [s2l "PC0"; s2l "PC6"]))], None) /\
  cstates_get xlower (s2l "idle_driver") [2; 3] (s2l "sysfs") [] =
    ([(2, Some (DText (s2l "get_idle_driver"))); (3, Some (DText (s2l "get_idle_driver")))], None) /\
  power_get xlower (s2l "ppl1") [0] (s2l "msr") [] = ([(0, Some (DNum 150))], None) /\
  pmqos_get xlower (s2l "latency_limit") [1] [] = ([(1, Some (DNum 7))], None).
Proof. vm_compute. repeat split. Qed.

Lemma x_keys_unique : keys_unique xlower.
Proof.
  intros o meth args cpus st l e c d E H. cbn [lo_read xlower] in E.
  assert (N : forall n, ~ In (c, Some (DDict d)) (fst (xnum n cpus))).
  { intros n X. cbn in X. apply in_map_iff in X as (c' & E' & _). discriminate. }
  assert (T : forall t, ~ In (c, Some (DDict d)) (map (fun c => (c, Some (DText t))) cpus)).
  { intros t X. apply in_map_iff in X as (c' & E' & _). discriminate. }
  assert (D : In (c, Some (DDict d)) (map (fun c => (c, Some xdict)) cpus) -> NoDup (map fst d)).
  { intros X. apply in_map_iff in X as (c' & E' & _). injection E' as _ <-. repeat constructor; cbn; intros X; repeat destruct X as [X|X]; try discriminate; destruct X. }
  assert (Z0 : forall x, ([], Some ENotSupported) = (x, e) -> ~ In (c, Some (DDict d)) x) by (intros x [= <- <-] []).
  assert (N' : forall n x, xnum n cpus = (x, e) -> ~ In (c, Some (DDict d)) x) by (intros n x E' X; apply (N n); now rewrite E').
  assert (T' : forall t x, (map (fun c => (c, Some (DText t))) cpus, None) = (x, e) -> ~ In (c, Some (DDict d)) x) by (intros t x [= <- <-]; apply T).
  destruct o; cbn [xread] in E; try (exfalso; first [exact (Z0 _ E H)|exact (N' _ _ E H)]);
  try (exfalso; repeat match type of E with context [if ?b then _ else _] => destruct b; try (first [exact (Z0 _ E H)|exact (N' _ _ E H)|exact (T' _ _ E H)]) end; fail).
  destruct args as [|a [|a' args]]; [destruct (Z0 _ E H)| |destruct (Z0 _ E H)]. destruct (str_eqb a (s2l "pkg_cstate_limit")); [|destruct (Z0 _ E H)].
  injection E as <- <-. exact (D H).
Qed.

Lemma x_cppc : pstates_read xlower 1 (s2l "min_oper_freq") [0; 4] (s2l "cppc") [] = ([(0, Some (DNum 500)); (4, Some (DNum 500))], None) /\
  base_freqs xlower [0; 4] [] (fun _ => 2000) /\ refuses_cpus xlower CpufreqCppc "get_min_freq_limit" [0; 4] [].
Proof. split; [vm_compute; reflexivity|]. split; [right; split; [reflexivity|left; reflexivity]|reflexivity]. Qed.

Definition xlower_fsb : lower xstate :=
  LO (fun o meth args cpus st => match o with
                                 | FsbObj => xnum 1 cpus
                                 | _ => if str_eqb meth (s2l "get_min_freq") then xnum 8000 cpus
                                        else if str_eqb meth (s2l "get_max_freq") then xnum 10500 cpus else xread o meth args cpus st
                                 end)
     (lo_read_dies xlower) (lo_get xlower) (lo_write xlower) (lo_write_dies xlower) (lo_put xlower) (fun _ => Ok tt) true (lo_err_cpu xlower)
     (lo_check xlower) (lo_scopes xlower).
Lemma x_frequencies : pstates_read xlower_fsb 1 (s2l "frequencies") [3] (s2l "doc") [] = ([(3, Some (DNums [8000; 9000; 10000]))], None) /\
  freqs xlower_fsb "get_min_freq" [3] [] (fun _ => 8000) /\ freqs xlower_fsb "get_max_freq" [3] [] (fun _ => 10500) /\
  bus_clocks xlower_fsb [3] [] (fun _ => 1000).
Proof.
  split; [vm_compute; reflexivity|]. split; [left; reflexivity|]. split; [left; reflexivity|]. left. split; [reflexivity|].
  exists (fun _ => 1). split; [reflexivity|]. intros c. reflexivity.
Qed.

Lemma x_freq_set : pstates_set xlower (s2l "max_freq") (DText (s2l "base")) [0; 4] (s2l "sysfs") [] =
  (Ok tt, [(CpufreqSysfs, s2l "set_max_freq", [], DNum 2000, [0; 4])]).
Proof. vm_compute. reflexivity. Qed.
Lemma x_freq_allowed : allowed xlower CpufreqSysfs true 0 [] 1200 /\ ~ allowed xlower CpufreqSysfs true 0 [] 2600.
Proof.
  assert (T : forall m n n', tells xlower CpufreqSysfs m 0 [] n -> xread CpufreqSysfs (s2l m) [] [0] [] = xnum n' [0] -> n = n').
  { intros m n n' (c & l & e & E) E'. unfold answers in E. cbn [map] in E. change (lo_read xlower) with xread in E. rewrite E' in E.
    cbn in E. injection E as _ <- _ _. reflexivity. }
  split.
  - exists 800, 3000, 2500. repeat split; try lia; eexists _, _, _; reflexivity.
  - intros (l & h & cur & _ & _ & _ & C & O). apply (T _ _ 2500) in C; [|reflexivity]. subst cur. cbn in O. lia.
Qed.
Lemma x_die_set : exists go, pstates_set_dies xlower (s2l "min_uncore_freq") (DText (s2l "mdl")) [(0, 1); (1, 0)] = Some go /\
  go [] = (Ok tt, [(UncoreSysfs, s2l "set_min_freq_dies", [], DNum 1600000000, [0; 1])]).
Proof. eexists. split; [reflexivity|]. vm_compute. reflexivity. Qed.

Lemma x_epp : pstates_set xlower (s2l "epp") (DText (s2l "128")) [0] (s2l "sysfs") [] = (Exn ENotSupported, []) /\
  lo_write xlower EppObj (s2l "set_vals") [s2l "sysfs"] (DText (s2l "128")) [0] [] = (Exn EError, []).
Proof. vm_compute. split; reflexivity. Qed.
