(** C33: printed properties. C50: saving and restoring properties. *)
From Coq Require Import Ascii String.
From Verif Require Import Base L_Base M_CPUInfo S_CPUInfo L_CPUInfo X_CPUInfo M_Text M_Props S_Props X_Props M_OpTarget X_OpTarget M_Print S_Print
  L_Print L_Print2 L_Print3 L_Print4 L_Print5 L_Print6 X_Print.

(** ** C33: what is printed is a partition of what was read *)

(** Whatever the values are read with: every value read, of every property, is listed for its CPU, die or package under the
    mechanism that gave it, and nothing else is listed; no mechanism, property or value is there twice. *)
Theorem C33_exact : forall (V : Type) (veqb : V -> V -> bool), (forall x y, veqb x y = true <-> x = y) ->
  forall (S : Type) (rd : Z -> bool -> M S (list (@pitem V))) props skip_ro skip pnames s a s', NoDup pnames ->
  build_loop veqb rd props pnames skip_ro skip [] s = (Ok a, s') ->
  exists l, reading rd props skip_ro pnames s l s' /\ no_repeats a /\
    (forall m p v k, listed a m p v k <-> exists items, In (p, items) l /\ In (k, v, m) items /\ shown skip v) /\
    (forall p items, In (p, items) l -> read_once items ->
       (forall m d sn vals v n, In (m, d) a -> In (p, (sn, vals)) d -> In (v, n) vals -> each_once sn n) /\
       (forall m v m' v' k, listed a m p v k -> listed a m' p v' k -> m = m' /\ v = v')).
Proof. exact @build_partition. Qed.
Print Assumptions C33_exact.

(** The printers of 'pepc' read through the property classes: then every CPU, die or package is listed once. *)
Theorem C33_partition : forall (St V : Type) (cls : pclass St V), (forall x y, pc_veqb cls x y = true <-> x = y) ->
  forall mnames pnames ro skip s a s', one_value_per_cpu cls -> NoDup (asked_pnames (pc_props cls) pnames) ->
  aggr_props (pc_veqb cls) (get_prop_sname cls mnames) (pc_props cls) pnames ro skip s = (Ok a, s') ->
  exists names l,
    (forall p, In p names <-> In p (asked_pnames (pc_props cls) pnames) /\
                 (ro = true -> exists d, dget Z.eqb (pc_props cls) p = Some d /\ pd_writable d = true)) /\
    reading (get_prop_sname cls mnames) (pc_props cls) ro names s l s' /\ no_repeats a /\
    (forall m p v k, listed a m p v k <-> exists items, In (p, items) l /\ In (k, v, m) items /\ shown skip v) /\
    (forall m d p sn vals v n, In (m, d) a -> In (p, (sn, vals)) d -> In (v, n) vals -> each_once sn n) /\
    (forall m p v m' v' k, listed a m p v k -> listed a m' p v' k -> m = m' /\ v = v').
Proof. exact @print_ok. Qed.
Print Assumptions C33_partition.

Theorem C33_exists : forall (St V : Type) (cls : pclass St V), (forall x y, pc_veqb cls x y = true <-> x = y) ->
  forall mnames pnames ro skip s a s', one_value_per_cpu cls -> wf_ci (pc_ci cls) -> NoDup (asked_pnames (pc_props cls) pnames) ->
  aggr_props (pc_veqb cls) (get_prop_sname cls mnames) (pc_props cls) pnames ro skip s = (Ok a, s') -> printable (pc_ci cls) a.
Proof. exact @print_printable. Qed.
Print Assumptions C33_exists.

Example C33_partition_ex : one_value_per_cpu xcls /\ wf_ci (pc_ci xcls) /\
  match aggr_props (pc_veqb xcls) (get_prop_sname xcls None) (pc_props xcls) (Some [0; 2; 4; 7]) false true xps2 with
  | (Ok a, _) => a =
      [(2, [(0, (RCPU, [(Some 10, NList [0; 1; 2; 3]); (Some 14, NList [4; 5; 6; 7])]));
            (2, (RPkg, [(Some 10, NList [0]); (Some 14, NList [1])]));
            (4, (RDie, [(Some 10, NDict [(0, [0; 1])]); (Some 14, NDict [(1, [0; 1])])]))])]
  | _ => False end.
Proof. split; [exact xcls_one|]. split; [exact xci_wf|]. exact xaggr_l. Qed.
(** If the CPUs of a package differ, the values are read again per CPU. *)
Example C33_again_ex :
  match aggr_props (pc_veqb xcls) (get_prop_sname xcls None) (pc_props xcls) (Some [2; 7]) false false xps with
  | (Ok a, _) => a =
      [(2, [(2, (RCPU, [(Some 10, NList [0]); (Some 11, NList [1]); (Some 12, NList [2]); (Some 13, NList [3]);
                        (Some 14, NList [4; 5; 6; 7])]))]);
       (1, [(7, (RCPU, [(None, NList [0; 1; 2; 3; 4; 5; 6; 7])]))])]
  | _ => False end.
Proof. vm_compute. reflexivity. Qed.

(** Printing fails only if reading does. *)
Theorem C33_succeeds : forall (St V : Type) (cls : pclass St V), (forall x y, pc_veqb cls x y = true <-> x = y) ->
  forall mnames pnames ro skip s,
  (forall p, In p (asked_pnames (pc_props cls) pnames) -> exists d, dget Z.eqb (pc_props cls) p = Some d) ->
  exists names, normalize_pnames (pc_props cls) pnames ro = Ok names /\
  forall l s', reading (get_prop_sname cls mnames) (pc_props cls) ro names s l s' ->
  exists a, aggr_props (pc_veqb cls) (get_prop_sname cls mnames) (pc_props cls) pnames ro skip s = (Ok a, s').
Proof. exact @print_live. Qed.
Print Assumptions C33_succeeds.

(** ** The text *)

Theorem C33_text : forall ci sn n t, wf_ci ci -> even_dies ci -> (forall k, exists_num ci k -> nonneg_num k) ->
  each_once sn n -> (forall k, holds sn n k -> exists_num ci k) -> fmt_nums ci sn n = Ok t -> nums_text ci sn n t.
Proof. exact fmt_nums_ok. Qed.
Print Assumptions C33_text.

Theorem C33_text_succeeds : forall ci sn n, wf_ci ci -> (forall k, exists_num ci k -> nonneg_num k) -> is_pkg (ci_topo ci) 0 ->
  each_once sn n -> (forall k, holds sn n k -> exists_num ci k) -> exists t, fmt_nums ci sn n = Ok t.
Proof. exact fmt_nums_live. Qed.
Print Assumptions C33_text_succeeds.

Example C33_text_ex : wf_ci xci /\ even_dies xci /\ (forall k, exists_num xci k -> nonneg_num k) /\
  fmt_nums xci RCPU (NList [0; 1; 2; 3]) = Ok (s2l "CPUs 0-3 (package 0)") /\
  fmt_nums xci RCPU (NList [6; 0; 2]) = Ok (s2l "CPUs 0,2,6") /\
  fmt_nums xci RCPU (NList [7; 6; 5; 4; 3; 2; 1; 0]) = Ok (s2l "all CPUs") /\
  fmt_nums xci RPkg (NList [1]) = Ok (s2l "package 1") /\ fmt_nums xci RPkg (NList [1; 0]) = Ok (s2l "all packages") /\
  fmt_nums xci RDie (NDict [(0, [0; 1]); (1, [0; 2; 1])]) = Ok (s2l "dies 0,1 in package 0, all dies in package 1").
Proof. split; [exact xci_wf|]. split; [exact xci_even|]. split; [exact xci_nonneg|]. vm_compute. auto 10. Qed.

(** Every line says for which CPUs, dies or packages it holds, and every value has its line. *)
Theorem C33_lines : forall (V : Type) ci global (blank : V -> bool) a out,
  wf_ci ci -> even_dies ci -> (forall k, exists_num ci k -> nonneg_num k) -> printable ci a ->
  print_human ci global blank a = Ok out ->
  map fst out = map fst a /\
  (forall m ls p v sfx, In (m, ls) out -> In (p, v, sfx) ls ->
     ~ is_blank blank v /\ exists sn n, entry a m p sn v n /\ line_says ci global p sn n sfx) /\
  (forall m p sn v n, entry a m p sn v n -> ~ is_blank blank v ->
     exists ls sfx, In (m, ls) out /\ In (p, v, sfx) ls /\ line_says ci global p sn n sfx).
Proof. exact @human_l. Qed.
Print Assumptions C33_lines.

Theorem C33_lines_succeed : forall (V : Type) ci global (blank : V -> bool) a,
  wf_ci ci -> (forall k, exists_num ci k -> nonneg_num k) -> is_pkg (ci_topo ci) 0 -> printable ci a ->
  exists out, print_human ci global blank a = Ok out.
Proof. exact @human_live_l. Qed.
Print Assumptions C33_lines_succeed.

Example C33_lines_ex : printable xci xaggr /\ is_pkg (ci_topo xci) 0 /\
  print_human xci (fun _ => false) (fun v => v =? 0) xaggr =
  Ok [(2, [(0, Some 10, Some (s2l "CPUs 0-3 (package 0)")); (0, Some 14, Some (s2l "CPUs 4-7 (package 1)"));
           (2, Some 10, Some (s2l "package 0")); (2, Some 14, Some (s2l "package 1"));
           (4, Some 10, Some (s2l "dies 0,1 in package 0")); (4, Some 14, Some (s2l "dies 0,1 in package 1"))])].
Proof. split; [exact xaggr_printable|]. split; [exists (xline 0); vm_compute; tauto|]. vm_compute. reflexivity. Qed.

(** If package 0 has one die, the dies of the other packages are not told apart. *)
Theorem C33_uneven_dies_refuted : exists ci t, wf_ci ci /\ is_die (ci_topo ci) (1, 0) /\ is_die (ci_topo ci) (1, 1) /\
  fmt_nums ci RDie (NDict [(1, [0])]) = Ok t /\ fmt_nums ci RDie (NDict [(1, [1])]) = Ok t.
Proof. exact C33_uneven_dies_refuted_l. Qed.
Print Assumptions C33_uneven_dies_refuted.

(** If package 0 is offline, nothing is printed about dies. *)
Theorem C33_no_package0_refuted : exists ci e, wf_ci ci /\ is_die (ci_topo ci) (1, 0) /\
  fmt_nums ci RDie (NDict [(1, [0])]) = Exn e.
Proof. exact C33_no_package0_refuted_l. Qed.
Print Assumptions C33_no_package0_refuted.

(** ** C50: saving and restoring *)

(** The file says what was listed. *)
Theorem C50_file : forall (V : Type) (a : @aggr V),
  (forall m p sn v n, entry a m p sn v n -> each_once sn n /\ forall k, holds sn n k -> nonneg_num k) ->
  (forall p ys y, In (p, ys) (yaml_pinfo a) -> In y ys -> exists n, parse_ynums (y_nums y) = Ok n) /\
  forall p v k, file_says (yaml_pinfo a) p v k <-> exists m, listed a m p v k.
Proof. exact @file_exact. Qed.
Print Assumptions C50_file.

Example C50_file_ex : yaml_pinfo xaggr =
  [(0, [YV (Some 10) RCPU (YText (s2l "0-3")); YV (Some 14) RCPU (YText (s2l "4-7"))]);
   (2, [YV (Some 10) RPkg (YText (s2l "0")); YV (Some 14) RPkg (YText (s2l "1"))]);
   (4, [YV (Some 10) RDie (YDict [(0, s2l "0,1")]); YV (Some 14) RDie (YDict [(1, s2l "0,1")])])].
Proof. vm_compute. reflexivity. Qed.

(** Restoring sets what the file says, and nothing else. *)
Theorem C50_restore : forall (S V : Type) (view : S -> Z -> pnum -> option V) setp, setter_law view setp ->
  forall known f s s', consistent f -> restore setp known f s = (Ok tt, s') ->
  (forall p ys, In (p, ys) f -> In p known) /\
  (forall p v k, file_says f p v k -> view s' p k = v) /\
  (forall p k, (forall v, ~ file_says f p v k) -> view s' p k = view s p k).
Proof. exact @restore_ok. Qed.
Print Assumptions C50_restore.

Theorem C50_restore_succeeds : forall (S V : Type) (setp : Z -> rsname -> option V -> nums -> M S unit) known f s,
  (forall p ys, In (p, ys) f -> In p known /\ forall y, In y ys -> exists n, parse_ynums (y_nums y) = Ok n) ->
  (forall p ys y n s, In (p, ys) f -> In y ys -> parse_ynums (y_nums y) = Ok n ->
     exists s', setp p (y_sname y) (y_value y) n s = (Ok tt, s')) ->
  exists s', restore setp known f s = (Ok tt, s').
Proof. exact @restore_live. Qed.
Print Assumptions C50_restore_succeeds.

(** What was saved is what is restored. *)
Theorem C50_round_trip : forall (St V S : Type) (cls : pclass St V), (forall x y, pc_veqb cls x y = true <-> x = y) ->
  forall (view : S -> Z -> pnum -> option V) setp, setter_law view setp ->
  one_value_per_cpu cls -> wf_ci (pc_ci cls) -> (forall k, exists_num (pc_ci cls) k -> nonneg_num k) ->
  forall pnames known s f s' r r', NoDup (asked_pnames (pc_props cls) pnames) ->
  save_props cls pnames s = (Ok f, s') -> restore setp known f r = (Ok tt, r') ->
  exists names l,
    (forall p, In p names <-> In p (asked_pnames (pc_props cls) pnames) /\
                 exists d, dget Z.eqb (pc_props cls) p = Some d /\ pd_writable d = true) /\
    reading (get_prop_sname cls None) (pc_props cls) true names s l s' /\
    (forall p items k v m, In (p, items) l -> In (k, v, m) items -> v <> None -> view r' p k = v) /\
    (forall p k, (forall items v m, In (p, items) l -> In (k, v, m) items -> v = None) -> view r' p k = view r p k).
Proof. exact @round_trip. Qed.
Print Assumptions C50_round_trip.

Example C50_round_trip_ex : setter_law (fun t : ttab => t) tset /\ NoDup (asked_pnames (pc_props xcls) (Some [0; 2; 4; 7])) /\
  match save_props xcls (Some [0; 2; 4; 7]) xps2 with
  | (Ok f, _) => match restore tset [0; 2; 4; 7] f (fun _ _ => Some 1) with
                 | (Ok tt, t) => map (t 0) [NumCPU 3; NumCPU 4] = [Some 10; Some 14] /\
                     map (t 2) [NumPkg 0; NumPkg 1] = [Some 10; Some 14] /\
                     map (t 4) [NumDie 0 1; NumDie 1 1; NumDie 1 2] = [Some 10; Some 14; Some 1] /\ t 7 (NumCPU 0) = Some 1
                 | _ => False end
  | _ => False end.
Proof.
  split; [exact tset_law|]. split; [cbn; repeat (constructor; [cbn; intuition discriminate|]); constructor|]. vm_compute. auto.
Qed.

(** A locked package C-state limit is not saved ... *)
Theorem C50_all_locked : forall (V : Type) pcs cpus locked (a : @aggr V), NoDup cpus -> NoDup locked -> locked <> [] ->
  (forall c, In c locked <-> In c cpus) -> no_repeats a ->
  exists a', adjust_pcs_limit pcs cpus locked a = Ok a' /\
  forall m p v k, listed a' m p v k <-> listed a m p v k /\ p <> pcs.
Proof. exact @adjust_all_l. Qed.
Print Assumptions C50_all_locked.
Theorem C50_none_locked : forall (V : Type) pcs cpus (a : @aggr V), adjust_pcs_limit pcs cpus [] a = Ok a.
Proof. exact @adjust_none. Qed.
Print Assumptions C50_none_locked.

(** ... but if it is locked on some of the CPUs only, nothing can be saved. *)
Theorem C50_some_locked_refuted : exists cpus locked (a : @aggr Z) pcs m v c, NoDup cpus /\ NoDup locked /\ incl locked cpus /\
  In c cpus /\ ~ In c locked /\ listed a m pcs v (NumCPU c) /\ adjust_pcs_limit pcs cpus locked a = Exn EIndex.
Proof. exact C33_locked_refuted_l. Qed.
Print Assumptions C50_some_locked_refuted.

Example C50_locked_ex :
  adjust_pcs_limit 9 [0; 1] [1; 0] [(0, [(8, (RCPU, [(Some 1, NList [0; 1])])); (9, (RCPU, [(Some 6, NList [0; 1])]))])] =
  Ok [(0, [(8, (RCPU, [(Some 1, NList [0; 1])]))])].
Proof. reflexivity. Qed.
