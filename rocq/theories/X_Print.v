(** Examples and refutation witnesses for printing and restoring (C33, C50). *)
From Coq Require Import Ascii String ZifyBool.
From Verif Require Import Base L_Base M_CPUInfo S_CPUInfo L_CPUInfo L_CPUInfo2 L_Hotplug X_CPUInfo M_Text M_Props S_Props X_Props
  M_OpTarget X_OpTarget M_Print S_Print L_Print L_Print2 L_Print3 L_Print4 L_Print5.

(** The compute dies. *)
Definition xall : otargs := OA None UNone None (UDict [(0, [0; 1]); (1, [0; 1])]) None [] [] false.
Definition xps : pstate (St := list (Z * Z)) (V := Z) := (xst, xobj xall).
(** A table in which the CPUs of a package have the same value. *)
Definition xst2 : pst (list (Z * Z)) Z := PS [(0, 10); (1, 10); (2, 10); (3, 10); (4, 14); (5, 14); (6, 14); (7, 14)] [] [].
Definition xps2 : pstate (St := list (Z * Z)) (V := Z) := (xst2, xobj xall).

Definition xaggr : @aggr Z :=
  [(2, [(0, (RCPU, [(Some 10, NList [0; 1; 2; 3]); (Some 14, NList [4; 5; 6; 7])]));
        (2, (RPkg, [(Some 10, NList [0]); (Some 14, NList [1])]));
        (4, (RDie, [(Some 10, NDict [(0, [0; 1])]); (Some 14, NDict [(1, [0; 1])])]))])].

Lemma xaggr_l : match aggr_props (pc_veqb xcls) (get_prop_sname xcls None) (pc_props xcls) (Some [0; 2; 4; 7]) false true xps2 with
                | (Ok a, _) => a = xaggr | _ => False end.
Proof. vm_compute. reflexivity. Qed.

Lemma xaggr_run : exists s', aggr_props (pc_veqb xcls) (get_prop_sname xcls None) (pc_props xcls) (Some [0; 2; 4; 7]) false true xps2 = (Ok xaggr, s').
Proof.
  pose proof xaggr_l as H. destruct (aggr_props _ _ _ _ _ _ _) as [[a|e] s']; [|destruct H]. subst a. now exists s'.
Qed.

Lemma xaggr_printable : printable xci xaggr.
Proof.
  destruct xaggr_run as (s' & E). refine (print_printable xcls _ None (Some [0; 2; 4; 7]) false true xps2 xaggr s' xcls_one xci_wf _ E).
  - intros x y. apply Z.eqb_eq.
  - cbn. repeat (constructor; [cbn; intuition discriminate|]). constructor.
Qed.

Lemma xci_nonneg k : exists_num xci k -> nonneg_num k.
Proof.
  assert (forall t, In t (ci_topo xci) -> 0 <= t_pkg t /\ 0 <= t_die t) as H.
  { apply Forall_forall. vm_compute. repeat constructor; discriminate. }
  assert (forall c, In c (ci_online xci) -> 0 <= c) as Hc.
  { apply Forall_forall. vm_compute. repeat constructor; discriminate. }
  destruct k as [c|p d|p]; cbn.
  - apply Hc.
  - intros (t & It & E1 & E2). cbn in E1, E2. subst p d. exact (H t It).
  - intros (t & It & E1). subst p. exact (proj1 (H t It)).
Qed.

Lemma xci_even : even_dies xci.
Proof.
  intros H. exfalso. assert (0 = 1); [|discriminate]. apply H.
  - exists (xline 0). vm_compute. tauto.
  - exists (xline 1). vm_compute. tauto.
Qed.

(** Package 0 has one die and package 1 has two. *)
Definition usys : system := SYS (fun c => TL c c c 0 c c) [(0, 0); (1, 0); (1, 1)] [0; 1].
Definition uci : cpuinfo := after_hotplug usys [0; 1] [].
Lemma uci_wf : wf_ci uci.
Proof.
  apply hotplug_wf_l; [| |constructor].
  - split.
    + cbn. intuition subst; discriminate.
    + cbn [usys sys_present sys_line]. intros c Hc. cbn zeta.
      repeat (destruct Hc as [<-|Hc]; [vm_compute; repeat split; discriminate|]). destruct Hc.
    + repeat (constructor; [cbn; intuition discriminate|]). constructor.
    + cbn [usys sys_uncore_dies]. intros c Hc.
      repeat (destruct Hc as [<-|Hc]; [vm_compute; repeat split; discriminate|]). destruct Hc.
  - split; [|apply incl_refl]. repeat (constructor; [cbn; intuition discriminate|]). constructor.
Qed.

Lemma C33_uneven_dies_refuted_l : exists ci t, wf_ci ci /\ is_die (ci_topo ci) (1, 0) /\ is_die (ci_topo ci) (1, 1) /\
  fmt_nums ci RDie (NDict [(1, [0])]) = Ok t /\ fmt_nums ci RDie (NDict [(1, [1])]) = Ok t.
Proof.
  exists uci, (s2l "package 1"). split; [exact uci_wf|]. split; [exists (TL 1 1 1 0 1 1); vm_compute; tauto|].
  split; [exists (TL NA NA NA 1 NA 1); vm_compute; tauto|]. split; vm_compute; reflexivity.
Qed.

(** Only package 1 is online. *)
Definition vci : cpuinfo := after_hotplug (SYS (fun c => TL c c c 0 c c) [] [0; 1]) [1] [].
Lemma vci_wf : wf_ci vci.
Proof.
  apply hotplug_wf_l; [| |constructor].
  - split.
    + cbn. intuition subst; discriminate.
    + cbn [usys sys_present sys_line]. intros c Hc. cbn zeta.
      repeat (destruct Hc as [<-|Hc]; [vm_compute; repeat split; discriminate|]). destruct Hc.
    + repeat (constructor; [cbn; intuition discriminate|]). constructor.
    + intros c [].
  - split; [repeat (constructor; [cbn; intuition discriminate|]); constructor|]. intros c; cbn; tauto.
Qed.

Lemma C33_no_package0_refuted_l : exists ci e, wf_ci ci /\ is_die (ci_topo ci) (1, 0) /\
  fmt_nums ci RDie (NDict [(1, [0])]) = Exn e.
Proof.
  exists vci, EError. split; [exact vci_wf|]. split; [exists (TL 1 1 1 0 1 1); vm_compute; tauto|]. vm_compute. reflexivity.
Qed.

Lemma adjust_none {V} pcs cpus (a : @aggr V) : adjust_pcs_limit pcs cpus [] a = Ok a.
Proof. reflexivity. Qed.

Lemma adjust_all_l {V} pcs cpus locked (a : @aggr V) : NoDup cpus -> NoDup locked -> locked <> [] ->
  (forall c, In c locked <-> In c cpus) -> no_repeats a ->
  exists a', adjust_pcs_limit pcs cpus locked a = Ok a' /\
  forall m p v k, listed a' m p v k <-> listed a m p v k /\ p <> pcs.
Proof.
  intros N1 N2 Ne Hs (NR1 & NR2). unfold adjust_pcs_limit. destruct locked as [|c t]; [now elim Ne|].
  assert (length (c :: t) = length cpus) as ->.
  { apply Nat.le_antisymm; apply NoDup_incl_length; auto; intros x I; now apply Hs. }
  rewrite Z.eqb_refl. eexists. split; [reflexivity|]. intros m p v k. unfold listed.
  assert (forall d q (x : @pinfo V), NoDup (map fst d) -> (In (q, x) (ddel Z.eqb d pcs) <-> In (q, x) d /\ q <> pcs)) as HD.
  { intros d q x ND. unfold ddel. rewrite filter_In. cbn [fst]. rewrite negb_true_iff, Z.eqb_neq. intuition congruence. }
  split.
  - intros (d & sn & vals & n & I & J & K). apply in_map_iff in I. destruct I as ([m0 d0] & [= <- <-] & I). cbn [snd] in J.
    destruct (NR2 _ _ I) as (_ & ND & _). apply (HD d0 p _ ND) in J. destruct J as (J & N). split; [|exact N]. exists d0, sn, vals, n. auto.
  - intros ((d & sn & vals & n & I & J & K) & N). destruct (NR2 _ _ I) as (_ & ND & _).
    exists (ddel Z.eqb d pcs), sn, vals, n. split; [apply in_map_iff; exists (m, d); auto|]. split; [|exact K]. now apply (HD d p _ ND).
Qed.

Lemma C33_locked_refuted_l : exists cpus locked (a : @aggr Z) pcs m v c, NoDup cpus /\ NoDup locked /\ incl locked cpus /\
  In c cpus /\ ~ In c locked /\ listed a m pcs v (NumCPU c) /\ adjust_pcs_limit pcs cpus locked a = Exn EIndex.
Proof.
  exists [0; 1], [0], [(0, [(9, (RCPU, [(Some 6, NList [0; 1])]))])], 9, 0, (Some 6), 1.
  split; [repeat (constructor; [cbn; intuition discriminate|]); constructor|].
  split; [repeat (constructor; [cbn; intuition discriminate|]); constructor|].
  split; [intros x [<-|[]]; now left|]. split; [right; now left|]. split; [intros [X|[]]; discriminate X|].
  split; [|reflexivity]. exists [(9, (RCPU, [(Some 6, NList [0; 1])]))], RCPU, [(Some 6, NList [0; 1])], (NList [0; 1]). cbn. tauto.
Qed.

(** A setter over a table. *)
Definition ttab : Type := Z -> pnum -> option Z.
Definition in_nums (sn : rsname) (n : nums) (k : pnum) : bool :=
  match sn, n, k with
  | RCPU, NList l, NumCPU c => inb c l
  | RPkg, NList l, NumPkg p => inb p l
  | RDie, NDict d, NumDie p x => existsb (fun pl => (fst pl =? p) && inb x (snd pl)) d
  | _, _, _ => false
  end.
Lemma in_nums_spec sn n k : in_nums sn n k = true <-> holds sn n k.
Proof.
  destruct sn, n as [l|d], k as [c|p x|p]; cbn [in_nums holds]; try (split; [discriminate|tauto]); try apply inb_In.
  rewrite existsb_exists. split.
  - intros ([p0 l] & I & H). cbn [fst snd] in H. apply andb_prop in H. destruct H as (E & H). exists l. split; [|now apply inb_In].
    apply Z.eqb_eq in E. now subst p0.
  - intros (l & I & H). exists (p, l). split; [exact I|]. cbn [fst snd]. rewrite Z.eqb_refl. now apply inb_In.
Qed.
Definition tset (p : Z) (sn : rsname) (v : option Z) (n : nums) : M ttab unit :=
  modify (fun t q k => if (q =? p) && in_nums sn n k then v else t q k).
Lemma tset_law : setter_law (fun t : ttab => t) tset.
Proof.
  intros p sn v n s s' [= <-]. split.
  - intros k H. rewrite Z.eqb_refl. cbn. now rewrite (proj2 (in_nums_spec sn n k) H).
  - intros q k H. destruct (Z.eqb_spec q p) as [->|N]; [|reflexivity]. destruct (in_nums sn n k) eqn:E; [|reflexivity].
    elim H. split; [reflexivity|]. now apply in_nums_spec.
Qed.
