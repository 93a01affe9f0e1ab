(** Examples and refutation witnesses for C71. *)
From Coq Require Import Ascii String ZifyBool.
From Verif Require Import Base L_Base M_CPUInfo S_CPUInfo X_CPUInfo M_Text M_Props S_Props X_Props M_OpTarget X_OpTarget M_Human M_CPUIdle S_CPUIdle X_CPUIdle M_CSave
  M_Print S_Print L_Print X_Print M_InfoCmd S_InfoCmd L_InfoCmd4.

Definition xtab : list (str * Z) := map (fun x => (s2l (fst x), snd x)) [("sysfs", 0); ("cdev", 1); ("msr", 2); ("cppc", 3); ("doc", 4)]%string.
Definition xsubs (p : Z) : list Z := if p =? 2 then [4; 7] else [].
Definition xtypes (p : Z) : ptype := if p =? 3 then TList else if p =? 7 then TDict else TScalar.
Definition xinfo (args : iargs) := props_info xcls xsubs xtab xtypes (fun p => p =? 1) (fun v => v =? 99) args.

Lemma xtab_nodup : NoDup (map fst xtab).
Proof. repeat (constructor; [cbn; intuition discriminate|]). constructor. Qed.

Lemma xtyped : typed_list (s2l "msr,sysfs"%string) (map s2l ["msr"; "sysfs"]%string).
Proof.
  split; [reflexivity|]. split; [discriminate|]. split; [repeat (constructor; [cbn; intuition discriminate|]); constructor|].
  intros w [<-|[<-|[]]]; (split; [discriminate|]); apply Forall_forall; repeat (constructor; [split; [discriminate|reflexivity]|]); constructor.
Qed.

(** Property 7 is not supported. *)
Lemma xinfo_human_l : fst (xinfo (IA false [] (Some [7])) xps2) = Ok [OProps false [(1, [(7, None, Some (s2l "all CPUs"%string))])]].
Proof. vm_compute. reflexivity. Qed.

Lemma xinfo_dict_l : fst (xinfo (IA false [] (Some [7])) xps2) <> Exn EValue /\ fst (xinfo (IA true [] (Some [7])) xps2) = Exn EValue.
Proof. split; [rewrite xinfo_human_l; discriminate|]. vm_compute. reflexivity. Qed.

Lemma xinfo_human2_l : fst (xinfo (IA false [] (Some [0; 2])) xps2) = Ok [OProps false
  [(2, [(0, Some 10, Some (s2l "CPUs 0-3 (package 0)"%string)); (0, Some 14, Some (s2l "CPUs 4-7 (package 1)"%string));
        (2, Some 10, Some (s2l "package 0"%string)); (2, Some 14, Some (s2l "package 1"%string));
        (4, Some 10, Some (s2l "dies 0,1 in package 0"%string)); (4, Some 14, Some (s2l "dies 0,1 in package 1"%string))]);
   (1, [(7, None, Some (s2l "all CPUs"%string))])]].
Proof. vm_compute. reflexivity. Qed.

Lemma xinfo_yaml_l : fst (xinfo (IA true [] (Some [0; 4])) xps2) = Ok [OPropsYaml
  [(0, [(YoVal 10, RCPU, YText (s2l "0-3"%string)); (YoVal 14, RCPU, YText (s2l "4-7"%string))]);
   (4, [(YoVal 10, RDie, YDict [(0, s2l "0,1"%string)]); (YoVal 14, RDie, YDict [(1, s2l "0,1"%string)])])]].
Proof. vm_compute. reflexivity. Qed.

Lemma xinfo_mech_l : fst (xinfo (IA false (s2l "msr,sysfs"%string) (Some [0])) xps2) = Ok [OProps false
  [(2, [(0, Some 10, Some (s2l "CPUs 0-3 (package 0)"%string)); (0, Some 14, Some (s2l "CPUs 4-7 (package 1)"%string))])]] /\
  fst (xinfo (IA false (s2l "msr"%string) None) xps2) = Exn ENotSupported /\
  fst (xinfo (IA false (s2l "mrs"%string) (Some [0])) xps2) = Exn ENotSupported.
Proof. repeat split; vm_compute; reflexivity. Qed.

(** A class with the properties of 'pepc pstates'. *)
Definition xpscls : pclass (list (Z * Z)) Z :=
  PC (combine (map Z.of_nat (seq 0 22)) pstates_props) mechanisms xci Z.eqb (fun _ _ => Some SCPU) (fun _ _ => Some SCPU) (fun _ => ret tt) xget xset (fun _ v => Ok v).

Lemma xpscls_l : NoDup (map fst (pc_props xpscls)) /\ map snd (pc_props xpscls) = pstates_props /\
  fst (props_info xpscls (fun _ => []) xtab (fun _ => TScalar) (fun _ => false) (fun _ => false) (IA false (s2l "msr"%string) (Some [1])) xps2) =
    Ok [OProps false [(2, [(1, Some 10, Some (s2l "CPUs 0-3 (package 0)"%string)); (1, Some 14, Some (s2l "CPUs 4-7 (package 1)"%string))])]] /\
  fst (props_info xpscls (fun _ => []) xtab (fun _ => TScalar) (fun _ => false) (fun _ => false) (IA false (s2l "msr"%string) None) xps2) = Exn ENotSupported.
Proof.
  split; [change (NoDup (map Z.of_nat (seq 0 22))); apply FinFun.Injective_map_NoDup; [intros a b; lia|apply seq_NoDup]|]. split; [reflexivity|]. split; vm_compute; reflexivity.
Qed.

Lemma yaml_dict_refuted_l : exists args args' out,
  ia_yaml args = false /\ ia_yaml args' = true /\ ia_mechs args' = ia_mechs args /\ ia_oargs args' = ia_oargs args /\
  fst (xinfo args xps2) = Ok out /\ fst (xinfo args' xps2) = Exn EValue.
Proof.
  exists (IA false [] (Some [7])), (IA true [] (Some [7])), [OProps false [(1, [(7, None, Some (s2l "all CPUs"%string))])]].
  split; [reflexivity|]. split; [reflexivity|]. split; [reflexivity|]. split; [reflexivity|]. split; [exact xinfo_human_l|apply xinfo_dict_l].
Qed.

(** The text for people. *)
Definition cs_shown (r : res (list (iout Z) * Z)) : list str := match r with Ok ([OCs l], _) => l | _ => [] end.

Lemma xcs_l : cs_shown (fst (print_cstates (V := Z) xm3 (s2l "Linux"%string) false (s2l "all"%string) [0; 2; 5] true None (irun xm3 [xoff] x0))) = map s2l
  ["Source: Linux"; " - POLL: 'on' for CPU 0"; " - POLL: 'off' for CPUs 2,5"; "    - description: ACPI FFH"; "    - expected latency: 2 us"; "    - target residency: 1 us";
   " - C1_ACPI: 'on' for CPUs 0,2,5"; "    - description: ACPI FFH"; "    - expected latency: 2 us"; "    - target residency: 1 us";
   " - C6: 'on' for CPU 0"; " - C6: 'off' for CPUs 2,5"; "    - description: ACPI FFH"; "    - expected latency: 2 us"; "    - target residency: 1 us"]%string.
Proof. vm_compute. reflexivity. Qed.

Lemma no_cstates_refuted_l : exists mc nst csnames, idle_ok mc nst /\ (forall c, In c (ci_online (mc_ci mc)) -> 0 < nst c) /\
  cs_shown (fst (print_cstates (V := Z) mc (s2l "Linux"%string) false csnames [0; 1] false None x0)) = [s2l "This system does not support C-states"%string].
Proof.
  exists xm3, (fun _ => 3), (s2l ","%string). split; [exact xm3_ok|]. split; [intros; reflexivity|]. vm_compute. reflexivity.
Qed.

(** The CPUs in [l] have another latency. *)
Definition xlat (l : list Z) : machine :=
  MC xci true (mc_files xm3) (fun c i f t => if str_eqb f (s2l "latency"%string) && inb c l then xline_of "4" else xtext c i f t)
     (mc_store xm3) (mc_driver xm3) (mc_avail xm3) (mc_hasgov xm3) (mc_gstore xm3).

Lemma xlat_ok l : idle_ok (xlat l) (fun _ => 3).
Proof.
  assert (H := xm3_ok). unfold idle_ok in *. destruct H as (A & B & C & D & E & F & G).
  split; [exact A|]. split; [exact B|]. split; [exact C|]. split; [exact D|]. split; [exact E|]. split; [exact F|].
  intros c Hc. destruct (G c Hc) as (G1 & G2 & G3 & G4 & G5 & G6). split; [exact G1|]. split; [exact G2|]. split; [|split; [|split; [exact G5|exact G6]]].
  - intros i f t Hi Hf. cbn [xlat mc_text]. destruct (_ && _); [|exact (G3 i f t Hi Hf)]. split; [apply one_line_b; reflexivity|discriminate].
  - intros i t Hi. exact (G4 i t Hi).
Qed.

Lemma latency_refuted_l : exists mc1 mc2 nst c i, idle_ok mc1 nst /\ idle_ok mc2 nst /\ In c (ci_online (mc_ci mc1)) /\ 0 <= i < nst c /\
  mc_text mc1 c i (s2l "latency"%string) 0 <> mc_text mc2 c i (s2l "latency"%string) 0 /\
  cs_shown (fst (print_cstates (V := Z) mc1 (s2l "Linux"%string) false (s2l "all"%string) [0; 1; 2] false None x0)) =
  cs_shown (fst (print_cstates (V := Z) mc2 (s2l "Linux"%string) false (s2l "all"%string) [0; 1; 2] false None x0)) /\
  length (cs_shown (fst (print_cstates (V := Z) mc1 (s2l "Linux"%string) false (s2l "all"%string) [0; 1; 2] false None x0))) = 15%nat.
Proof.
  exists (xlat [1]), (xlat [1; 2]), (fun _ => 3), 2, 1. split; [apply xlat_ok|]. split; [apply xlat_ok|]. split; [cbn; tauto|]. split; [lia|]. split; [discriminate|].
  split; vm_compute; reflexivity.
Qed.
