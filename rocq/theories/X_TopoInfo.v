(** Example systems and refutation witnesses for "pepc topology info". *)
From Verif Require Import Base L_Base M_Text S_Text M_Osa S_Osa M_CPUInfo S_CPUInfo L_Hotplug X_CPUInfo M_OpTarget S_OpTarget
  L_OpTarget3 L_OpTarget5 X_OpTarget M_TopoInfo S_TopoInfo L_TopoInfo L_TopoInfo2 L_TopoInfo3.
From Coq Require Import Permutation.

(** Two packages with two compute dies and an I/O die each; CPUs 2, 3 and 7 are offline. *)
Definition x_on3 : list Z := [0; 1; 4; 5; 6].
Definition xci3 : cpuinfo := after_hotplug xsys x_on3 [].
Lemma x_on3_ok : online_ok xsys x_on3.
Proof.
  split; [repeat (constructor; [cbn; intuition discriminate|]); constructor|]. intros c. cbn. tauto.
Qed.
Lemma xci3_wf : wf_ci xci3.
Proof. apply hotplug_wf_l; [exact xsys_ok|exact x_on3_ok|constructor]. Qed.
Lemma xci3_io : io_dies_exact xci3.
Proof.
  apply hotplug_io_exact_l; [exact xsys_ok|exact x_on3_ok|constructor|]. intros c Hc.
  cbn [xsys sys_present] in Hc.
  repeat (destruct Hc as [<- |Hc];
    [first [exists 0; (split; [cbn; tauto|split; vm_compute; reflexivity])
           |exists 1; (split; [cbn; tauto|split; vm_compute; reflexivity])
           |exists 4; (split; [cbn; tauto|split; vm_compute; reflexivity])
           |exists 5; (split; [cbn; tauto|split; vm_compute; reflexivity])]|]).
  destruct Hc.
Qed.
Lemma xci3_on : ci_online xci3 <> [].
Proof. vm_compute. discriminate. Qed.
Lemma numbers_of (ci : cpuinfo) :
  forallb (fun t => forallb (fun l => 0 <=? lget l t) levels_all) (ci_topo ci) = true ->
  forallb (fun c => 0 <=? c) (ci_all ci) = true -> numbers_ok ci.
Proof.
  rewrite !forallb_forall. intros H1 H2. split.
  - intros t l Ht. specialize (H1 t Ht). rewrite forallb_forall in H1. apply Z.leb_le, H1. destruct l; cbn; tauto.
  - intros c Hc. apply Z.leb_le. auto.
Qed.
Lemma xci3_numbers : numbers_ok xci3.
Proof. apply numbers_of; vm_compute; reflexivity. Qed.

(** A hybrid system; CPUs 0, 1, 4 and 5 are P-cores. *)
Definition xenv : tenv := TE xci3 true (Ok [0; 1; 4; 5]).
Definition xall : otargs := OA None UNone None UNone None [] [] false.
Definition xdefault : topts := TO None (s2l "CPU") false.

Lemma xall_proper : args_proper xall.
Proof. split; exact I. Qed.
Lemma xall_siblings : siblings_ok xci3 xall.
Proof. now left. Qed.

Lemma xenv_ok : ok_system xenv xall.
Proof.
  split; [exact xci3_wf|]. split; [exact xci3_io|]. split; [exact xci3_on|]. split; [exact xall_siblings|].
  split; [exact xall_proper|exact xci3_numbers].
Qed.

Definition xout : list str := map s2l
  ["CPU    Core    Die    Node    Package    Hybrid";
   "  0       0      0       0          0    P-core";
   "  1       1      1       0          0    P-core";
   "  4       0      0       1          1    P-core";
   "  5       1      1       1          1    P-core";
   "  6       0      0       1          1    E-core";
   "  -       -      2       -          0    E-core";
   "  -       -      2       -          1    E-core";
   "  2       ?      ?       ?          ?         ?";
   "  3       ?      ?       ?          ?         ?";
   "  7       ?      ?       ?          ?         ?"]%string.
Lemma xout_ok : topology_info xenv xall xdefault = Ok xout.
Proof. vm_compute. reflexivity. Qed.

(** ** Naming only an I/O die *)
Lemma xci_numbers : numbers_ok xci.
Proof. apply numbers_of; vm_compute; reflexivity. Qed.

Definition xenv2 : tenv := TE xci false (Ok []).
Lemma io_die_refuted_l : exists e a o cols t, ok_system e a /\ valid_args (te_ci e) (opts a o) /\
  shows_columns e o cols /\ names_level (to_order o) LCPU /\ shown e (opts a o) cols t /\
  topology_info e a o = Exn ENoCPUTarget.
Proof.
  exists xenv2, xa3, xdefault, (map CLvl [LCPU; LCore; LDie; LNode; LPkg]), (TL NA NA NA 2 NA 0).
  assert (P : args_proper xa3) by apply xa_proper.
  assert (V : valid_args xci (opts xa3 xdefault)).
  { apply (ot_init_iff xci (opts xa3 xdefault) xci_wf P). eexists. vm_compute. reflexivity. }
  split.
  { split; [exact xci_wf|]. split; [exact xci_io|]. split; [exact xci_on|]. split; [exact (xa_siblings _)|].
    split; [exact P|exact xci_numbers]. }
  split; [exact V|]. split.
  { exists (default_colnames xci). split; [apply default_ok|]. vm_compute. reflexivity. }
  split; [apply find_level_iff; vm_compute; reflexivity|]. split; [|vm_compute; reflexivity].
  assert (I : In (TL NA NA NA 2 NA 0) (ci_topo xci)) by (vm_compute; tauto).
  split; [exact I|]. right. split; [intros H; now apply H|]. split; [cbn; tauto|]. right. split.
  - exists (TL NA NA NA 2 NA 0). cbn. auto.
  - left. right. split; cbn; auto.
Qed.

(** ** The "hybrid" column *)
Lemma columns_refuted_l : exists e a o out line, ok_system e a /\
  to_columns o = Some (s2l "CPU,core") /\ topology_info e a o = Ok out /\ hd_error out = Some line /\
  reads (map s2l ["CPU"; "Core"; "Hybrid"]%string) line.
Proof.
  eexists xenv, xall, (TO (Some (s2l "CPU,core")) (s2l "CPU") false), _, (s2l "CPU    Core    Hybrid").
  split; [exact xenv_ok|]. split; [reflexivity|]. split; [vm_compute; reflexivity|]. split; [vm_compute; reflexivity|].
  exact (format_reads [LCPU; LCore] true (fun c => s2l (title c)) (fun c _ => title_word c)).
Qed.

(** I/O dies are called E-cores. *)
Lemma io_core_refuted_l : exists e a o out line t, ok_system e a /\
  topology_info e a o = Ok out /\ In line out /\ In t (ci_topo (te_ci e)) /\ ~ cpu_line t /\
  shows_columns e o (map CLvl [LCPU; LDie; LPkg] ++ [CHyb]) /\
  t_die t = 2 /\ t_pkg t = 0 /\ reads (map s2l ["-"; "2"; "0"; "E-core"]%string) line.
Proof.
  eexists xenv, xall, (TO (Some (s2l "CPU,die,package")) (s2l "CPU") false), _, (s2l "  -      2          0    E-core"), (TL NA NA NA 2 NA 0).
  split; [exact xenv_ok|]. split; [vm_compute; reflexivity|].
  split; [vm_compute; do 6 right; left; reflexivity|].
  split; [vm_compute; tauto|]. split; [intros H; now apply H|].
  split.
  { exists (map s2l ["CPU"; "die"; "package"]%string), (map CLvl [LCPU; LDie; LPkg]).
    split; [apply lists_iff; vm_compute; reflexivity|]. split; [|split; [intros _; reflexivity|reflexivity]].
    repeat (constructor; [apply find_level_iff; vm_compute; reflexivity|]). constructor. }
  split; [reflexivity|]. split; [reflexivity|].
  assert (R : row_ok (OnRow (TL NA NA NA 2 NA 0))) by (intros []; discriminate).
  exact (format_reads [LCPU; LDie; LPkg] true (cell [0; 1; 4; 5] (OnRow (TL NA NA NA 2 NA 0)))
           (fun c _ => proj2 (cell_ok _ _ c R))).
Qed.

(** ** Offline CPUs are not in CPU order *)
Lemma order_refuted_l : exists e a o out l1 l2 before between after, ok_system e a /\
  names_level (to_order o) LCPU /\ topology_info e a o = Ok out /\
  out = before ++ l1 :: between ++ l2 :: after /\
  reads [s2l "6"; s2l "0"] l1 /\ reads [s2l "2"; s2l "?"] l2.
Proof.
  exists (TE xci3 false (Ok [])), xall, (TO (Some (s2l "CPU,core")) (s2l "CPU") false),
    (map s2l ["CPU    Core"; "  0       0"; "  1       1"; "  4       0"; "  5       1"; "  6       0";
              "  2       ?"; "  3       ?"; "  7       ?"]%string),
    (s2l "  6       0"), (s2l "  2       ?"),
    (map s2l ["CPU    Core"; "  0       0"; "  1       1"; "  4       0"; "  5       1"]%string), [],
    (map s2l ["  3       ?"; "  7       ?"]%string).
  split; [exact xenv_ok|]. split; [apply find_level_iff; vm_compute; reflexivity|].
  split; [vm_compute; reflexivity|]. split; [reflexivity|].
  split.
  - assert (R : row_ok (OnRow (TL 6 0 2 0 1 1))) by (intros []; discriminate).
    exact (format_reads [LCPU; LCore] false (cell [] (OnRow (TL 6 0 2 0 1 1))) (fun c _ => proj2 (cell_ok _ _ c R))).
  - assert (R : row_ok (OffRow 2)) by discriminate.
    exact (format_reads [LCPU; LCore] false (cell [] (OffRow 2)) (fun c _ => proj2 (cell_ok _ _ c R))).
Qed.

(** ** The theorems in the form of the statements *)
Lemma lines_ok e a o out : ok_system e a -> topology_info e a o = Ok out ->
  exists pcores, (te_hybrid e = true -> te_pcores e = Ok pcores) /\ right_output e a o pcores out.
Proof. intros (h1 & h2 & h3 & h4 & h5 & h6). now apply lines_l. Qed.

Lemma succeeds_ok e a o : ok_system e a ->
  ((exists out, topology_info e a o = Ok out) <->
   (exists cols, shows_columns e o cols) /\ (exists order, names_level (to_order o) order) /\
   valid_args (te_ci e) (opts a o) /\ (te_hybrid e = true -> exists p, te_pcores e = Ok p) /\
   exists c, target_cpu (te_ci e) (opts a o) c).
Proof. intros (h1 & h2 & h3 & h4 & h5 & h6). now apply succeeds_l. Qed.

(** Every online CPU that is targeted is on a line of the output if there is a "CPU" column. *)
Lemma once_in {A} (l r : list A) : once l r -> NoDup r /\ forall x, In x l <-> In x r.
Proof.
  induction 1 as [|l r x H [N IH] Hx|l r x H [N IH] Hx].
  - split; [constructor|tauto].
  - split.
    + apply (Permutation_NoDup (Permutation_cons_append r x)). constructor; [|exact N]. intros Hi. apply Hx. now apply IH.
    + intros y. rewrite !in_app_iff, IH. tauto.
  - split; [exact N|]. intros y. rewrite in_app_iff, <- IH. cbn. intuition. now subst.
Qed.

Lemma each_l e a o out c : ok_system e a -> topology_info e a o = Ok out -> to_columns o = None ->
  target_cpu (te_ci e) (opts a o) c ->
  exists line w ws, In line out /\ reads (w :: ws) line /\ numeral w c.
Proof.
  intros Hs E Ec Ht. destruct (lines_ok e a o out Hs E) as (pcores & _ & cols & order & header & body & Hc & _ & -> & _ & on & off &
    words & H1 & _ & _ & H2 & H3 & printed & Ho & Hr).
  unfold shows_columns in Hc. rewrite Ec in Hc. destruct Hc as (ls & Hd & ->). destruct Hd as [ms ds _ _].
  cbn [app map] in H3.
  destruct Hs as (wf & io & ne & sib & prop & num). set (ci := te_ci e) in *.
  assert (R : exists r, In r (map OnRow on ++ map OffRow off) /\ forall w, cell_is pcores r (CLvl LCPU) w -> numeral w c).
  { destruct (in_dec Z.eq_dec c (ci_online ci)) as [Hi|Hi].
    - apply (wf_online ci wf) in Hi as (t & Hi & Hl & Et). exists (OnRow t). split.
      + apply in_or_app. left. apply in_map, H1. split; [exact Hi|]. left. split; [exact Hl|]. now rewrite Et.
      + cbn. intros w [[X _]|[_ X]]; [now apply Hl in X|]. now rewrite <- Et.
    - exists (OffRow c). split; [|now intros w].
      apply in_or_app. right. apply in_map, H2.
      assert (to_online o = false /\ In c (ci_all ci)); [|tauto].
      destruct (proj1 (succeeds_ok e a o (conj wf (conj io (conj ne (conj sib (conj prop num)))))) (ex_intro _ _ E))
        as (_ & _ & Hv & _).
      apply (ot_init_iff ci (opts a o) wf prop) in Hv as (ot & Eot).
      destruct (cpus_live_l ci (opts a o) [] ot wf io ne sib prop (ex_intro _ ot (conj Eot eq_refl)) (ex_intro _ c Ht))
        as (cpus & ot1 & Ecp).
      destruct Ht as [Ht _]. destruct Ht as [[_ Ha]|[(pk & _ & t & Hti & Hl & Et & _)|[(t & Hti & Hl & Et & _)|
        [(pd & _ & t & Hti & Hl & Et & _)|(_ & _ & p & _ & t & Hti & Hl & Et & _)]]]];
        try (exfalso; apply Hi; apply (wf_online ci wf); exists t; auto).
      unfold available, opts, with_offline_ok in Ha. cbn in Ha. destruct (to_online o); cbn in Ha; [contradiction|]. auto. }
  destruct R as (r & Hr1 & Hr2).
  assert (W : exists w ws, In (w :: ws) words /\ numeral w c).
  { clear -H3 Hr1 Hr2. induction H3 as [|r' w' rs ws Hf H3 IH]; [destruct Hr1|]. destruct Hr1 as [-> |Hr1].
    - inversion Hf; subst. eexists _, _. split; [now left|]. apply Hr2. assumption.
    - destruct (IH Hr1) as (w & l & Hi & Hn). exists w, l. split; [now right|exact Hn]. }
  destruct W as (w & ws & Hw & Hn). apply (proj2 (once_in _ _ Ho)) in Hw.
  assert (L : exists line, In line body /\ reads (w :: ws) line).
  { clear -Hr Hw. induction Hr as [|x y l l' Hxy Hr IH]; [destruct Hw|]. destruct Hw as [-> |Hw].
    - exists y. split; [now left|exact Hxy].
    - destruct (IH Hw) as (z & Hz & Hz2). exists z. split; [now right|exact Hz2]. }
  destruct L as (line & Hl1 & Hl2). exists line, w, ws. split; [now right|auto].
Qed.
