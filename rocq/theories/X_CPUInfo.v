(** Example system used to show that the hypotheses of the topology theorems are met: two packages,
    two compute dies with one core and two CPUs each, and one I/O die per package. *)
From Verif Require Import Base L_Base M_CPUInfo S_CPUInfo L_CPUInfo L_CPUInfo2 L_Hotplug.

Definition xline (c : Z) : tline :=
  TL c (c mod 2) (c / 4 * 2 + c mod 2) (c mod 2) (c / 4) (c / 4).
Definition xsys : system :=
  SYS xline [(0, 0); (0, 1); (0, 2); (1, 0); (1, 1); (1, 2)] [0; 1; 2; 3; 4; 5; 6; 7].

(** The same, with module numbers assigned per package by the fall-back at _CPUInfoBase.py:115-128
    (module = core). *)
Definition yline (c : Z) : tline := TL c (c mod 2) (c mod 2) (c mod 2) (c / 4) (c / 4).
Definition ysys : system := SYS yline [] [0; 1; 2; 3; 4; 5; 6; 7].

Lemma xsys_ok : sys_ok xsys.
Proof.
  split.
  - cbn. intuition subst; discriminate.
  - cbn [xsys sys_present sys_line]. intros c Hc. cbn zeta.
    repeat (destruct Hc as [<-|Hc]; [vm_compute; repeat split; discriminate|]). destruct Hc.
  - repeat (constructor; [cbn; intuition discriminate|]). constructor.
  - cbn [xsys sys_uncore_dies]. intros c Hc.
    repeat (destruct Hc as [<-|Hc]; [vm_compute; repeat split; discriminate|]). destruct Hc.
Qed.

Lemma ysys_ok : sys_ok ysys.
Proof.
  split.
  - cbn. intuition subst; discriminate.
  - cbn [ysys sys_present sys_line]. intros c Hc. cbn zeta.
    repeat (destruct Hc as [<-|Hc]; [vm_compute; repeat split; discriminate|]). destruct Hc.
  - repeat (constructor; [cbn; intuition discriminate|]). constructor.
  - intros c [].
Qed.

Definition x_on : list Z := [0; 1; 2; 3; 4; 5; 6; 7].
Definition x_hist : list (list Z) := [[0; 1; 2; 3]; [0; 2]; [0; 1; 2; 6]].

Lemma x_on_ok : online_ok xsys x_on.
Proof.
  split; [|apply incl_refl]. repeat (constructor; [cbn; intuition discriminate|]). constructor.
Qed.

Lemma x_hist_ok : Forall (online_ok xsys) x_hist.
Proof.
  unfold x_hist. repeat (apply Forall_cons || apply Forall_nil);
    (split; [|intros c; cbn; tauto]);
    repeat (apply NoDup_cons; [cbn; intuition discriminate|]); apply NoDup_nil.
Qed.

Lemma x_modules : sys_modules_unique xsys.
Proof.
  intros c x Hc Hx. cbn [xsys sys_present sys_line] in *.
  repeat (destruct Hc as [<-|Hc];
          [repeat (destruct Hx as [<-|Hx]; [vm_compute; congruence|]); destruct Hx|]).
  destruct Hc.
Qed.

Lemma x_covered : dies_covered xsys x_on.
Proof. intros c Hc. exists c. auto. Qed.

Definition xci : cpuinfo := after_hotplug xsys x_on [].
Definition xci2 : cpuinfo := after_hotplug xsys x_on x_hist.

Lemma xci_wf : wf_ci xci.
Proof. apply hotplug_wf_l; [exact xsys_ok|exact x_on_ok|constructor]. Qed.

Lemma xci2_wf : wf_ci xci2.
Proof. apply hotplug_wf_l; [exact xsys_ok|exact x_on_ok|exact x_hist_ok]. Qed.

Lemma xci2_modules : modules_unique (ci_topo xci2).
Proof.
  destruct (after_hotplug_inv xsys x_hist x_on xsys_ok x_on_ok x_hist_ok).
  eapply inv_modules_unique; eauto. exact x_modules.
Qed.

(** ** Witnesses and derived forms used by the property file *)

Lemma C11_offline_package_refuted_l :  exists sys on hist,
  sys_ok sys /\ online_ok sys on /\ Forall (online_ok sys) hist /\
  exists p, cpus_div_packages (after_hotplug sys on hist) (Some []) None = Ok ([p], []) /\
            ~ exists c, cpu_in_pkg (ci_topo (after_hotplug sys on hist)) p c.
Proof.
  exists xsys, x_on, [[0; 1; 2; 3]]. split; [exact xsys_ok|]. split; [exact x_on_ok|].
  split.
  { pose proof x_hist_ok as H. inversion H; subst. constructor; [assumption|constructor]. }
  exists 1. split; [reflexivity|].
  intros (c & t & Ht & Hl & _ & Ep). vm_compute in Ht.
  repeat (destruct Ht as [<-|Ht]; [first [discriminate Ep | apply Hl; reflexivity]|]). destruct Ht.
Qed.

Lemma C12_div_dies_refuted_l :  exists sys on hist cpus found rem,
  sys_ok sys /\ online_ok sys on /\ Forall (online_ok sys) hist /\
  cpus_div_dies (after_hotplug sys on hist) (Some cpus) = Ok (found, rem) /\
  exists pd, ~ In pd found /\
    (exists c, cpu_in_die (ci_topo (after_hotplug sys on hist)) pd c) /\
    (forall c, cpu_in_die (ci_topo (after_hotplug sys on hist)) pd c -> In c cpus).
Proof.
  exists xsys, [0; 2; 4; 6], [x_on], x_on, [(0, 0); (1, 0)], [1; 3; 5; 7].
  split; [exact xsys_ok|]. split.
  { split; [|intros c; cbn; tauto]. repeat (constructor; [cbn; intuition discriminate|]). constructor. }
  split; [constructor; [exact x_on_ok|constructor]|]. split; [reflexivity|].
  exists (0, 1). split; [cbn; intuition discriminate|]. split.
  - exists 1, (xline 1). vm_compute. repeat split; auto. discriminate.
  - intros c (t & Ht & Hl & <- & _). vm_compute in Ht.
    repeat (destruct Ht as [<-|Ht]; [first [exfalso; apply Hl; reflexivity | cbn; tauto]|]). destruct Ht.
Qed.

Lemma C13_siblings_exact_l :  forall ci c s,
  wf_ci ci -> s <> SModule -> In c (ci_online ci) ->
  exists l, get_cpu_siblings ci c s = Ok l /\ StronglySorted Z.lt l /\
            forall x, In x l <-> same_unit (ci_topo ci) s c x.
Proof. intros ci c s Hwf Hs. apply siblings_spec_l; [exact Hwf|]. intros E. contradiction. Qed.

Lemma C13_module_siblings_exact_partial_l :  forall ci c,
  wf_ci ci -> modules_unique (ci_topo ci) -> In c (ci_online ci) ->
  exists l, get_cpu_siblings ci c SModule = Ok l /\ StronglySorted Z.lt l /\
            forall x, In x l <-> same_unit (ci_topo ci) SModule c x.
Proof. intros ci c Hwf Hm. apply siblings_spec_l; auto. Qed.

Lemma C13_module_siblings_refuted_l :  exists sys on c l x,
  sys_ok sys /\ online_ok sys on /\
  get_cpu_siblings (topo_init sys on) c SModule = Ok l /\ In x l /\
  ~ same_unit (ci_topo (topo_init sys on)) SModule c x.
Proof.
  exists ysys, x_on, 0, [0; 2; 4; 6], 4. split; [exact ysys_ok|]. split; [exact x_on_ok|].
  split; [reflexivity|]. split; [cbn; tauto|].
  intros (t & u & Ht & Hu & _ & _ & Et & Eu & E). vm_compute in Ht, Hu.
  repeat (destruct Ht as [<-|Ht];
    [first [discriminate Et |
       repeat (destruct Hu as [<-|Hu]; [first [discriminate Eu | discriminate E]|]); destruct Hu]|]).
  destruct Ht.
Qed.

Lemma C14_select_module_siblings_refuted_l :  exists sys on r a b,
  sys_ok sys /\ online_ok sys on /\
  select_module_siblings (topo_init sys on) on [0] = Ok r /\ In a r /\ In b r /\ a <> b /\
  same_unit (ci_topo (topo_init sys on)) SModule a b.
Proof.
  (* CPUs 0..3 in order 0 (pkg 0), 1 (pkg 1), 2 (pkg 0), 3 (pkg 1), all in core 0 *)
  exists (SYS (fun c => TL c 0 0 0 (c mod 2) (c mod 2)) [] [0; 1; 2; 3]), [0; 1; 2; 3],
    [0; 1; 2; 3], 0, 2.
  split.
  { split.
    - cbn. intuition subst; discriminate.
    - cbn [sys_present sys_line]. intros c Hc. cbn zeta.
      repeat (destruct Hc as [<-|Hc]; [vm_compute; repeat split; discriminate|]). destruct Hc.
    - repeat (constructor; [cbn; intuition discriminate|]). constructor.
    - intros c []. }
  split.
  { split; [|apply incl_refl]. repeat (constructor; [cbn; intuition discriminate|]). constructor. }
  split; [reflexivity|]. split; [cbn; tauto|]. split; [cbn; tauto|]. split; [discriminate|].
  exists (TL 0 0 0 0 0 0), (TL 2 0 0 0 0 0). vm_compute. repeat split; auto; discriminate.
Qed.
