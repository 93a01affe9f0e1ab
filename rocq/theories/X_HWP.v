(** An example system with HWP, and witnesses of what is not true. *)
From Coq Require Import Ascii String ZifyBool.
From Verif Require Import Base L_Base M_CPUInfo S_CPUInfo L_CPUInfo X_CPUInfo M_Text L_Text M_MSR S_MSR L_Bits L_MSR L_MSR3 X_MSR
  M_FMSR S_FMSR L_FMSR2 X_FMSR M_HWP S_HWP L_HWP L_HWP3 L_HWP5 L_HWP6.

(** MSR 0x772 is shared by the CPUs of a package, all others are per-CPU. *)
Definition h_dom (a c : Z) : Z := if a =? PKG then c / 4 else c.
Definition h_sc (a : Z) : scope := if a =? PKG then SPackage else SCPU.
Definition h_env : menv := ME xci true h_dom (fun _ _ v => v).

Lemma h_scope_right a : scope_right h_env a (h_sc a).
Proof.
  unfold h_sc. destruct (Z.eqb_spec a PKG) as [->|H1].
  - apply scope_right_dec; [exact xci_wf|discriminate|discriminate|vm_compute; reflexivity].
  - apply scope_right_dec; [exact xci_wf|discriminate|discriminate|].
    cbn [me_dom h_env]. unfold h_dom. rewrite (proj2 (Z.eqb_neq a PKG) H1). vm_compute. reflexivity.
Qed.
Lemma h_faithful : faithful h_env.
Proof. intros a old v. reflexivity. Qed.

(** Everything is supported everywhere, but package control only on some CPUs. *)
Definition supp (feats : list (str * feature)) (pkgctl : list Z) : list (str * list (Z * bool)) :=
  map (fun nf => (fst nf, map (fun c => (c, if str_eqb (fst nf) (s2l "pkg_control"%string) then inb c pkgctl else true)) (ci_online xci))) feats.
Definition h_req (pkgctl : list Z) : freg := FR REQ hwp_request_feats (supp hwp_request_feats pkgctl).
Definition h_pkg : freg := FR PKG (hwp_request_pkg_feats (Some SPackage)) (supp (hwp_request_pkg_feats (Some SPackage)) []).
Definition fsb_feats : list (str * feature) :=
  named [("fsb"%string, ffsb 2 0 (Some SCPU) [(83000, 7); (100000, 5); (133330, 1); (166670, 3)])].
Definition h_fsb : freg := FR FSB fsb_feats (supp fsb_feats []).

(** A hybrid system with the P-cores 0 and 1; a system with a bus clock register. *)
Definition h_hybrid (pkgctl : list Z) : hwp := HW (Ok (h_req pkgctl)) (Ok h_pkg) (Exn ENotSupported) true [0; 1] 78741000.
Definition h_plain (pkgctl : list Z) : hwp := HW (Ok (h_req pkgctl)) (Ok h_pkg) (Ok h_fsb) true [] 0.

Lemma dget_tab (f : Z -> bool) l c : match dget Z.eqb (map (fun c => (c, f c)) l) c with Some b => b | None => false end = inb c l && f c.
Proof.
  induction l as [|y t IH]; cbn [map dget inb existsb]; [reflexivity|]. unfold inb in *. cbn [existsb].
  destruct (c =? y) eqn:E; [apply Z.eqb_eq in E; now subst|exact IH].
Qed.

Lemma has_supp a feats pkgctl n c : has (FR a feats (supp feats pkgctl)) n c =
  match dget str_eqb feats n with Some _ => inb c (ci_online xci) && (if str_eqb n (s2l "pkg_control"%string) then inb c pkgctl else true) | None => false end.
Proof.
  unfold has. cbn [fr_supp]. unfold supp. induction feats as [|[n' fe] t IH]; [reflexivity|]. cbn [map dget fst].
  destruct (str_eqb n n') eqn:E; [|exact IH]. apply str_eqb_eq in E. subst n'. apply dget_tab.
Qed.

Lemma h_req_ok pkgctl :
  fr_addr (h_req pkgctl) = REQ /\ fr_feats (h_req pkgctl) = hwp_request_feats /\
  (forall k c, has (h_req pkgctl) (hname k) c = true -> has (h_req pkgctl) (hvalid k) c = true) /\
  (forall k c, k <> HEpp -> has (h_req pkgctl) (s2l "pkg_control"%string) c = true -> has (h_req pkgctl) (hvalid k) c = true).
Proof.
  split; [reflexivity|]. split; [reflexivity|]. unfold h_req.
  assert (V : forall k, str_eqb (hvalid k) (s2l "pkg_control"%string) = false) by (intros []; vm_compute; reflexivity).
  split; intros k c; [|intros _]; rewrite !has_supp, hvalid_get, V, andb_true_r.
  - rewrite hname_get. intros H. now apply andb_prop in H.
  - rewrite pkgctl_get. intros H. now apply andb_prop in H.
Qed.

Lemma h_hybrid_ok pkgctl : hwp_ok h_env h_sc (h_hybrid pkgctl).
Proof.
  split.
  - reflexivity.
  - intros fr [= <-]. apply h_req_ok.
  - intros fr [= <-]. split; reflexivity.
  - discriminate.
  - intros _. split; [reflexivity|]. cbn. auto.
Qed.
Lemma h_plain_ok pkgctl : hwp_ok h_env h_sc (h_plain pkgctl).
Proof.
  split.
  - reflexivity.
  - intros fr [= <-]. apply h_req_ok.
  - intros fr [= <-]. split; reflexivity.
  - intros fr [= <-]. split; [reflexivity|]. exists 2, 0, [(83000, 7); (100000, 5); (133330, 1); (166670, 3)].
    split; [right; now left|reflexivity].
  - intros H. now elim H.
Qed.
Lemma h_uniform_none : uniform h_env (h_hybrid []).
Proof. intros c c' _ _. unfold has_pkg_control, h_hybrid, h_req. cbn [hw_req]. rewrite !has_supp. cbn. now rewrite !andb_false_r. Qed.
Lemma h_uniform_all (b : bool) : uniform h_env (if b then h_hybrid (ci_online xci) else h_plain (ci_online xci)).
Proof.
  intros c c' Hc Hc'. unfold has_pkg_control, h_hybrid, h_plain, h_req. destruct b; cbn [hw_req]; rewrite !has_supp, pkgctl_get;
  (replace (str_eqb (s2l "pkg_control"%string) (s2l "pkg_control"%string)) with true by (vm_compute; reflexivity));
  cbn [me_ci h_env] in *; rewrite (proj2 (inb_In c _) Hc), (proj2 (inb_In c' _) Hc'); reflexivity.
Qed.

(** CPUs 1 and 5 leave it to their packages; the packages ask for levels 10 (minimum), 40 (maximum) and 128 (EPP), the
    CPUs for 20, 30 and 64; the bus clock is 100 MHz. *)
Definition h_request (lo hi epp : Z) : Z := lo + hi * 256 + epp * 2 ^ 24.
Definition h_hw (a d : Z) : Z :=
  if a =? PKG then h_request 10 40 128
  else if a =? REQ then h_request 20 30 64 + (if inb d [1; 5] then 2 ^ 42 else 0)
  else if a =? FSB then 5 else 0.

Definition h_ops : list hop :=
  [HGetFreq HMax [0; 1; 2; 5]; HMsr (OWriteBits REQ (31, 24) (Some 200) (Some [2]) SCPU true); HSetEpp 17 5; HGetEpp 1; HSetFreq HMin 800000000 [3]].
Definition h_ops2 : list hop :=
  [HSetEpp 9 1; HSetFreq HMin 1200000000 [0; 1]; HMsr (OWrite PKG 0 (Some [1]) SPackage false); HGetFreq HMax [1]; HSetFreq HMax 1000000000 [6]].

Lemma hdisc_dec ops : ~ In (HMsr OStart) ops ->
  forallb (fun o => match o with
    | HMsr (ORead a _ sn) => match h_sc a, sn with SPackage, SPackage | SCPU, SCPU => true | _, _ => false end
    | HMsr (OWrite a _ _ sn _) => match h_sc a, sn with SPackage, SPackage | SCPU, SCPU => true | _, _ => false end
    | HMsr (OWriteBits a b v _ sn _) => match h_sc a, sn with SPackage, SPackage | SCPU, SCPU => true | _, _ => false end
        && field_okb b && match v with Some v => 0 <=? v | None => true end
    | HSetFreq _ f _ => 0 <=? f | HSetEpp v _ => 0 <=? v | _ => true end) ops = true -> hdisciplined h_env h_sc ops.
Proof.
  intros Hn H. rewrite forallb_forall in H. split; [|split; [|split]].
  - intros o Ho. specialize (H _ Ho). cbn beta iota in H. destruct o as [a cp sn|a v cp sn vf|a b val cp sn vf| | |]; cbn [op_scoped]; auto.
    + destruct (h_sc a), sn; try discriminate; reflexivity.
    + destruct (h_sc a), sn; try discriminate; reflexivity.
    + apply andb_prop in H. destruct H as (H & Hv). apply andb_prop in H. destruct H as (H & Hb).
      split; [destruct (h_sc a), sn; try discriminate; reflexivity|]. split; [unfold field_okb in Hb; unfold field_ok; lia|]. destruct val; [lia|exact I].
  - intros k f cs Ho. specialize (H _ Ho). cbn in H. lia.
  - intros v c Ho. specialize (H _ Ho). cbn in H. lia.
  - now left.
Qed.

Lemma h_all_disciplined k f cpus : 0 <= f -> hdisciplined h_env h_sc (h_ops ++ HSetFreq k f cpus :: h_ops2).
Proof.
  intros Hf. apply hdisc_dec; [cbn; intuition discriminate|]. unfold h_ops, h_ops2. rewrite forallb_app. cbn [forallb].
  rewrite (proj2 (Z.leb_le 0 f) Hf). vm_compute. reflexivity.
Qed.

Lemma run_pair {A} (m : res A * mstate) r : fst m = r -> m = (r, snd m).
Proof. intros <-. apply surjective_pairing. Qed.

(** On P-cores the frequency read back may be above the one asked for. *)
Lemma C26_pcore_refuted_l : exists env sc x hw f c s1 s2 g,
  wf_ci (me_ci env) /\ (forall a, scope_right env a (sc a)) /\ faithful env /\ hwp_ok env sc x /\ uniform env x /\
  In c (ci_online (me_ci env)) /\
  set_freq_msr env x HMax f [c] (msr_init hw []) = (Ok tt, s1) /\
  get_freq_msr env x HMax [c] s1 = (Ok [(c, g)], s2) /\ f < g.
Proof.
  exists h_env, h_sc, (h_hybrid []), h_hw, 2390000000, 1.
  exists (snd (set_freq_msr h_env (h_hybrid []) HMax 2390000000 [1] (msr_init h_hw []))).
  exists (snd (get_freq_msr h_env (h_hybrid []) HMax [1] (snd (set_freq_msr h_env (h_hybrid []) HMax 2390000000 [1] (msr_init h_hw []))))), 2400000000.
  split; [exact xci_wf|]. split; [exact h_scope_right|]. split; [exact h_faithful|]. split; [apply h_hybrid_ok|].
  split; [exact h_uniform_none|]. split; [vm_compute; auto|].
  split; [apply run_pair; vm_compute; reflexivity|]. split; [apply run_pair; vm_compute; reflexivity|reflexivity].
Qed.

(** A CPU that was not asked for, and left the maximum frequency to its package, gets its own one. *)
Lemma C27_set_refuted_l : exists env sc x hw f c c' s1 s2,
  wf_ci (me_ci env) /\ (forall a, scope_right env a (sc a)) /\ faithful env /\ hwp_ok env sc x /\ uniform env x /\
  In c (ci_online (me_ci env)) /\ In c' (ci_online (me_ci env)) /\ c <> c' /\
  set_freq_msr env x HMax f [c] (msr_init hw []) = (Ok tt, s1) /\
  fst (get_freq_msr env x HMax [c'] (msr_init hw [])) = Ok [(c', 4000000000)] /\
  get_freq_msr env x HMax [c'] s1 = (Ok [(c', 3000000000)], s2).
Proof.
  exists h_env, h_sc, (h_plain (ci_online xci)), h_hw, 1500000000, 2, 5.
  exists (snd (set_freq_msr h_env (h_plain (ci_online xci)) HMax 1500000000 [2] (msr_init h_hw []))).
  exists (snd (get_freq_msr h_env (h_plain (ci_online xci)) HMax [5] (snd (set_freq_msr h_env (h_plain (ci_online xci)) HMax 1500000000 [2] (msr_init h_hw []))))).
  split; [exact xci_wf|]. split; [exact h_scope_right|]. split; [exact h_faithful|]. split; [apply h_plain_ok|].
  split; [exact (h_uniform_all false)|]. split; [vm_compute; auto|]. split; [vm_compute; tauto|]. split; [discriminate|].
  split; [apply run_pair; vm_compute; reflexivity|]. split; [vm_compute; reflexivity|]. apply run_pair. vm_compute. reflexivity.
Qed.

(** If only some CPUs have package control, setting a frequency succeeds, but has no effect on a CPU that leaves it to its package. *)
Lemma C27_mixed_refuted_l : exists env sc x hw f c s1 s2,
  wf_ci (me_ci env) /\ (forall a, scope_right env a (sc a)) /\ faithful env /\ hwp_ok env sc x /\
  In c (ci_online (me_ci env)) /\
  set_freq_msr env x HMax f [c] (msr_init hw []) = (Ok tt, s1) /\
  get_freq_msr env x HMax [c] s1 = (Ok [(c, 4000000000)], s2) /\ f = 1500000000.
Proof.
  exists h_env, h_sc, (h_plain [1; 5]), h_hw, 1500000000, 5.
  exists (snd (set_freq_msr h_env (h_plain [1; 5]) HMax 1500000000 [5] (msr_init h_hw []))).
  exists (snd (get_freq_msr h_env (h_plain [1; 5]) HMax [5] (snd (set_freq_msr h_env (h_plain [1; 5]) HMax 1500000000 [5] (msr_init h_hw []))))).
  split; [exact xci_wf|]. split; [exact h_scope_right|]. split; [exact h_faithful|]. split; [apply h_plain_ok|].
  split; [vm_compute; tauto|].
  split; [apply run_pair; vm_compute; reflexivity|]. split; [|reflexivity]. apply run_pair. vm_compute. reflexivity.
Qed.
