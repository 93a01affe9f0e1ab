(** An example system with EPP and EPB, and witnesses of what is not true. *)
From Coq Require Import Ascii String QArith ZifyBool.
From Verif Require Import Base L_Base M_CPUInfo S_CPUInfo L_CPUInfo X_CPUInfo M_Text S_Text L_Text M_MSR S_MSR L_Bits L_MSR L_MSR3 X_MSR
  M_FMSR S_FMSR L_FMSR2 X_FMSR M_HWP S_HWP L_HWP L_HWP3 L_HWP5 L_HWP6 X_HWP M_Human S_Human L_Human M_EP S_EP L_EP.
Open Scope Z_scope.

(** MSR 0x772 is shared by the CPUs of a package, MSR 0x1b0 by the CPUs of a core, all others are per-CPU. *)
Definition e_dom (a c : Z) : Z := if a =? PKG then c / 4 else if a =? 432 then c / 4 * 2 + c mod 2 else c.
Definition e_sc (a : Z) : scope := if a =? PKG then SPackage else if a =? 432 then SCore else SCPU.
Definition e_env (cache : bool) : menv := ME xci cache e_dom (fun _ _ v => v).

Lemma e_scope_right b a : scope_right (e_env b) a (e_sc a).
Proof.
  unfold e_sc. destruct (Z.eqb_spec a PKG) as [->|H1].
  - apply scope_right_dec; [exact xci_wf|discriminate|discriminate|vm_compute; reflexivity].
  - destruct (Z.eqb_spec a 432) as [->|H2].
    + apply scope_right_dec; [exact xci_wf|discriminate|discriminate|vm_compute; reflexivity].
    + apply scope_right_dec; [exact xci_wf|discriminate|discriminate|].
      cbn [me_dom e_env]. unfold e_dom. rewrite (proj2 (Z.eqb_neq a PKG) H1), (proj2 (Z.eqb_neq a 432) H2). vm_compute. reflexivity.
Qed.
Lemma e_faithful b : faithful (e_env b).
Proof. intros a old v. reflexivity. Qed.

Definition e_epb : freg := FR 432 (epb_feats (Some SCore)) (supp (epb_feats (Some SCore)) []).

Lemma e_ok b pkgctl : ep_ok (e_env b) e_sc (h_hybrid pkgctl) (Ok e_epb).
Proof.
  split.
  - split.
    + reflexivity.
    + intros fr [= <-]. apply h_req_ok.
    + intros fr [= <-]. split; reflexivity.
    + discriminate.
    + intros _. split; [reflexivity|]. cbn. auto.
  - intros fr [= <-]. split; reflexivity.
Qed.

(** A kernel that knows four names, and "default". *)
Definition e_names : list (str * Z) :=
  [(s2l "performance"%string, 0); (s2l "balance_performance"%string, 128); (s2l "balance_power"%string, 192); (s2l "power"%string, 255)].
Definition e_policies : list str := s2l "default"%string :: map fst e_names.
Definition e_shown (kind : epkind) (n : Z) : str :=
  match kind with
  | EPP => match find (fun p => snd p =? n) e_names with Some (t, _) => t | None => dec n end
  | EPB => dec n
  end.
Definition e_knows (deflt : Z -> Z) (c : Z) (v : str) : Z :=
  if str_eqb v (s2l "default"%string) then deflt c
  else match dget str_eqb e_names v with
       | Some n => n
       | None => match py_int v with Some n => n | None => -1 end
       end.
Definition e_show (kind : epkind) (h : Z -> Z -> Z) (c : Z) : option str :=
  match get_bits (h (ep_addr kind) (e_dom (ep_addr kind) c)) (ep_bits kind) with
  | Ok n => Some (e_shown kind n ++ [ascii_of_nat 10])
  | Exn _ => None
  end.
Definition e_store (kind : epkind) (deflt : Z -> Z) (h : Z -> Z -> Z) (c : Z) (v : str) : option (Z -> Z -> Z) :=
  if e_knows deflt c v <? 0 then None
  else match set_bits (h (ep_addr kind) (e_dom (ep_addr kind) c)) (ep_bits kind) (Some (e_knows deflt c v)) with
       | Ok r => Some (fun a d => if (a =? ep_addr kind) && (d =? e_dom (ep_addr kind) c) then r else h a d)
       | Exn _ => None
       end.
Definition e_kern (kind : epkind) (deflt : Z -> Z) (files : Z -> bool) : kern := KN files (e_show kind) (e_store kind deflt).

Lemma e_bits_ok kind : field_ok (ep_bits kind).
Proof. destruct kind; unfold field_ok; cbn; lia. Qed.

Lemma e_name_no_num : forall t n, In (t, n) e_names -> py_int t = None /\ strip (t ++ [ascii_of_nat 10]) = t /\ t <> s2l "default"%string /\ dget str_eqb e_names t = Some n.
Proof.
  intros t n [E|[E|[E|[E|[]]]]]; injection E as <- <-; (split; [vm_compute; reflexivity|]); (split; [vm_compute; reflexivity|]);
  (split; [discriminate|vm_compute; reflexivity]).
Qed.

Lemma e_shown_cases kind n : In (e_shown kind n, n) e_names \/ e_shown kind n = dec n.
Proof.
  unfold e_shown. destruct kind; [|now right]. destruct (find (fun p => snd p =? n) e_names) as [[t m]|] eqn:E; [|now right].
  apply find_some in E. destruct E as (Hin & Em). cbn in Em. apply Z.eqb_eq in Em. subst m. now left.
Qed.

Lemma e_dec_no_name n : 0 <= n -> dget str_eqb e_names (dec n) = None /\ dec n <> s2l "default"%string.
Proof.
  intros H. pose proof (py_int_dec n H) as P. split.
  - destruct (dget str_eqb e_names (dec n)) as [m|] eqn:E; [|reflexivity]. apply (dget_In _ str_eqb_spec) in E.
    destruct (e_name_no_num _ _ E) as (Q & _). congruence.
  - intros E. rewrite E in P. vm_compute in P. discriminate.
Qed.

Lemma e_knows_num d c n : 0 <= n -> e_knows d c (dec n) = n.
Proof.
  intros H. destruct (e_dec_no_name n H) as (E1 & E2). unfold e_knows. rewrite E1.
  destruct (str_eqb (dec n) (s2l "default"%string)) eqn:E; [apply str_eqb_eq in E; contradiction|]. now rewrite (py_int_dec n H).
Qed.

Lemma e_strip_dec n : 0 <= n -> strip (dec n ++ [ascii_of_nat 10]) = dec n.
Proof.
  intros H. pose proof (dec_numeral n H) as Hn. unfold strip. change (dec n ++ [ascii_of_nat 10]) with ([] ++ dec n ++ [ascii_of_nat 10]).
  apply strip_mid.
  - apply Hn.
  - eapply digit_nospace, numeral_hd; exact Hn.
  - eapply digit_nospace, numeral_last; exact Hn.
  - reflexivity.
  - reflexivity.
Qed.

Lemma e_kernel_ok b kind deflt files : (forall c c', e_dom (ep_addr kind) c = e_dom (ep_addr kind) c' -> deflt c = deflt c') ->
  kernel_ok (e_env b) kind (e_kern kind deflt files) (e_shown kind) (e_knows deflt).
Proof.
  intros Hd. split; cbn [kn_show kn_store e_kern].
  - intros h c t. unfold e_show. destruct (get_bits _ _) as [n|e] eqn:E; [|discriminate]. intros [= <-].
    apply get_bits_is_field in E; [|apply e_bits_ok]. exists n. split; [exact E|]. assert (Hn : 0 <= n) by apply E.
    destruct (e_shown_cases kind n) as [Hin| ->]; [|now apply e_strip_dec]. now destruct (e_name_no_num _ _ Hin) as (_ & Hs & _).
  - intros h c v h'. unfold e_store. destruct (e_knows deflt c v <? 0) eqn:El; [discriminate|]. destruct (set_bits _ _ _) as [r|e] eqn:E; [|discriminate].
    intros [= <-]. assert (Hp : 0 <= e_knows deflt c v) by lia. destruct (set_bits_is_set_some _ _ _ _ (e_bits_ok kind) Hp E) as (Hf & Hs). split; [exact Hf|]. split.
    + cbn [me_dom e_env]. now rewrite !Z.eqb_refl.
    + cbn [me_dom e_env]. intros a d D. destruct ((a =? ep_addr kind) && (d =? e_dom (ep_addr kind) c)) eqn:Eb; [lia|reflexivity].
  - intros c n Hn. now apply e_knows_num.
  - intros c n Hn. destruct (e_shown_cases kind n) as [Hin| ->]; [|now apply e_knows_num].
    destruct (e_name_no_num _ _ Hin) as (_ & _ & Hne & Hg). unfold e_knows. rewrite Hg.
    destruct (str_eqb (e_shown kind n) (s2l "default"%string)) eqn:E; [apply str_eqb_eq in E; contradiction|reflexivity].
  - cbn [me_dom e_env]. intros c c' v E. unfold e_knows. now rewrite (Hd c c' E).
  - intros -> n _. reflexivity.
Qed.

Lemma e_run {A S} (m : res A * S) r : fst m = r -> m = (r, snd m).
Proof. intros <-. apply surjective_pairing. Qed.

Definition e_hw (a d : Z) : Z := if a =? 432 then 6 else h_hw a d.
Definition all_files (c : Z) : bool := true.
Definition same_default (c : Z) : Z := 128.

Lemma e_system_ok b kind deflt files pkgctl : (forall c c', e_dom (ep_addr kind) c = e_dom (ep_addr kind) c' -> deflt c = deflt c') ->
  ep_system (e_env b) e_sc kind (h_hybrid pkgctl) (Ok e_epb) (e_kern kind deflt files) (e_shown kind) (e_knows deflt).
Proof.
  intros H. split; [exact xci_wf|]. split; [apply e_scope_right|]. split; [apply e_faithful|]. split; [apply e_ok|]. now apply e_kernel_ok.
Qed.

(** The sysfs value is remembered when it is set through the MSR. *)
Lemma C28_sysfs_stale_refuted_l : exists env sc kind x epb kn shown knows names h ops val c s1 s2 v n,
  ep_system env sc kind x epb kn shown knows /\ val = dec n /\ In c (ci_online (me_ci env)) /\
  own_value env kind x h c /\
  ep_set_vals env kind kn x epb names val (Some [c]) by_msr (erun env kind kn x epb names ops (ep_init h [])) = (Ok (s2l "msr"%string), s1) /\
  ep_value env kind (ms_hw (es_m s1)) c n /\
  ep_get_vals env kind kn x epb (Some [c]) by_sysfs s1 = (Ok [(c, v, s2l "sysfs"%string)], s2) /\ v <> reading kind shown (s2l "sysfs"%string) n.
Proof.
  pose (kn := e_kern EPP same_default all_files). pose (x := h_hybrid []). pose (ops := [EGet (Some [0]) by_sysfs]).
  pose (s1 := snd (ep_set_vals (e_env true) EPP kn x (Ok e_epb) e_policies (dec 10) (Some [0]) by_msr (erun (e_env true) EPP kn x (Ok e_epb) e_policies ops (ep_init e_hw [])))).
  exists (e_env true), e_sc, EPP, x, (Ok e_epb), kn, (e_shown EPP), (e_knows same_default), e_policies, e_hw, ops, (dec 10), 0, s1.
  exists (snd (ep_get_vals (e_env true) EPP kn x (Ok e_epb) (Some [0]) by_sysfs s1)), (EText (s2l "64"%string)), 10.
  split; [now apply e_system_ok|]. split; [reflexivity|]. split; [vm_compute; tauto|]. split; [intros _; vm_compute; reflexivity|].
  split; [unfold s1; apply e_run; vm_compute; reflexivity|].
  split; [apply get_bits_is_field; [apply e_bits_ok|vm_compute; reflexivity]|].
  split; [unfold s1; apply e_run; vm_compute; reflexivity|]. discriminate.
Qed.

(** The MSR value is remembered when it is set through sysfs. *)
Lemma C28_msr_stale_refuted_l : exists env sc kind x epb kn shown knows names h ops val c s1 s2 v n,
  ep_system env sc kind x epb kn shown knows /\ val = dec n /\ In c (ci_online (me_ci env)) /\
  own_value env kind x h c /\
  ep_set_vals env kind kn x epb names val (Some [c]) by_sysfs (erun env kind kn x epb names ops (ep_init h [])) = (Ok (s2l "sysfs"%string), s1) /\
  ep_value env kind (ms_hw (es_m s1)) c n /\
  ep_get_vals env kind kn x epb (Some [c]) by_msr s1 = (Ok [(c, v, s2l "msr"%string)], s2) /\ v <> ENum n.
Proof.
  pose (kn := e_kern EPP same_default all_files). pose (x := h_hybrid []). pose (ops := [EGet (Some [0]) by_msr]).
  pose (s1 := snd (ep_set_vals (e_env true) EPP kn x (Ok e_epb) e_policies (dec 10) (Some [0]) by_sysfs (erun (e_env true) EPP kn x (Ok e_epb) e_policies ops (ep_init e_hw [])))).
  exists (e_env true), e_sc, EPP, x, (Ok e_epb), kn, (e_shown EPP), (e_knows same_default), e_policies, e_hw, ops, (dec 10), 0, s1.
  exists (snd (ep_get_vals (e_env true) EPP kn x (Ok e_epb) (Some [0]) by_msr s1)), (ENum 64), 10.
  split; [now apply e_system_ok|]. split; [reflexivity|]. split; [vm_compute; tauto|]. split; [intros _; vm_compute; reflexivity|].
  split; [unfold s1; apply e_run; vm_compute; reflexivity|].
  split; [apply get_bits_is_field; [apply e_bits_ok|vm_compute; reflexivity]|].
  split; [unfold s1; apply e_run; vm_compute; reflexivity|]. discriminate.
Qed.

(** A name that stands for different numbers on different CPUs is read as the number of the first CPU. *)
Definition two_defaults (c : Z) : Z := if c =? 1 then 192 else 128.
Lemma C28_alias_refuted_l : exists env sc kind x epb kn shown knows names h val c s1 s2 v,
  ep_system env sc kind x epb kn shown knows /\ In c (ci_online (me_ci env)) /\
  ep_set_vals env kind kn x epb names val None by_sysfs (ep_init h []) = (Ok (s2l "sysfs"%string), s1) /\
  ep_value env kind (ms_hw (es_m s1)) c (knows c val) /\
  ep_get_vals env kind kn x epb (Some [c]) by_sysfs s1 = (Ok [(c, v, s2l "sysfs"%string)], s2) /\ v <> reading kind shown (s2l "sysfs"%string) (knows c val).
Proof.
  pose (kn := e_kern EPP two_defaults all_files). pose (x := h_hybrid []).
  pose (s1 := snd (ep_set_vals (e_env true) EPP kn x (Ok e_epb) e_policies (s2l "default"%string) None by_sysfs (ep_init e_hw []))).
  exists (e_env true), e_sc, EPP, x, (Ok e_epb), kn, (e_shown EPP), (e_knows two_defaults), e_policies, e_hw, (s2l "default"%string), 1, s1.
  exists (snd (ep_get_vals (e_env true) EPP kn x (Ok e_epb) (Some [1]) by_sysfs s1)), (EText (s2l "balance_performance"%string)).
  split; [apply e_system_ok; intros c c' E; cbn in E; now subst|]. split; [vm_compute; tauto|].
  split; [unfold s1; apply e_run; vm_compute; reflexivity|].
  split; [apply get_bits_is_field; [apply e_bits_ok|vm_compute; reflexivity]|].
  split; [unfold s1; apply e_run; vm_compute; reflexivity|]. discriminate.
Qed.

(** EPB is shared by the CPUs of a core, but what is remembered is forgotten only for the CPU that is set. *)
Lemma C28_shared_refuted_l : exists env sc kind x epb kn shown knows names h ops val c c' s1 s2 v n,
  ep_system env sc kind x epb kn shown knows /\ val = dec n /\ In c (ci_online (me_ci env)) /\ In c' (ci_online (me_ci env)) /\
  me_dom env (ep_addr kind) c = me_dom env (ep_addr kind) c' /\
  ep_set_vals env kind kn x epb names val (Some [c]) by_sysfs (erun env kind kn x epb names ops (ep_init h [])) = (Ok (s2l "sysfs"%string), s1) /\
  ep_value env kind (ms_hw (es_m s1)) c' n /\
  ep_get_vals env kind kn x epb (Some [c']) by_sysfs s1 = (Ok [(c', v, s2l "sysfs"%string)], s2) /\ v <> reading kind shown (s2l "sysfs"%string) n.
Proof.
  pose (kn := e_kern EPB same_default all_files). pose (x := h_hybrid []). pose (ops := [EGet None by_sysfs]).
  pose (s1 := snd (ep_set_vals (e_env true) EPB kn x (Ok e_epb) e_policies (dec 10) (Some [0]) by_sysfs (erun (e_env true) EPB kn x (Ok e_epb) e_policies ops (ep_init e_hw [])))).
  exists (e_env true), e_sc, EPB, x, (Ok e_epb), kn, (e_shown EPB), (e_knows same_default), e_policies, e_hw, ops, (dec 10), 0, 2, s1.
  exists (snd (ep_get_vals (e_env true) EPB kn x (Ok e_epb) (Some [2]) by_sysfs s1)), (ENum 6), 10.
  split; [now apply e_system_ok|]. split; [reflexivity|]. split; [vm_compute; tauto|]. split; [vm_compute; tauto|]. split; [reflexivity|].
  split; [unfold s1; apply e_run; vm_compute; reflexivity|].
  split; [apply get_bits_is_field; [apply e_bits_ok|vm_compute; reflexivity]|].
  split; [unfold s1; apply e_run; vm_compute; reflexivity|]. discriminate.
Qed.

(** A CPU that leaves EPP to its package: what is set through sysfs is not what the MSR mechanism reads, even without
    a cache. *)
Lemma C28_package_refuted_l : exists env sc kind x epb kn shown knows names h val c s1 s2 v n,
  ep_system env sc kind x epb kn shown knows /\ me_cache env = false /\ val = dec n /\ In c (ci_online (me_ci env)) /\
  ep_set_vals env kind kn x epb names val (Some [c]) by_sysfs (ep_init h []) = (Ok (s2l "sysfs"%string), s1) /\
  ep_value env kind (ms_hw (es_m s1)) c n /\
  ep_get_vals env kind kn x epb (Some [c]) by_msr s1 = (Ok [(c, v, s2l "msr"%string)], s2) /\ v <> ENum n.
Proof.
  pose (kn := e_kern EPP same_default all_files). pose (x := h_hybrid (ci_online xci)).
  pose (s1 := snd (ep_set_vals (e_env false) EPP kn x (Ok e_epb) e_policies (dec 10) (Some [1]) by_sysfs (ep_init e_hw []))).
  exists (e_env false), e_sc, EPP, x, (Ok e_epb), kn, (e_shown EPP), (e_knows same_default), e_policies, e_hw, (dec 10), 1, s1.
  exists (snd (ep_get_vals (e_env false) EPP kn x (Ok e_epb) (Some [1]) by_msr s1)), (ENum 128), 10.
  split; [now apply e_system_ok|]. split; [reflexivity|]. split; [reflexivity|]. split; [vm_compute; tauto|].
  split; [unfold s1; apply e_run; vm_compute; reflexivity|].
  split; [apply get_bits_is_field; [apply e_bits_ok|vm_compute; reflexivity]|].
  split; [unfold s1; apply e_run; vm_compute; reflexivity|]. discriminate.
Qed.

(** With several mechanisms, a CPU may be read twice. *)
Lemma C28_twice_refuted_l : exists env sc kind x epb kn shown knows h cpus l s1,
  ep_system env sc kind x epb kn shown knows /\ NoDup cpus /\ (forall c, In c cpus -> In c (ci_online (me_ci env))) /\
  ep_get_vals env kind kn x epb (Some cpus) None (ep_init h []) = (Ok l, s1) /\ ~ NoDup (map (fun e => fst (fst e)) l).
Proof.
  pose (kn := e_kern EPP same_default (fun c => c =? 0)). pose (x := h_hybrid []).
  exists (e_env true), e_sc, EPP, x, (Ok e_epb), kn, (e_shown EPP), (e_knows same_default), e_hw, [0; 1].
  exists [(0, EText (s2l "64"%string), s2l "sysfs"%string); (0, ENum 64, s2l "msr"%string); (1, ENum 64, s2l "msr"%string)].
  exists (snd (ep_get_vals (e_env true) EPP kn x (Ok e_epb) (Some [0; 1]) None (ep_init e_hw []))).
  split; [now apply e_system_ok|]. split; [repeat constructor; cbn; intuition discriminate|]. split; [intros c [<-|[<-|[]]]; vm_compute; tauto|].
  split; [apply e_run; vm_compute; reflexivity|]. cbn [map fst]. intros H. inversion H as [|? ? Hn _]. apply Hn. now left.
Qed.

(** Writing another field of the register, that the MSR object remembers, brings back the old value. *)
Lemma C28_revert_refuted_l : exists env sc kind x epb kn shown knows names h ops val c o s1 n,
  ep_system env sc kind x epb kn shown knows /\ val = dec n /\ In c (ci_online (me_ci env)) /\
  ep_set_vals env kind kn x epb names val (Some [c]) by_sysfs (erun env kind kn x epb names ops (ep_init h [])) = (Ok (s2l "sysfs"%string), s1) /\
  ep_value env kind (ms_hw (es_m s1)) c n /\
  (exists a b v vf, o = OWriteBits a b (Some v) (Some [c]) (sc a) vf /\ field_ok b /\ disjoint b (ep_bits kind)) /\
  ~ ep_value env kind (ms_hw (es_m (erun env kind kn x epb names [EMsr o] s1))) c n.
Proof.
  pose (kn := e_kern EPP same_default all_files). pose (x := h_hybrid []). pose (ops := [EGet (Some [0]) by_msr]).
  pose (s1 := snd (ep_set_vals (e_env true) EPP kn x (Ok e_epb) e_policies (dec 10) (Some [0]) by_sysfs (erun (e_env true) EPP kn x (Ok e_epb) e_policies ops (ep_init e_hw [])))).
  exists (e_env true), e_sc, EPP, x, (Ok e_epb), kn, (e_shown EPP), (e_knows same_default), e_policies, e_hw, ops, (dec 10), 0.
  exists (OWriteBits REQ (7, 0) (Some 12) (Some [0]) SCPU true), s1, 10.
  split; [now apply e_system_ok|]. split; [reflexivity|]. split; [vm_compute; tauto|].
  split; [unfold s1; apply e_run; vm_compute; reflexivity|].
  split; [apply get_bits_is_field; [apply e_bits_ok|vm_compute; reflexivity]|].
  split.
  - exists REQ, (7, 0), 12, true. split; [reflexivity|]. split; [unfold field_ok; cbn; lia|]. intros i (A & B). unfold in_field in *. cbn in A, B. lia.
  - intros H. apply get_bits_is_field in H; [|apply e_bits_ok]. vm_compute in H. discriminate.
Qed.

Lemma C28_rejected_case_l : ep_impossible EPB [] (s2l "16"%string) /\ ep_impossible EPP [] (s2l "256"%string) /\
  ep_impossible EPP [s2l "power"%string] (s2l "powr"%string) /\ ~ ep_impossible EPB [] (s2l "15"%string).
Proof.
  assert (T : forall t n, t <> [] -> Forall is_digit t -> spelled t = n -> S_Human.integer_text t n).
  { intros t n H1 H2 H3. pose proof (S_Human.Integer [] [] 1 t [] (Forall_nil _) (Forall_nil _) ltac:(constructor) H1 H2) as X.
    cbn [app] in X. rewrite app_nil_r, H3, Z.mul_1_l in X. exact X. }
  split; [|split; [|split]].
  - left. exists 16. split; [apply T; [discriminate| |vm_compute; reflexivity]|unfold fits, field_width; cbn; lia].
    repeat constructor; unfold is_digit; vm_compute; lia.
  - left. exists 256. split; [apply T; [discriminate| |vm_compute; reflexivity]|unfold fits, field_width; cbn; lia].
    repeat constructor; unfold is_digit; vm_compute; lia.
  - right. split; [vm_compute; reflexivity|]. intros [H|[]]. discriminate H.
  - intros [(n & Ht & Hf)|(Hi & _)]; [|discriminate Hi].
    apply L_Human.py_int_text in Ht. vm_compute in Ht. injection Ht as <-. apply Hf. unfold fits, field_width. cbn. lia.
Qed.
