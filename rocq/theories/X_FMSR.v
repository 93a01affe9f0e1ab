(** Examples for MSR features: the tables of the code are sound; witnesses of what is not true. *)
From Coq Require Import Ascii String ZifyBool.
From Verif Require Import Base L_Base L_Monad M_CPUInfo S_CPUInfo L_CPUInfo L_CPUInfo2 L_Hotplug X_CPUInfo
  M_Text M_MSR S_MSR L_Bits L_MSR L_MSR2 L_MSR3 L_MSR4 X_MSR M_Osa S_Osa L_Osa M_FMSR S_FMSR L_Text L_FMSR L_FMSR2 L_FMSR3 X_Tpmi.

(** ** A decision procedure for [reg_ok] *)

Definition key (v : fval) : fval := match v with VStr s => VStr (lower s) | _ => v end.
Definition field_okb (b : bits_t) : bool := (0 <=? snd b) && (snd b <=? fst b) && (fst b <=? 63).
Definition fitsb (b : bits_t) (v : Z) : bool := (0 <=? v) && (v <? 2 ^ field_width b).

Definition feature_okb (fe : feature) : bool :=
  field_okb (fe_bits fe) &&
  match fe_vals fe with Some [] => false | _ => true end &&
  forallb (fun vc => fitsb (fe_bits fe) (snd vc)) (vals_of fe) &&
  forallb (fun vc => match fst vc with
                     | VStr _ => ftype_eqb (fe_type fe) FBool || ftype_eqb (fe_type fe) FDict
                     | VInt _ => ftype_eqb (fe_type fe) FInt || ftype_eqb (fe_type fe) FFloat
                     | VBool _ => false end) (vals_of fe) &&
  nodupb fval_eqb (map (fun vc => key (fst vc)) (vals_of fe)) &&
  nodupb Z.eqb (map snd (vals_of fe)) &&
  forallb (fun at_ => existsb (fun vc => fval_eqb (fst vc) (VStr (snd at_))) (vals_of fe)) (aliases_of fe) &&
  forallb (fun at_ => negb (existsb (fun vc => fval_eqb (key (fst vc)) (VStr (lower (fst at_)))) (vals_of fe))) (aliases_of fe) &&
  nodupb str_eqb (map (fun at_ => lower (fst at_)) (aliases_of fe)) &&
  match fe_aliases fe with Some _ => ftype_eqb (fe_type fe) FDict | None => true end.

Definition disjointb (b1 b2 : bits_t) : bool := (fst b1 <? snd b2) || (fst b2 <? snd b1).

Definition reg_okb (feats : list (str * feature)) : bool :=
  nodupb str_eqb (map fst feats) && forallb (fun nf => feature_okb (snd nf)) feats &&
  forallb (fun x => forallb (fun y => str_eqb (fst x) (fst y) || disjointb (fe_bits (snd x)) (fe_bits (snd y))) feats) feats.

Lemma NoDup_map_in {A B} (f : A -> B) l x y : NoDup (map f l) -> In x l -> In y l -> f x = f y -> x = y.
Proof.
  induction l as [|z t IH]; [intros _ []|]. cbn [map]. intros H Hx Hy E. inversion H as [|? ? Hn Hd]; subst.
  destruct Hx as [->|Hx], Hy as [->|Hy]; auto.
  - exfalso. apply Hn. rewrite E. now apply in_map.
  - exfalso. apply Hn. rewrite <- E. now apply in_map.
Qed.

Lemma key_same v w : same_name v w -> key v = key w.
Proof. intros [->|(s & t & -> & -> & H)]; [reflexivity|]. cbn. f_equal. now apply lower_nocase. Qed.

Lemma feature_okb_sound fe : feature_okb fe = true -> feature_ok fe.
Proof.
  unfold feature_okb. rewrite !andb_true_iff.
  intros (((((((((H1 & H2) & H3) & H4) & H5) & H6) & H7) & H8) & H9) & H10).
  rewrite forallb_forall in H3, H4, H7, H8.
  apply (nodupb_sound _ fval_eqb_spec) in H5. apply (nodupb_sound _ Zeqb_spec) in H6.
  apply (nodupb_sound _ str_eqb_spec) in H9.
  split.
  - unfold field_okb, field_ok in *. lia.
  - intros E. rewrite E in H2. discriminate.
  - intros v c Hin. specialize (H3 _ Hin). unfold fitsb in H3. cbn [snd] in H3. unfold fits. lia.
  - intros Ht v c Hin. specialize (H4 _ Hin). cbn [fst] in H4. destruct v; eauto; try discriminate.
    exfalso. destruct (fe_type fe); cbn in H4; destruct Ht; discriminate.
  - intros Ht v c Hin. specialize (H4 _ Hin). cbn [fst] in H4. destruct v; eauto; try discriminate.
    exfalso. destruct (fe_type fe); cbn in H4; destruct Ht; discriminate.
  - intros v w c d Hv Hw Hs.
    assert (E : (v, c) = (w, d)).
    { apply (NoDup_map_in (fun vc => key (fst vc)) (vals_of fe)); auto. cbn. now apply key_same. }
    injection E as -> ->. auto.
  - intros v w c Hv Hw.
    assert (E : (v, c) = (w, c)) by (apply (NoDup_map_in snd (vals_of fe)); auto). congruence.
  - intros al t Hin. specialize (H7 _ Hin). apply existsb_exists in H7. destruct H7 as ([v c] & Hv & E).
    cbn in E. apply fval_eqb_spec in E. subst. eauto.
  - intros al t n c Hin Hn Hc. specialize (H8 _ Hin). rewrite negb_true_iff in H8.
    assert (X : existsb (fun vc => fval_eqb (key (fst vc)) (VStr (lower (fst (al, t))))) (vals_of fe) = true).
    { apply existsb_exists. exists (VStr n, c). split; [exact Hn|]. apply fval_eqb_spec. cbn. f_equal.
      symmetry. now apply lower_nocase. }
    congruence.
  - intros al t al' t' Hin Hin' Hc.
    assert (E : (al, t) = (al', t')).
    { apply (NoDup_map_in (fun at_ => lower (fst at_)) (aliases_of fe)); auto. cbn. now apply lower_nocase. }
    congruence.
  - intros Hn. destruct (fe_aliases fe); [|contradiction]. now apply ftype_eqb_spec.
Qed.

Lemma reg_okb_sound feats : reg_okb feats = true -> reg_ok feats.
Proof.
  unfold reg_okb. rewrite !andb_true_iff. intros ((H1 & H2) & H3). rewrite forallb_forall in H2, H3.
  apply (nodupb_sound _ str_eqb_spec) in H1. split; [exact H1|]. split.
  - intros n fe Hin. apply feature_okb_sound. exact (H2 _ Hin).
  - intros n1 f1 n2 f2 I1 I2 Hne i (A & B). specialize (H3 _ I1). rewrite forallb_forall in H3. specialize (H3 _ I2).
    cbn [fst snd] in H3. apply orb_prop in H3. destruct H3 as [H3|H3].
    + apply str_eqb_spec in H3. contradiction.
    + unfold disjointb, in_field in *. lia.
Qed.

Lemma all_regs_ok_l ios addr feats : In (addr, feats) (all_regs ios) -> reg_ok feats.
Proof.
  assert (H : forallb (fun r => reg_okb (snd r)) (all_regs ios) = true) by (vm_compute; reflexivity).
  rewrite forallb_forall in H. intros Hin. apply reg_okb_sound. exact (H _ Hin).
Qed.

(** ** An example register: the package C-state limit register of SkyLake, at an address that has
    package scope in X_MSR.v *)
Definition x_pcst : list (str * feature) := pcst_reg (Some SPackage) (nth 1 pkg_cst_tables (0, 0, [], [])).
Definition x_fr : freg :=
  match init_reg xci 85 (fun _ => []) [] 416 x_pcst with Ok f => f | Exn _ => FR 0 [] [] end.
Lemma x_fr_init : init_reg xci 85 (fun _ => []) [] 416 x_pcst = Ok x_fr.
Proof. vm_compute. reflexivity. Qed.
Lemma x_pcst_ok : reg_ok x_pcst.
Proof. apply reg_okb_sound. vm_compute. reflexivity. Qed.

Definition x_limit : feature := fdict 2 0 (Some SPackage)
  [("PC0", 0); ("PC2", 1); ("PC6N", 2); ("PC6R", 3); ("unlimited", 7)]%string [("PC6", "PC6R")]%string.
Lemma x_limit_get : dget str_eqb (fr_feats x_fr) (s2l "pkg_cstate_limit") = Some x_limit /\ fr_addr x_fr = 416 /\
  feature_ok x_limit /\ fe_ios x_limit = Some (x_sc 416).
Proof.
  split; [vm_compute; reflexivity|]. split; [reflexivity|]. split; [apply feature_okb_sound; vm_compute; reflexivity|reflexivity].
Qed.

Lemma x_disc : disciplined_for x_env x_sc x_ops 416 (Some [1; 4]).
Proof. destruct x_ops_disciplined as (H & _). split; [exact H|]. left. cbn. intuition discriminate. Qed.

(** ** What is not true *)

(** msr_bits_str() never works. *)
Lemma C44_bits_str_refuted_l : forall ios addr feats fr fname,
  In (addr, feats) (all_regs ios) -> fr_feats fr = feats -> exists e, msr_bits fr fname = Exn e.
Proof.
  intros ios addr feats fr fname Hin Ef. unfold msr_bits, get_feature. rewrite Ef.
  destruct (dget str_eqb feats fname); cbn [rbind]; [|eauto].
  assert (H : forallb (fun r => match dget str_eqb (snd r) (s2l "fname") with None => true | Some _ => false end) (all_regs ios) = true)
    by (vm_compute; reflexivity).
  rewrite forallb_forall in H. specialize (H _ Hin). cbn [snd] in H.
  destruct (dget str_eqb feats (s2l "fname")); [discriminate|eauto].
Qed.

(** The uncore ratio limits can be neither read nor written. *)
Lemma C44_uncore_ratio_refuted_l : forall env fr fname v cpus s,
  me_cache env = true -> fr_feats fr = uncore_ratio_feats -> targets env cpus <> [] ->
  (exists e s', read_feature env fr fname cpus s = (Exn e, s')) /\
  (exists e s', write_feature env fr fname v cpus s = (Exn e, s')).
Proof.
  intros env fr fname v cpus s Hc Ef Ht.
  assert (Hn : forall l, normalize_cpus (me_ci env) cpus false = Ok l -> l <> []).
  { intros l El ->. apply Ht. destruct (targets env cpus) as [|c t] eqn:Et; [reflexivity|].
    exfalso. apply (normalized_targets env cpus [] El c). rewrite Et. now left. }
  assert (Hf : forall fe, get_feature fr fname = Ok fe -> fe_ios fe = None).
  { intros fe. unfold get_feature. rewrite Ef. destruct (dget str_eqb uncore_ratio_feats fname) as [f|] eqn:E; [|discriminate].
    intros [= <-]. apply (dget_In _ str_eqb_spec) in E. cbn in E. destruct E as [[= _ <-]|[[= _ <-]|[]]]; reflexivity. }
  split.
  - unfold read_feature. destruct (validate_feature_supported env fr fname cpus) as [[]|e]; [|cbn; eauto].
    rewrite (lbind_ok _ _ s tt eq_refl). destruct (get_feature fr fname) as [fe|e] eqn:Eg; [|cbn; eauto].
    rewrite (lbind_ok _ _ s fe eq_refl), (Hf fe eq_refl). unfold read_bits_ios. rewrite Hc.
    destruct (normalize_cpus (me_ci env) cpus false) as [l|e] eqn:El; [|cbn; eauto].
    unfold mbind at 1. rewrite (lbind_ok _ _ s l eq_refl). destruct l as [|c t]; [now contradiction (Hn [] eq_refl)|].
    unfold mbind. destruct (hw_read env (fr_addr fr) c s) as [[x|e] s1]; eexists; eexists; reflexivity.
  - unfold write_feature. destruct (validate_feature_supported env fr fname cpus) as [[]|e]; [|cbn; eauto].
    rewrite (lbind_ok _ _ s tt eq_refl). destruct (get_feature fr fname) as [fe|e] eqn:Eg; [|cbn; eauto].
    rewrite (lbind_ok _ _ s fe eq_refl), (Hf fe eq_refl).
    destruct (normalize_feature_value fe v) as [w|e]; [|cbn; eauto]. rewrite (lbind_ok _ _ s w eq_refl).
    destruct (negb (fe_writable fe)); [eexists; eexists; reflexivity|]. cbn [write_bits_ios].
    destruct (normalize_cpus (me_ci env) cpus false) as [l|e] eqn:El; [|cbn; eauto].
    rewrite (lbind_ok (Ok l) _ s l eq_refl). destruct l as [|c t]; [now contradiction (Hn [] eq_refl)|].
    unfold mbind. destruct (hw_read env (fr_addr fr) c s) as [[x|e] s1]; eexists; eexists; reflexivity.
Qed.

(** Two cores in a module: the L2 prefetcher feature is read with the module scope, the others with the
    core scope, and they share the cache entry. *)
Definition zline (c : Z) : tline := TL c c 0 0 0 0.
Definition zsys : system := SYS zline [] [0; 1].
Lemma zsys_ok : sys_ok zsys.
Proof.
  split.
  - cbn. intuition subst; discriminate.
  - cbn [zsys sys_present sys_line]. intros c Hc. cbn zeta.
    repeat (destruct Hc as [<-|Hc]; [vm_compute; repeat split; discriminate|]). destruct Hc.
  - repeat (constructor; [cbn; intuition discriminate|]). constructor.
  - intros c [].
Qed.
Definition zci : cpuinfo := after_hotplug zsys [0; 1] [].
Lemma zci_wf : wf_ci zci.
Proof.
  apply hotplug_wf_l; [exact zsys_ok| |constructor]. split; [|apply incl_refl].
  repeat (constructor; [cbn; intuition discriminate|]). constructor.
Qed.
Definition z_env : menv := ME zci true (fun _ c => c) (fun _ _ v => v).
Definition z_fr : freg :=
  match init_reg zci 150 (fun _ => []) [] 420 (misc_feats false (Some SModule)) with Ok f => f | Exn _ => FR 0 [] [] end.

Lemma C44_mixed_scope_refuted_l : exists env fr hw s1,
  wf_ci (me_ci env) /\ faithful env /\ scope_right env 420 SCore /\
  init_reg (me_ci env) 150 (fun _ => []) [] 420 (misc_feats false (Some SModule)) = Ok fr /\
  is_field (2, 2) (hw 420 (me_dom env 420 1)) 1 /\
  named_as (fbool 2 0 (Some SCore) true) 1 (VStr (s2l "off")) /\
  read_feature env fr (s2l "l2_hw_prefetcher") (Some [0]) (msr_init hw []) = (Ok [(0, VStr (s2l "on"))], s1) /\
  fst (read_feature env fr (s2l "dcu_hw_prefetcher") (Some [1]) s1) = Ok [(1, VStr (s2l "on"))].
Proof.
  exists z_env, z_fr, (fun _ d => if d =? 1 then 4 else 0).
  eexists (snd (read_feature z_env z_fr (s2l "l2_hw_prefetcher") (Some [0]) (msr_init (fun _ d => if d =? 1 then 4 else 0) []))).
  split; [exact zci_wf|]. split; [intros a old v; reflexivity|]. split.
  { apply scope_right_dec; [exact zci_wf|discriminate|discriminate|vm_compute; reflexivity]. }
  split; [vm_compute; reflexivity|]. split.
  { apply get_bits_is_field; [unfold field_ok; cbn; lia|]. vm_compute. reflexivity. }
  split; [cbn; auto|]. split.
  { match goal with |- ?m = _ => rewrite (surjective_pairing m) end. apply pair_equal_spec. split; [vm_compute; reflexivity|reflexivity]. }
  vm_compute. reflexivity.
Qed.

(** The hardware may hold a bus clock code without a name, which cannot be read. *)
Lemma C44_unnamed_refuted_l : exists t code,
  In t fsb_tables /\ fits (fst t) code /\ forall ios x, ~ named_as (ffsb (fst (fst t)) (snd (fst t)) ios (snd t)) code x.
Proof.
  exists (nth 0 fsb_tables (0, 0, [])), 7. split; [now left|]. split; [vm_compute; split; congruence|].
  intros ios x. cbn. intros H. repeat (destruct H as [H|H]; [discriminate|]). exact H.
Qed.
