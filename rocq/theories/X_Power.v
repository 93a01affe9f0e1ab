(** An example for C29: two packages, unit 1/8 W, TDP 100 W, limits 100 W and 120 W; nothing about it is special. *)
From Coq Require Import Ascii String QArith Lia.
From Verif Require Import Base L_Base M_CPUInfo S_CPUInfo L_CPUInfo X_CPUInfo M_Text M_MSR S_MSR L_MSR L_MSR3 X_MSR M_FMSR S_FMSR
  L_FMSR L_FMSR2 L_FMSR3 X_FMSR M_Power S_Power L_Power L_Power2 L_Power3.

Definition xp_dom (a c : Z) : Z := if (a =? 1552) || (a =? 1556) then c / 4 else c.
Definition xp_sc (a : Z) : scope := if (a =? 1552) || (a =? 1556) then SPackage else SCPU.
Definition xp_env : menv := ME xci true xp_dom (fun _ _ v => v).
Definition xp_hw (a d : Z) : Z :=
  if a =? 1552 then 960 * 2 ^ 32 + 800 + 5 * 2 ^ 17 else if a =? 1556 then 800 else if a =? 1542 then 3 else a * 1000 + d.

Lemma xp_scope_right a : scope_right xp_env a (xp_sc a).
Proof.
  unfold xp_sc. destruct (Z.eqb_spec a 1552) as [->|H1]; [|destruct (Z.eqb_spec a 1556) as [->|H2]]; cbn [orb].
  - apply scope_right_dec; [exact xci_wf|discriminate|discriminate|vm_compute; reflexivity].
  - apply scope_right_dec; [exact xci_wf|discriminate|discriminate|vm_compute; reflexivity].
  - apply scope_right_dec; [exact xci_wf|discriminate|discriminate|].
    cbn [me_dom xp_env]. unfold xp_dom.
    rewrite (proj2 (Z.eqb_neq a 1552) H1), (proj2 (Z.eqb_neq a 1556) H2). vm_compute. reflexivity.
Qed.

Lemma xp_faithful : faithful xp_env.
Proof. intros a old v. reflexivity. Qed.

Definition all_of (feats : list (str * feature)) : list (str * list (Z * bool)) :=
  map (fun nf => (fst nf, map (fun c => (c, true)) (ci_online xci))) feats.
Definition xp_tdp : list (str * feature) := named [("tdp"%string, ffloat 14 0 (Some SPackage) false)].
Definition xp_u : freg := FR 1542 (rapl_unit_feats (Some SCPU)) (all_of (rapl_unit_feats (Some SCPU))).
Definition xp_l : freg := FR 1552 ppl_feats (all_of ppl_feats).
Definition xp_i : freg := FR 1556 xp_tdp (all_of xp_tdp).

Lemma xp_regs : power_regs xp_u xp_l xp_i.
Proof. repeat split. exists (Some SCPU). reflexivity. Qed.
Lemma xp_scopes : power_scopes xp_sc.
Proof. repeat split. Qed.

Lemma xp_supported : power_supported xp_env xp_u xp_l xp_i.
Proof.
  assert (X : forall fr f, match dget str_eqb (fr_supp fr) f with
    | Some d => forallb (fun c => match dget Z.eqb d c with Some b => b | None => false end) (ci_online xci)
    | None => false end = true -> supported_online xp_env fr f).
  { intros fr f H. unfold supported_online. destruct (dget str_eqb (fr_supp fr) f) as [d|]; [|discriminate].
    exists d. split; [reflexivity|]. rewrite forallb_forall in H. intros c Hc. specialize (H c Hc).
    now destruct (dget Z.eqb d c) as [[]|]. }
  split; [|split]; [apply X; vm_compute; reflexivity|apply X; vm_compute; reflexivity|].
  intros [|]; apply X; vm_compute; reflexivity.
Qed.

(** Within a transaction: raise the second limit, switch the first one on, a call about another register,
    an attempt to set the first limit above the second. *)
Definition xp_rep (a d : Z) : Z := if (a =? 1552) || (a =? 1556) then d * 4 else d.
Definition xp_ops : list pop :=
  [PMsr OStart; PSet true 150 (Some [0; 1; 4]); PSwitch false Enable (VStr (s2l "on")) None;
   PMsr (OWriteBits 16 (7, 4) (Some 9) (Some [3; 5]) SCPU false); PSet false 180 None; PTdp None].
Definition xp_last : pop := PSet false (1005 # 8) (Some [4; 5]).

Lemma xp_disc : pdisciplined xp_env xp_sc (xp_ops ++ [xp_last]).
Proof.
  split.
  - intros o Ho. cbn in Ho.
    assert (C : o = OStart \/ o = OWriteBits 16 (7, 4) (Some 9) (Some [3; 5]) SCPU false).
    { destruct Ho as [Ho|[Ho|[Ho|[Ho|[Ho|[Ho|[Ho|[]]]]]]]]; try discriminate Ho; injection Ho as <-; auto. }
    destruct C as [-> | ->]; split; cbn; auto.
    + repeat split; vm_compute; discriminate.
    + intros d. split; intros (X & _); discriminate X.
  - right. exists xp_rep. intros o Ho. cbn in Ho.
    destruct Ho as [<-|[<-|[<-|[<-|[<-|[<-|[<-|[]]]]]]]]; cbn [pop_rep xp_last op_rep];
      first [exact I|apply first_is_dec; vm_compute; reflexivity].
Qed.

Definition xp_state : pwstate := prun xp_env xp_u xp_l xp_i xp_ops (power_init xp_hw []).
Definition xp_next : res unit * pwstate := set_ppl xp_env xp_u xp_l xp_i false (1005 # 8) (Some [4; 5]) xp_state.

(** The first limit of package 1 becomes 1005 eighths of a Watt, the raised second one is still there. *)
Lemma C29_ex_run_l : fst xp_next = Ok tt /\
  view xp_env (pw_ms (snd xp_next)) 1552 1 = 1200 * 2 ^ 32 + 1005 + 2 ^ 15 + 5 * 2 ^ 17 /\
  view xp_env (pw_ms (snd xp_next)) 1552 0 = 1200 * 2 ^ 32 + 800 + 2 ^ 15 + 5 * 2 ^ 17.
Proof. split; [vm_compute; reflexivity|]. split; vm_compute; reflexivity. Qed.

Lemma xp_init_ordered : ordered xp_env (pw_ms (power_init xp_hw [])).
Proof.
  apply (ordered_iff xp_env). intros c Hc. cbn in Hc.
  destruct Hc as [<-|[<-|[<-|[<-|[<-|[<-|[<-|[<-|[]]]]]]]]]; vm_compute; discriminate.
Qed.

(** 180 W exceed the second limit, 4096 W do not fit. *)
Lemma xp_unit : unit_watts xp_env (pw_ms xp_state) (1 # 8).
Proof.
  exists 0, 3. split; [cbn; auto|]. split.
  - intros x Hx. cbn in Hx. lia.
  - split; [|vm_compute; reflexivity].
    assert (E : 3 = field_val (3, 0) (view xp_env (pw_ms xp_state) a_unit (me_dom xp_env a_unit 0))) by (vm_compute; reflexivity).
    rewrite E. apply field_val_spec, unit_field_ok.
Qed.

Lemma xp_not_acceptable : exists c, In c (targets xp_env (Some [4; 5])) /\
  ~ acceptable xp_env (pw_ms xp_state) false 180 c.
Proof.
  exists 4. split; [now left|]. intros A. apply (accepted_iff xp_env) in A; [|cbn; tauto].
  destruct A as (u & (c & t & Ec & ->) & E). injection Ec as <- _. vm_compute in E. discriminate.
Qed.

Lemma xp_acceptable c : In c (targets xp_env (Some [4; 5])) ->
  In c (ci_online xci) /\ acceptable xp_env (pw_ms xp_state) false (1005 # 8) c.
Proof.
  intros Hc. assert (Ho : In c (ci_online xci)) by (cbn in *; intuition).
  split; [exact Ho|]. apply (accepted_iff xp_env); [exact Ho|].
  exists 3. split.
  - exists 0, (tl (get_cpus xci)). split; vm_compute; reflexivity.
  - destruct Hc as [<-|[<-|[]]]; vm_compute; reflexivity.
Qed.

Lemma C29_ex_acceptable_l : (exists c, In c (targets xp_env (Some [4; 5])) /\
    ~ acceptable xp_env (pw_ms xp_state) false 180 c) /\
  (forall c, In c (targets xp_env (Some [4; 5])) ->
    In c (ci_online xci) /\ acceptable xp_env (pw_ms xp_state) false (1005 # 8) c) /\
  too_large xp_env (pw_ms xp_state) false 4096 /\ ~ too_large xp_env (pw_ms xp_state) false (1005 # 8) /\
  io_works (pw_ms xp_state) /\ power_supported xp_env xp_u xp_l xp_i.
Proof.
  split; [exact xp_not_acceptable|]. split; [exact xp_acceptable|]. split; [|split; [|split; [|exact xp_supported]]].
  - exists (1 # 8)%Q. split; [exact xp_unit|]. vm_compute. discriminate.
  - intros (q & Uq & H). apply (unit_uval xp_env) in Uq as (u & (c & t & Ec & ->) & Eq). injection Ec as <- _.
    rewrite Eq in H. vm_compute in H. now apply H.
  - intros b Hb. vm_compute in Hb. destruct Hb.
Qed.
