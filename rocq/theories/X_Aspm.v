(** Examples and counterexamples about PCI ASPM. *)
From Verif Require Import Base L_Base M_Text S_Text L_Text M_Kver M_Osa S_Osa L_Osa M_Aspm S_Aspm L_Aspm L_Aspm2.

(** The kernel: drivers/pci/pcie/aspm.c, pcie_aspm_set_policy() and pcie_aspm_get_policy(). *)
Fixpoint mark (n : str) (l : list str) : list str :=
  match l with
  | [] => []
  | x :: t => if str_eqb x n then inside n :: t else x :: mark n t
  end.
Definition nl : str := ["010"%char].
Definition k_policy (t n : str) : option str :=
  let ps := map unbracket (split_csv_line " " false false (strip t)) in
  if existsb (str_eqb n) ps then Some (join " " (mark n ps) ++ s2l " " ++ nl) else None.
(** A device file that keeps what is written to it. *)
Definition x_env : aenv :=
  AENV (fun _ => false) (fun p old v => if str_eqb p policy_path then k_policy old v else Some (v ++ nl)) (fun _ => true) (Ok (s2l "6.8.0-45-generic")).
(** The state stays "0": the current policy is "performance". *)
Definition x_stuck : aenv :=
  AENV (fun _ => false) (fun p old v => if str_eqb p policy_path then k_policy old v else Some old) (fun _ => true) (Ok (s2l "6.8.0")).

Definition x_addr : str := s2l "0000:00:02.0".
Definition x_names : list str := map s2l ["default"; "performance"; "powersave"; "powersupersave"]%string.
Definition x_text : str := s2l "default [performance] powersave powersupersave " ++ nl.
Definition x_fs : str -> option str := fun p =>
  if str_eqb p policy_path then Some x_text else if str_eqb p (l1_path x_addr) then Some (s2l "0" ++ nl) else None.

Definition plainb (n : str) : bool := nonemptyb n && forallb (fun c => negb (is_space c) && negb (Ascii.eqb c "[") && negb (Ascii.eqb c "]")) n.
Lemma plainb_ok n : plainb n = true -> plain n.
Proof.
  unfold plainb. intros H. apply andb_true_iff in H as (H1 & H2). rewrite forallb_forall in H2. split; [now destruct n|].
  intros c Hc. apply H2 in Hc. apply andb_true_iff in Hc as (Hc & C3). apply andb_true_iff in Hc as (C1 & C2).
  apply negb_true_iff in C1, C2, C3. apply Ascii.eqb_neq in C2, C3. auto.
Qed.

Lemma blank_dec t : forallb is_space t = true -> blank t.
Proof. intros H. unfold blank. rewrite forallb_forall in H. exact H. Qed.

Lemma x_names_plain : Forall plain x_names.
Proof. unfold x_names. cbn [map]. repeat (constructor; [now apply plainb_ok|]). constructor. Qed.

Lemma x_menu : menu x_names (s2l "performance") x_text.
Proof.
  split; [exact x_names_plain|]. exists [s2l "default"], (map s2l ["powersave"; "powersupersave"]%string), [], (s2l " " ++ nl).
  split; [reflexivity|]. split; [now apply blank_dec|]. split; [now apply blank_dec|]. reflexivity.
Qed.

Lemma mark_spec n l : In n l -> exists pre post, l = pre ++ n :: post /\ mark n l = pre ++ inside n :: post.
Proof.
  induction l as [|x l IH]; [intros []|]. intros H. cbn [mark]. destruct (str_eqb x n) eqn:E.
  - apply str_eqb_iff in E. subst x. exists [], l. auto.
  - destruct H as [->|H]; [now rewrite str_eqb_same in E|]. destruct (IH H) as (pre & post & -> & ->). exists (x :: pre), post. auto.
Qed.

Lemma k_policy_obeys names cur t n : menu names cur t -> In n names -> exists t', k_policy t n = Some t' /\ menu names n t'.
Proof.
  intros Hm Hi. unfold k_policy. rewrite (proj1 (menu_read _ _ _ Hm)). rewrite (proj2 (existsb_str _ _) Hi).
  eexists. split; [reflexivity|]. split; [exact (proj1 Hm)|]. destruct (mark_spec _ _ Hi) as (pre & post & E1 & E2).
  exists pre, post, [], (s2l " " ++ nl). split; [exact E1|]. split; [intros c []|]. split; [now apply blank_dec|].
  rewrite E2. reflexivity.
Qed.

Lemma x_obeys : obeys x_env.
Proof.
  split; [reflexivity|]. intros names cur t n Hm Hi. cbn [ae_write x_env].
  rewrite str_eqb_same. exact (k_policy_obeys names cur t n Hm Hi).
Qed.

Notation s0 := (a_init x_fs).

Lemma C62_info_case_l :
  a_fs s0 policy_path = Some x_text /\ menu x_names (s2l "performance") x_text /\
  a_fs s0 (l1_path x_addr) = Some (s2l "0" ++ nl) /\ flag false (s2l "0" ++ nl) /\
  a_out (snd (info x_env true true true (Some x_addr) s0)) = [ML1 false x_addr; MPolicy (s2l "performance"); MPolicies x_names].
Proof.
  split; [vm_compute; reflexivity|]. split; [exact x_menu|]. split; [vm_compute; reflexivity|].
  split; [exists nl; split; [now right|reflexivity]|]. vm_compute. reflexivity.
Qed.

Lemma C62_both_case_l : let c := config x_env (Some (Some (s2l "powersave"))) (Some (Some (s2l "ON"))) (Some x_addr) s0 in
  fst c = Ok tt /\ a_fs (snd c) policy_path = Some (s2l "default performance [powersave] powersupersave " ++ nl) /\
  a_fs (snd c) (l1_path x_addr) = Some (s2l "1" ++ nl) /\
  a_out (snd c) = [MChanged (s2l "performance") (s2l "powersave"); MToggled (s2l "on") x_addr].
Proof. vm_compute. repeat split; reflexivity. Qed.

Lemma x_means_on : means_state true (s2l "ON").
Proof. apply state_words. vm_compute. reflexivity. Qed.

(** ** What is not true *)

Lemma C62_half_refuted_l : exists env s policy st addr s', obeys env /\ st <> [] /\ ~ means_state true st /\ ~ means_state false st /\
  config env (Some (Some policy)) (Some (Some st)) (Some addr) s = (Exn EError, s') /\ a_fs s' policy_path <> a_fs s policy_path.
Proof.
  set (c := config x_env (Some (Some (s2l "powersave"))) (Some (Some (s2l "yes"))) (Some x_addr) s0).
  exists x_env, s0, (s2l "powersave"), (s2l "yes"), x_addr, (snd c). split; [exact x_obeys|]. split; [discriminate|].
  split; [intros H; apply state_words in H; vm_compute in H; discriminate|].
  split; [intros H; apply state_words in H; vm_compute in H; discriminate|].
  assert (E : fst c = Exn EError) by (vm_compute; reflexivity).
  split; [rewrite <- E; unfold c; now destruct (config _ _ _ _ _)|]. vm_compute. discriminate.
Qed.

Lemma C62_l1_unverified_refuted_l : exists env s st addr s' t, means_state true st /\ addr <> [] /\
  config env None (Some (Some st)) (Some addr) s = (Ok tt, s') /\ a_out s' = [MToggled (s2l "on") addr] /\
  a_fs s' (l1_path addr) = Some t /\ flag false t.
Proof.
  set (c := config x_stuck None (Some (Some (s2l "ON"))) (Some x_addr) s0).
  exists x_stuck, s0, (s2l "ON"), x_addr, (snd c), (s2l "0" ++ nl). split; [exact x_means_on|]. split; [discriminate|].
  assert (E : fst c = Ok tt) by (vm_compute; reflexivity).
  split; [rewrite <- E; unfold c; now destruct (config _ _ _ _ _)|].
  split; [vm_compute; reflexivity|]. split; [vm_compute; reflexivity|]. exists nl. split; [now right|reflexivity].
Qed.
