(** Example classes and refutation witnesses for C18-C21, C47. *)
From Verif Require Import Base L_Base M_CPUInfo S_CPUInfo L_CPUInfo L_CPUInfo2 L_Hotplug X_CPUInfo
  M_Props S_Props L_Props L_Props2 L_Props3.

(** A class over a table of per-CPU values. Property 0 has CPU scope, 1 global scope and I/O scope, 2 package
    scope and core I/O scope, 3 is read-only, 4 has die scope and package I/O scope, 5 has a scope
    that cannot be determined, 6 writable but lists the read-only mechanism 3. Mechanism 2 works, 3
    works and is read-only, the others are not supported. *)
Definition xsname (pname : Z) : option scope :=
  if pname =? 0 then Some SCPU else if pname =? 1 then Some SGlobal else if pname =? 2 then Some SPackage
  else if pname =? 4 then Some SDie else Some SCPU.
Definition xiosname (pname : Z) : option scope :=
  if pname =? 0 then Some SCPU else if pname =? 1 then Some SGlobal else if pname =? 2 then Some SCore
  else if pname =? 4 then Some SPackage else Some SCPU.
Definition xget (pname : Z) (cpus : list Z) (m : Z) (st : list (Z * Z)) : gen (Z * option Z) :=
  if (m =? 2) || (m =? 3) then (map (fun c => (c, dget Z.eqb st c)) cpus, None) else ([], Some ENotSupported).
Definition xset (pname v : Z) (cpus : list Z) (m : Z) : M (list (Z * Z)) unit :=
  if (m =? 2) || (m =? 3) then modify (fold_left (fun st c => dset Z.eqb st c v) cpus) else throw ENotSupported.
Definition xcls : pclass (list (Z * Z)) Z :=
  PC [(0, PD [0; 2] true); (1, PD [2] true); (2, PD [0; 2] true); (3, PD [2] false); (4, PD [2] true);
      (5, PD [2] true); (6, PD [3] true); (7, PD [0; 1] true)]
     mechanisms xci Z.eqb (fun _ => xsname) (fun _ => xiosname)
     (fun p => if p =? 5 then throw ENotSupported else ret tt) xget xset (fun _ v => Ok v).
Definition xst : pst (list (Z * Z)) Z := PS [(0, 10); (1, 11); (2, 12); (3, 13); (4, 14); (5, 14); (6, 14); (7, 14)] [] [].

Lemma xcls_one : one_value_per_cpu xcls.
Proof.
  intros st pname cpus m vals. unfold gives. cbn [pc_get xcls]. unfold xget.
  destruct (_ || _); [|discriminate]. intros [= <-]. rewrite map_map. cbn. apply map_id.
Qed.
Lemma xcls_keyed : keyed xcls.
Proof.
  intros pname cpu m st vals e. cbn [pc_get xcls]. unfold xget.
  destruct (_ || _); intros [= <- <-]; cbn; auto.
Qed.
Lemma xcls_veq : veq_equiv xcls.
Proof.
  unfold veq_equiv. cbn [pc_veqb xcls]. split; [|split]; intros *; rewrite ?Z.eqb_refl, ?Z.eqb_eq; congruence.
Qed.
Lemma xcls_clean : refusal_is_clean xcls.
Proof.
  intros pname v cpus m st st1. unfold refuses. cbn [pc_set xcls]. unfold xset, modify, throw.
  destruct (_ || _); intros [H|H]; congruence.
Qed.

(** The documented default "all" of get_prop_dies() always fails. *)
Lemma C18_dies_all_refuted_l : forall (St V : Type) (cls : pclass St V) pname mnames s,
  exists e, get_prop_dies cls pname None mnames s = (Exn e, s).
Proof.
  intros. unfold get_prop_dies, mbind, lift. destruct (validate_pname cls pname); [|eauto].
  destruct (normalize_mnames _ _ _ _); [|eauto]. unfold throw. eauto.
Qed.

(** Per-die dictionaries of a property without known scope are labelled with a package number. *)
Lemma C18_dies_label_refuted_l : exists out s',
  get_prop_dies xcls 5 (Some [(1, Some [0])]) None xst = (Ok out, s') /\
  exists pv, In pv out /\ pv_pname pv <> 5.
Proof.
  eexists _, _. split; [vm_compute; reflexivity|]. eexists. split; [now left|]. discriminate.
Qed.

(** Setting a property of global scope for package 1 only writes nothing and succeeds. *)
Lemma C20_global_refuted_l : exists m s',
  set_prop_packages xcls 1 (Some 99) (Some [1]) None xst = (Ok m, s') /\
  ps_st s' = ps_st xst /\ cpu_in_pkg (ci_topo xci) 1 4 /\ dget Z.eqb (ps_st s') 4 = Some 14.
Proof.
  eexists _, _. split; [vm_compute; reflexivity|]. split; [reflexivity|]. split; [|reflexivity].
  exists (xline 4). split; [vm_compute; tauto|]. vm_compute. repeat split; discriminate.
Qed.

(** The same for die 1 of package 0 of a property with die scope and package I/O scope. *)
Lemma C20_die_refuted_l : exists m s',
  set_prop_dies xcls 4 (Some 99) (Some [(0, Some [1])]) None xst = (Ok m, s') /\
  ps_st s' = ps_st xst /\ cpu_in_die (ci_topo xci) (0, 1) 1.
Proof.
  eexists _, _. split; [vm_compute; reflexivity|]. split; [reflexivity|].
  exists (xline 1). split; [vm_compute; tauto|]. vm_compute. repeat split; discriminate.
Qed.

(** With the default mechanisms, read-only ones are not rejected. *)
Lemma C19_default_readonly_refuted_l : exists m s',
  set_prop_cpus xcls 6 (Some 99) (Some [4]) None xst = (Ok m, s') /\
  dget Z.eqb (pc_mechs xcls) m = Some false.
Proof. eexists _, _. split; vm_compute; reflexivity. Qed.

Definition table_writable (t : list pdesc) : bool :=
  forallb (fun p => negb (pd_writable p) ||
                    forallb (fun m => match dget Z.eqb mechanisms m with Some b => b | None => false end) (pd_mnames p)) t.

Lemma C19_tables_l : forall p, In p (pstates_props ++ cstates_props ++ power_props ++ pmqos_props) ->
  pd_writable p = true -> forall m, In m (pd_mnames p) -> dget Z.eqb mechanisms m = Some true.
Proof.
  intros p Hp Hw m Hm.
  assert (E : table_writable (pstates_props ++ cstates_props ++ power_props ++ pmqos_props) = true) by reflexivity.
  unfold table_writable in E. rewrite forallb_forall in E. specialize (E p Hp). rewrite Hw in E. cbn [negb orb] in E.
  rewrite forallb_forall in E. specialize (E m Hm). cbn beta in E. destruct (dget Z.eqb mechanisms m) as [[]|]; congruence.
Qed.

(** With such a table a successful set never goes through a read-only mechanism. *)
Lemma C19_writable_only_l {St V} (cls : pclass St V) pname val cpus mnames s m s' :
  wf_ci (pc_ci cls) ->
  (forall p, dget Z.eqb (pc_props cls) pname = Some p -> pd_writable p = true ->
     forall m, In m (pd_mnames p) -> dget Z.eqb (pc_mechs cls) m = Some true) ->
  set_prop_cpus cls pname val cpus mnames s = (Ok m, s') ->
  dget Z.eqb (pc_mechs cls) m = Some true.
Proof.
  intros Hwf Ht H.
  assert (Hbad : ~ bad_write_args cls pname val mnames).
  { intros Hb. destruct (set_rejects_l cls pname val mnames s Hb) as (Hc & _). destruct (Hc cpus) as (e & He). congruence. }
  destruct (set_prop_cpus_l cls pname val cpus mnames s m s' Hwf H)
    as (v0 & v & p & l & st1 & ms & pre & st2 & _ & _ & Hp & Hw & _ & _ & _ & Hal & (post & Hms) & _).
  destruct Hal as (p' & Hp' & Hal). rewrite Hp in Hp'. injection Hp' as <-.
  assert (Hin : In m ms) by (rewrite Hms; apply in_app_iff; right; now left).
  destruct mnames as [[|x t]|].
  - subst ms. eauto.
  - destruct Hal as (Hal & _). apply Hal in Hin. destruct (dget Z.eqb (pc_mechs cls) m) as [[]|] eqn:E; [reflexivity| |];
      exfalso; apply Hbad; do 4 right; exists p, (x :: t), m; repeat split; auto; right; congruence.
  - subst ms. eauto.
Qed.

Lemma C19_outcome_ex_l : ~ bad_write_args xcls 0 (Some 99) None /\ req_cpus xcls (Some [5; 1]) [5; 1] /\
  scope_known xcls 0 (ps_st xst) (ps_st xst) /\ pc_sname xcls (ps_st xst) 0 = Some SCPU /\
  whole_units xcls SCPU [5; 1].
Proof.
  split; [|split; [|split; [reflexivity|split; [reflexivity|]]]].
  - intros [H|[(p & H & W)|[H|[(v & e & _ & H)|(p & l & m & _ & H & _)]]]]; try discriminate.
    injection H as <-. discriminate.
  - split; [|split].
    + constructor; [cbn; intuition discriminate|]. constructor; [intros []|constructor].
    + intros c [<-|[<-|[]]]; vm_compute; tauto.
    + intros c. reflexivity.
  - intros c x Hc (t & u & _ & _ & _ & _ & <- & <- & Hs). cbn [unit_id] in Hs. injection Hs as Hs. now rewrite <- Hs.
Qed.
