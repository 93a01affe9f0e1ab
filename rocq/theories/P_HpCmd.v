(** Property theorems C63: the 'cpu-hotplug' command. *)
From Coq Require Import Sorting.Sorted.
From Verif Require Import Base L_Base M_Text S_Text L_Text M_CPUInfo S_CPUInfo L_CPUInfo L_Hotplug X_CPUInfo
  M_OpTarget S_OpTarget L_OpTarget3 L_OpTarget5 X_OpTarget M_Online S_Online L_Online X_Online M_HpCmd S_HpCmd L_HpCmd
  X_HpCmd.

(** 'info' always succeeds, changes nothing, and prints exactly the online CPUs and exactly the offline
    CPUs. *)
Theorem C63_info : forall s, host_ok s -> exists lon loff s',
  hp_run HInfo s = (Ok (Some (lon, loff)), s') /\ untouched s s' /\
  tells lon (on_now s) /\ tells loff (fun c => present s c /\ ~ on_now s c).
Proof. exact C63_info_l. Qed.
Print Assumptions C63_info.

Example C63_info_case :
  host_ok x_part /\ fst (hp_run HInfo x_part) = Ok (Some (Some (s2l "0,2-4,7"), Some (s2l "1,5,6"))) /\
  host_ok x_ost /\ fst (hp_run HInfo x_ost) = Ok (Some (Some (s2l "0-7"), None)).
Proof.
  split; [exact x_part_host|]. split; [vm_compute; reflexivity|].
  split; [exact x_ost_host|vm_compute; reflexivity].
Qed.

(** 'online' with a list of numbers and ranges: after a successful run all the named CPUs exist and are
    online, and no other CPU changed its state. *)
Theorem C63_online : forall its ts s r s',
  host_ok s -> Forall2 written its ts -> Forall (fun i => ~ descending i) its ->
  hp_run (HOnline (Some (commas ts))) s = (Ok r, s') ->
  now_are (fun c => In c (flat_map meaning its)) true s s' /\ same_machine s s' /\
  (forall c, In c (flat_map meaning its) -> present s c /\ on_now s' c).
Proof. exact C63_online_l. Qed.
Print Assumptions C63_online.

(** 'online --cpus all': all CPUs that have a control file are online. *)
Theorem C63_online_all : forall s r s',
  host_ok s -> hp_run (HOnline (Some (s2l "all"))) s = (Ok r, s') ->
  now_are (present s) true s s' /\ same_machine s s'.
Proof. exact C63_online_all_l. Qed.
Print Assumptions C63_online_all.

(** 'online' succeeds if the named CPUs exist, have a control file or are online, and the kernel does as
    told. *)
Theorem C63_online_succeeds : forall its ts s,
  host_ok s -> Forall2 written its ts -> Forall (fun i => ~ descending i) its -> flat_map meaning its <> [] ->
  (forall c, In c (flat_map meaning its) -> present s c /\ (o_file s c = true \/ on_now s c) /\ o_beh s c true = KObey) ->
  exists s', hp_run (HOnline (Some (commas ts))) s = (Ok None, s').
Proof. exact C63_online_succeeds_l. Qed.
Print Assumptions C63_online_succeeds.

Theorem C63_online_all_succeeds : forall s,
  host_ok s -> (forall c, present s c -> o_dir s c = true /\ o_beh s c true = KObey) ->
  exists s', hp_run (HOnline (Some (s2l "all"))) s = (Ok None, s').
Proof. exact C63_online_all_succeeds_l. Qed.
Print Assumptions C63_online_all_succeeds.

(** Without '--cpus' the command is rejected... *)
Theorem C63_online_missing : forall s c, c = None \/ c = Some [] -> hp_run (HOnline c) s = (Exn EError, s).
Proof. exact C63_online_missing_l. Qed.
Print Assumptions C63_online_missing.

(** ... and so is a text that is not a number list or names a CPU that does not exist, before anything is
    written. *)
Theorem C63_online_rejected : forall text s, host_ok s ->
  text = [] \/ (text <> s2l "all" /\
    match parse_int_list "," true [NStr text] with Ok l => exists c, In c l /\ ~ present s c | Exn _ => True end) ->
  exists e s', hp_run (HOnline (Some text)) s = (Exn e, s') /\ untouched s s'.
Proof. exact C63_online_rejected_l. Qed.
Print Assumptions C63_online_rejected.

Definition xh_items : list item := [INum 6; IRange 0 2].
Definition xh_texts : list str := [s2l "6"; s2l "0-2"].
Lemma xh_written : Forall2 written xh_items xh_texts.
Proof.
  constructor; [|constructor; [|constructor]].
  - apply (W_num 6 (s2l "6") [] []); [|constructor|constructor].
    split; [discriminate|]. split; [constructor; [cbv; lia|constructor]|]. split; [reflexivity|discriminate].
  - apply (W_range 0 2 (s2l "0") (s2l "2") [] [] [] []); try constructor; try discriminate.
    + split; [constructor; [cbv; lia|constructor]|]. split; [reflexivity|reflexivity].
    + split; [constructor; [cbv; lia|constructor]|]. split; [reflexivity|discriminate].
Qed.

Example C63_online_case :
  host_ok x_part /\ Forall2 written xh_items xh_texts /\ Forall (fun i => ~ descending i) xh_items /\
  commas xh_texts = s2l "6,0-2" /\
  (forall c, In c (flat_map meaning xh_items) -> present x_part c /\ (o_file x_part c = true \/ on_now x_part c) /\
     o_beh x_part c true = KObey) /\
  fst (hp_run (HOnline (Some (s2l "6,0-2"))) x_part) = Ok None /\
  o_online (snd (hp_run (HOnline (Some (s2l "6,0-2"))) x_part)) = [0; 2; 3; 4; 7; 6; 1] /\
  fst (hp_run (HOnline (Some (s2l "all"))) x_part) = Ok None /\
  o_online (snd (hp_run (HOnline (Some (s2l "all"))) x_part)) = [0; 2; 3; 4; 7; 1; 5; 6] /\
  fst (hp_run (HOnline (Some (s2l "1,8"))) x_part) = Exn EError /\
  fst (hp_run (HOnline (Some (s2l "1,x"))) x_part) = Exn EBadFormat.
Proof.
  split; [exact x_part_host|]. split; [exact xh_written|].
  split; [repeat constructor; cbn; lia|]. split; [reflexivity|]. split.
  { intros c Hc. cbn in Hc. destruct Hc as [<-|[<-|[<-|[<-|[]]]]]; cbn; intuition. }
  repeat (split; [vm_compute; reflexivity|]). vm_compute. reflexivity.
Qed.

(** 'offline': after a successful run exactly the targeted CPUs that have a control file are offline and
    no other CPU changed its state; the options were valid and targeted some CPU; and if CPU numbers were
    given, every targeted CPU has a control file, so that all of them are offline. *)
Theorem C63_offline : forall a s r s', off_ok s a -> hp_run (HOffline a) s = (Ok r, s') ->
  now_are (off_target s a) false s s' /\ same_machine s s' /\
  valid_args (seen s) (off_args a) /\ (exists c, off_target s a c) /\
  (numbers_given a -> forall c, off_target s a c -> o_file s c = true).
Proof. exact C63_offline_l. Qed.
Print Assumptions C63_offline.

(** Whatever the outcome, only targeted CPUs with a control file are written to, each at most once, and
    only they can change their state. *)
Theorem C63_offline_writes : forall a s r s', off_ok s a -> hp_run (HOffline a) s = (r, s') ->
  same_machine s s' /\
  exists w, o_log s' = o_log s ++ map (fun c => (c, false)) w /\ NoDup w /\
    (forall c, In c w -> off_target s a c /\ o_file s c = true) /\
    (forall c, ~ In c w -> (on_now s' c <-> on_now s c)).
Proof. exact C63_offline_writes_l. Qed.
Print Assumptions C63_offline_writes.

(** Options that name something that does not exist, or that target no CPU, are rejected before anything
    is written. *)
Theorem C63_offline_rejected : forall a s, off_ok s a ->
  ~ valid_args (seen s) (off_args a) \/ (~ exists c, off_target s a c) ->
  exists e s', hp_run (HOffline a) s = (Exn e, s') /\ untouched s s'.
Proof. exact C63_offline_rejected_l. Qed.
Print Assumptions C63_offline_rejected.

(** If CPU numbers are given, a targeted CPU without a control file is an error. *)
Theorem C63_offline_unsupported : forall a s c,
  off_ok s a -> numbers_given a -> off_target s a c -> o_file s c = false ->
  exists e s', hp_run (HOffline a) s = (Exn e, s').
Proof. exact C63_offline_unsupported_l. Qed.
Print Assumptions C63_offline_unsupported.

(** If they are not, such CPUs are skipped: 'offline' succeeds whenever the options are valid, target some
    CPU, and the kernel does as told. *)
Theorem C63_offline_succeeds : forall a s, off_ok s a -> valid_args (seen s) (off_args a) ->
  (exists c, off_target s a c) ->
  (forall c, off_target s a c ->
     o_beh s c false = KObey /\ (o_file s c = true \/ (~ numbers_given a /\ o_dir s c = true))) ->
  exists s', hp_run (HOffline a) s = (Ok None, s').
Proof. exact C63_offline_succeeds_l. Qed.
Print Assumptions C63_offline_succeeds.

Lemma xo1_target c : off_target x_ost xo1 c <-> In c [4; 5; 6; 7].
Proof.
  assert (E : exists o s, ot_init xci (off_args xo1) = Ok o /\ ot_get_cpus xci o = (Ok [4; 5; 6; 7], s))
    by (do 2 eexists; split; vm_compute; reflexivity).
  destruct E as (o & s & E1 & E2). symmetry.
  exact (proj2 (proj2 (cpus_l xci (off_args xo1) [] o xci_wf xci_io xci_on (xa_siblings _) (proj1 xo_proper)
           (ex_intro _ o (conj E1 eq_refl)) [4; 5; 6; 7] s E2)) c).
Qed.

Example C63_offline_case :
  off_ok x_ost xo1 /\ valid_args (seen x_ost) (off_args xo1) /\ (forall c, off_target x_ost xo1 c <-> In c [4; 5; 6; 7]) /\
  (forall c, off_target x_ost xo1 c -> o_beh x_ost c false = KObey /\ o_file x_ost c = true) /\
  fst (hp_run (HOffline xo1) x_ost) = Ok None /\
  o_online (snd (hp_run (HOffline xo1) x_ost)) = [0; 1; 2; 3] /\
  fst (hp_run (HOffline xo6) x_ost) = Ok None /\
  o_online (snd (hp_run (HOffline xo6) x_ost)) = [0; 1; 2; 3; 4; 5] /\
  numbers_given xo3 /\ fst (hp_run (HOffline xo3) x_ost) = Exn ENotSupported /\
  fst (hp_run (HOffline xo5) x_ost) = Exn EError /\
  fst (hp_run (HOffline (OA (Some None) UNone None UNone None [] [] false)) x_last) = Exn EError /\
  o_log (snd (hp_run (HOffline (OA (Some None) UNone None UNone None [] [] false)) x_ost)) = [(1, false)].
Proof.
  split; [apply x_ost_off; apply xo_proper|]. split.
  { apply (ot_init_iff xci (off_args xo1) xci_wf); [exact (proj1 xo_proper)|]. eexists. vm_compute. reflexivity. }
  split; [exact xo1_target|]. split.
  { intros c Hc. apply xo1_target in Hc. cbn in Hc. destruct Hc as [<-|[<-|[<-|[<-|[]]]]]; split; reflexivity. }
  repeat (split; [vm_compute; reflexivity|]). split; [eexists; reflexivity|].
  repeat (split; [vm_compute; reflexivity|]). vm_compute. reflexivity.
Qed.

(** After any number of runs, successful or not, the machine is in order (so that the theorems above hold
    for the next run as well), and the CPUs without a control file are as they were at first. *)
Theorem C63_history : forall cmds s, host_ok s ->
  host_ok (hp_runs cmds s) /\ same_machine s (hp_runs cmds s) /\
  (forall c, o_file s c = false -> (on_now (hp_runs cmds s) c <-> on_now s c)).
Proof. exact C63_history_l. Qed.
Print Assumptions C63_history.

Example C63_history_case :
  o_online (hp_runs [HOffline xo1; HOnline (Some (s2l "5,7")); HInfo; HOffline xo3; HOffline xo6] x_ost) =
  [0; 1; 2; 3; 5].
Proof. vm_compute. reflexivity. Qed.

(** A CPU that is not given by number can still make the command fail for want of a control file: it is
    enough that some other CPU is. The CPUs before it are offline by then. *)
Theorem C63_indirect_refuted : exists s a s' c,
  off_ok s a /\ off_target s a c /\ (forall l, oa_cpus a = Some (Some l) -> ~ In c l) /\
  o_file s c = false /\ o_dir s c = true /\
  hp_run (HOffline a) s = (Exn ENotSupported, s') /\ exists x, on_now s x /\ ~ on_now s' x.
Proof. exact C63_indirect_refuted_l. Qed.
Print Assumptions C63_indirect_refuted.

(** An empty '--cpus' is taken as all CPUs. *)
Theorem C63_empty_list_refuted : exists s a s' c,
  off_ok s a /\ oa_cpus a = Some (Some []) /\ oa_cores a = UNone /\ oa_modules a = None /\ oa_dies a = UNone /\
  oa_packages a = None /\ snd (hp_run (HOffline a) s) = s' /\ on_now s c /\ ~ on_now s' c.
Proof. exact C63_empty_list_refuted_l. Qed.
Print Assumptions C63_empty_list_refuted.
