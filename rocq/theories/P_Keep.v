(** C72: saving and restoring through a property class, from what the CPUs see to what the CPUs see. *)
From Coq Require Import Ascii String.
From Verif Require Import Base L_Base M_CPUInfo S_CPUInfo L_CPUInfo X_CPUInfo M_Text M_Props S_Props X_Props M_OpTarget X_OpTarget M_Print S_Print X_Print
  S_Keep L_Keep L_Keep2 L_Keep3 L_Keep4 X_Keep.

(** ** What an entry of the file does *)

(** Setting a property for CPUs, dies or packages gives all their CPUs the value; CPUs that share with none of them and other properties
    keep theirs. *)
Theorem C72_set : forall (St V : Type) (cls : pclass St V), wf_ci (pc_ci cls) -> forall sees shares, machine cls sees shares ->
  forall p sn val n s s', by_scope cls p sn -> keys_once n -> set_prop cls p sn val n s = (Ok tt, s') ->
  exists v0 v, val = Some v0 /\ pc_norm cls p v0 = Ok v /\
    (forall c, covers (ci_topo (pc_ci cls)) sn n c -> sees (ps_st s') p c = Some v) /\
    (forall q c, ~ (q = p /\ covers (ci_topo (pc_ci cls)) sn n c) -> sees (ps_st s') q c = sees (ps_st s) q c).
Proof. exact @set_prop_seen. Qed.
Print Assumptions C72_set.

Example C72_set_ex : wf_ci (pc_ci kcls) /\ machine kcls ksees kshares /\ by_scope kcls 2 RPkg /\ keys_once (NList [1]) /\
  match set_prop kcls 2 RPkg (Some 7) (NList [1]) kst1 with
  | (Ok _, s') => map (table s') [2; 3] = [[Some 22; Some 22; Some 22; Some 22; Some 7; Some 7; Some 7; Some 7];
                                           [Some 23; Some 23; Some 23; Some 23; Some 33; Some 33; Some 33; Some 33]]
  | _ => False end.
Proof.
  split; [exact xci_wf|]. split; [exact kcls_machine|]. split; [intros st sc [= <-]; reflexivity|]. split; [exact I|]. vm_compute. reflexivity.
Qed.

(** ** Restoring a file *)

(** Restoring a file that has no contradictions gives every CPU of the file the value the file has for it, as it is normalised, and
    changes nothing else; every property of the file is one of the command. *)
Theorem C72_restore : forall (St V : Type) (cls : pclass St V), wf_ci (pc_ci cls) -> forall sees shares, machine cls sees shares ->
  forall known f s s', proper cls f -> restore (set_prop cls) known f s = (Ok tt, s') ->
  (forall p ys, In (p, ys) f -> In p known) /\
  (forall p v c, file_gives cls f p v c -> exists v0 v1, v = Some v0 /\ pc_norm cls p v0 = Ok v1 /\ sees (ps_st s') p c = Some v1) /\
  (forall p c, (forall v, ~ file_gives cls f p v c) -> sees (ps_st s') p c = sees (ps_st s) p c).
Proof. exact @restore_class. Qed.
Print Assumptions C72_restore.

Definition xfile : @ydict Z := [(0, [{| y_value := Some 5; y_sname := RCPU; y_nums := YText (s2l "0-1") |}])].
Example C72_restore_ex : proper kcls xfile /\
  match restore (set_prop kcls) [0; 2] xfile kst1 with
  | (Ok _, s') => table s' 0 = [Some 5; Some 5; Some 12; Some 13; Some 14; Some 15; Some 16; Some 17]
  | _ => False end.
Proof.
  split; [|vm_compute; reflexivity]. split.
  - intros p v v' c (k & (ys & y & n & [[= <- <-]|[]] & [<- |[]] & Ev & En & Hk) & _) (k' & (ys' & y' & n' & [[= <-]|[]] & [<- |[]] & Ev' & _) & _).
    cbn in *. congruence.
  - intros p ys y n [[= <- <-]|[]] [<- |[]] En. split; [intros st sc _; exact I|]. vm_compute in En. injection En as <-. exact I.
Qed.

(** A file restores if every entry fits the machine and the machine takes the values. *)
Theorem C72_restorable : forall (St V : Type) (cls : pclass St V), wf_ci (pc_ci cls) -> forall sees shares, machine cls sees shares ->
  forall known f s, (forall p ys, In (p, ys) f -> In p known /\ accepts cls p /\ forall y, In y ys -> settable cls p y) ->
  exists s', restore (set_prop cls) known f s = (Ok tt, s').
Proof. exact @restore_succeeds. Qed.
Print Assumptions C72_restorable.

Example C72_restorable_ex : forall p ys, In (p, ys) xfile -> In p [0; 2] /\ accepts kcls p /\ forall y, In y ys -> settable kcls p y.
Proof.
  intros p ys [[= <- <-]|[]]. split; [cbn; auto|]. split; [apply kcls_accepts; split; discriminate|]. intros y [<- |[]].
  exists 5, 5, (NList [0; 1]). split; [reflexivity|]. split; [reflexivity|]. split; [vm_compute; reflexivity|]. split; [intros st sc _; exact I|].
  split; [discriminate|]. split.
  - intros k Hk. destruct k; try (destruct Hk; fail). split; [|eexists; reflexivity]. destruct Hk as [<- |[<- |[]]]; vm_compute; auto.
  - intros st sc x c [= <-] (t & u & _ & _ & _ & _ & <- & <- & E) H. cbn in E. injection E as E. cbn beta in *. now rewrite <- E.
Qed.

(** ** What is saved *)

(** Saving changes nothing; the file has no contradictions and has what the CPUs see; it has every value that was read, for every CPU of
    the CPU, die or package it was read for, and nothing else. *)
Theorem C72_saved : forall (St V : Type) (cls : pclass St V), wf_ci (pc_ci cls) -> forall sees shares, machine cls sees shares ->
  (forall x y, pc_veqb cls x y = true <-> x = y) -> one_value_per_cpu cls -> keyed cls -> (forall k, exists_num (pc_ci cls) k -> nonneg_num k) ->
  forall pnames s f s', NoDup (asked_pnames (pc_props cls) pnames) -> save_props cls pnames s = (Ok f, s') ->
  (forall q c, sees (ps_st (fst s')) q c = sees (ps_st (fst s)) q c) /\ proper cls f /\
  (forall p v c, file_gives cls f p v c -> v <> None /\ sees (ps_st (fst s)) p c = v) /\
  exists names l,
    (forall p, In p names <-> In p (asked_pnames (pc_props cls) pnames) /\
                 exists d, dget Z.eqb (pc_props cls) p = Some d /\ pd_writable d = true) /\
    reading (get_prop_sname cls None) (pc_props cls) true names s l s' /\
    forall p v c, file_gives cls f p v c <->
      exists items k m, In (p, items) l /\ In (k, v, m) items /\ v <> None /\ cpu_of (ci_topo (pc_ci cls)) k c.
Proof. exact @saved_file. Qed.
Print Assumptions C72_saved.

(** ** The round trip *)

(** Whatever happened to the machine in between, restoring what was saved makes every CPU that a value was read for see what it saw
    then, and changes nothing else. *)
Theorem C72_round_trip : forall (St V : Type) (cls : pclass St V), wf_ci (pc_ci cls) -> forall sees shares, machine cls sees shares ->
  (forall x y, pc_veqb cls x y = true <-> x = y) -> one_value_per_cpu cls -> keyed cls -> (forall k, exists_num (pc_ci cls) k -> nonneg_num k) ->
  forall pnames known s f s' r r', NoDup (asked_pnames (pc_props cls) pnames) ->
  save_props cls pnames s = (Ok f, s') -> restore (set_prop cls) known f r = (Ok tt, r') ->
  exists names l,
    (forall p, In p names <-> In p (asked_pnames (pc_props cls) pnames) /\
                 exists d, dget Z.eqb (pc_props cls) p = Some d /\ pd_writable d = true) /\
    reading (get_prop_sname cls None) (pc_props cls) true names s l s' /\
    (forall p items k v m c, In (p, items) l -> In (k, v, m) items -> v <> None -> cpu_of (ci_topo (pc_ci cls)) k c ->
       sees (ps_st (fst s)) p c = v /\ sees (ps_st r') p c = sees (ps_st (fst s)) p c) /\
    (forall p c, (forall items k v m, In (p, items) l -> In (k, v, m) items -> cpu_of (ci_topo (pc_ci cls)) k c -> v = None) ->
       sees (ps_st r') p c = sees (ps_st r) p c).
Proof. exact @round_class. Qed.
Print Assumptions C72_round_trip.

(** Restoring what was just saved changes nothing. *)
Theorem C72_noop : forall (St V : Type) (cls : pclass St V), wf_ci (pc_ci cls) -> forall sees shares, machine cls sees shares ->
  (forall x y, pc_veqb cls x y = true <-> x = y) -> one_value_per_cpu cls -> keyed cls -> (forall k, exists_num (pc_ci cls) k -> nonneg_num k) ->
  forall pnames known s f s' r r', NoDup (asked_pnames (pc_props cls) pnames) ->
  save_props cls pnames s = (Ok f, s') -> (forall p c, sees (ps_st r) p c = sees (ps_st (fst s)) p c) ->
  restore (set_prop cls) known f r = (Ok tt, r') -> forall p c, sees (ps_st r') p c = sees (ps_st (fst s)) p c.
Proof. exact @round_noop. Qed.
Print Assumptions C72_noop.

(** What was saved restores, if the machine takes the values, the CPUs of every unit agree, and values are read per CPU for whole units. *)
Theorem C72_succeeds : forall (St V : Type) (cls : pclass St V), wf_ci (pc_ci cls) -> forall sees shares, machine cls sees shares ->
  (forall x y, pc_veqb cls x y = true <-> x = y) -> one_value_per_cpu cls -> keyed cls -> (forall k, exists_num (pc_ci cls) k -> nonneg_num k) ->
  forall pnames s f s', NoDup (asked_pnames (pc_props cls) pnames) -> save_props cls pnames s = (Ok f, s') ->
  exists names l,
    (forall p, In p names <-> In p (asked_pnames (pc_props cls) pnames) /\
                 exists d, dget Z.eqb (pc_props cls) p = Some d /\ pd_writable d = true) /\
    reading (get_prop_sname cls None) (pc_props cls) true names s l s' /\
    forall known r,
      (forall p, In p names -> In p known /\ accepts cls p) ->
      (forall p items v, In (p, items) l -> whole cls p (fun c => sees (ps_st (fst s)) p c = v) /\
                          whole cls p (fun c => exists v m, In (NumCPU c, v, m) items)) ->
      exists r', restore (set_prop cls) known f r = (Ok tt, r').
Proof. exact @round_succeeds. Qed.
Print Assumptions C72_succeeds.

(** All the properties of a machine are saved, and restored on top of other values; property 6 is read-only. *)
Example C72_round_trip_ex : wf_ci (pc_ci kcls) /\ machine kcls ksees kshares /\ (forall x y, pc_veqb kcls x y = true <-> x = y) /\
  one_value_per_cpu kcls /\ keyed kcls /\ (forall k, exists_num (pc_ci kcls) k -> nonneg_num k) /\
  match save_props kcls None kps1 with
  | (Ok f, _) =>
      match restore (set_prop kcls) [0; 1; 2; 3; 4; 5] f kst2 with
      | (Ok _, r') => map (table r') [0; 1; 2; 3; 4; 5] = map (table kst1) [0; 1; 2; 3; 4; 5] /\ table r' 6 = table kst2 6
      | _ => False
      end
  | _ => False end.
Proof.
  split; [exact xci_wf|]. split; [exact kcls_machine|]. split; [exact kcls_veqb|]. split; [exact kcls_one|]. split; [exact kcls_keyed|].
  split; [exact xci_nonneg|]. vm_compute. auto.
Qed.
Example C72_succeeds_ex : exists f s', save_props kcls (Some [0; 2; 4]) kps1 = (Ok f, s') /\
  (forall p, In p [0; 2; 4] -> accepts kcls p) /\
  forall l s'', reading (get_prop_sname kcls None) (pc_props kcls) true [0; 2; 4] kps1 l s'' ->
    forall p items v, In (p, items) l -> whole kcls p (fun c => ksees (ps_st (fst kps1)) p c = v) /\
                       whole kcls p (fun c => exists v m, In (NumCPU c, v, m) items).
Proof. exact succeeds_ex_l. Qed.

(** ** Scopes *)

(** The scope of a property is found out when it is not known; an unknown property is refused. *)
Theorem C72_scope : forall (St V : Type) (cls : pclass St V) p s r s', get_sname cls p s = (r, s') ->
  scope_answer cls p (ps_st s) r (ps_st s') /\ ps_gets s' = ps_gets s /\ ps_sets s' = ps_sets s.
Proof. exact @get_sname_l. Qed.
Print Assumptions C72_scope.
Example C72_scope_ex : fst (get_sname kcls 4 kst1) = Ok (Some SDie) /\ fst (get_sname kcls 9 kst1) = Exn EError.
Proof. vm_compute. auto. Qed.

(** ** What does not restore *)

(** The CPUs of a package have different values of a property that is set by package: they are saved one by one, and cannot be
    restored. *)
Theorem C72_disagree_refuted : exists (s : pstate (St := ktab) (V := Z)) f s', machine kcls ksees kshares /\ accepts kcls 3 /\
  save_props kcls (Some [3]) s = (Ok f, s') /\ fst (restore (set_prop kcls) [3] f (fst s')) <> Ok tt.
Proof. exact disagree_refuted_l. Qed.
Print Assumptions C72_disagree_refuted.

(** A global property that is saved for some CPUs cannot be restored, although all the CPUs agree. *)
Theorem C72_subset_refuted : exists (s : pstate (St := ktab) (V := Z)) f s', machine kcls ksees kshares /\ accepts kcls 1 /\
  (forall c x, ksees (ps_st (fst s)) 1 c <> None -> ksees (ps_st (fst s)) 1 x <> None -> ksees (ps_st (fst s)) 1 c = ksees (ps_st (fst s)) 1 x) /\
  save_props kcls (Some [1]) s = (Ok f, s') /\ fst (restore (set_prop kcls) [1] f (fst s')) <> Ok tt.
Proof. exact subset_refuted_l. Qed.
Print Assumptions C72_subset_refuted.
