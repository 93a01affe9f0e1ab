(** C67: loading a file with settings. *)
From Coq Require Import Ascii String Relations.
From Verif Require Import Base M_Text M_Yaml S_Yaml L_Yaml4 L_Yaml5 L_Yaml6 X_Yaml.

(** What is loaded is what the file says, with the included files in the place of the includes; a later value of a key
    replaces an earlier one; the files that were read are the file and the included ones, in this order.
    Missing: documents with an 'include' inside a value, and with a key twice. *)
Theorem C67_load_partial : forall fs n p d s, (forall p v, fs p = FDoc v -> proper_doc v) -> yload fs n p = (inr d, s) ->
  exists bs ns, expands fs n p bs ns /\ dict_of bs d /\ rev (y_opened s) = p :: ns.
Proof. exact C67_load_l. Qed.
Print Assumptions C67_load_partial.

(** A load succeeds if all the files are there and none is included twice. *)
Theorem C67_succeeds : forall fs n k p bs ns, (forall p v, fs p = FDoc v -> proper_doc v) ->
  expands fs k p bs ns -> NoDup ns -> (k <= n)%nat ->
  exists d s, yload fs n p = (inr d, s) /\ dict_of bs d /\ rev (y_opened s) = p :: ns.
Proof. exact C67_succeeds_l. Qed.
Print Assumptions C67_succeeds.

(** A file that is included twice is refused. *)
Theorem C67_repeated_refused : forall fs n k p bs ns, (forall p v, fs p = FDoc v -> proper_doc v) ->
  expands fs k p bs ns -> ~ NoDup ns -> (k <= n)%nat -> fst (yload fs n p) = inl YError.
Proof. exact C67_repeated_refused_l. Qed.
Print Assumptions C67_repeated_refused.

(** No file is opened twice under the same name, apart from the first one, whether the load succeeds or not. *)
Theorem C67_once : forall fs n p r s, yload fs n p = (r, s) ->
  exists m, (y_opened s = [] \/ y_opened s = m ++ [p]) /\ NoDup m.
Proof. exact C67_once_l. Qed.
Print Assumptions C67_once.

(** Files that include each other in a circle are never loaded. *)
Theorem C67_no_circle : forall fs n p d s q, (forall p v, fs p = FDoc v -> proper_doc v) ->
  yload fs n p = (inr d, s) -> clos_refl_trans _ (includes fs) p q -> ~ clos_trans _ (includes fs) q q.
Proof. exact C67_no_circle_l. Qed.
Print Assumptions C67_no_circle.

(** A load ends: if only the names in a list lead to files, the calls are not nested deeper than that list is long. *)
Theorem C67_terminates : forall fs L, (forall p, ~ In p L -> fs p = FNone) ->
  forall n p, (length L + 2 <= n)%nat -> fst (yload fs n p) <> inl YDeep.
Proof. exact C67_terminates_l. Qed.
Print Assumptions C67_terminates.

(** A reserved key anywhere in a file, a file that is not there and one that is not YAML are errors. *)
Theorem C67_reserved : forall fs n p v, fs p = FDoc v -> deep_reserved v -> fst (yload fs (S n) p) = inl YError.
Proof. exact C67_reserved_l. Qed.
Print Assumptions C67_reserved.

Theorem C67_missing : forall fs n p, fs p = FNone \/ fs p = FBad -> fst (yload fs (S n) p) = inl YError.
Proof. exact C67_missing_l. Qed.
Print Assumptions C67_missing.

(** The checks before a restore accept what can be restored, and nothing else. *)
Theorem C67_checked : forall known d, validate known d = true <-> restorable known d.
Proof. exact C67_valid_l. Qed.
Print Assumptions C67_checked.

(** A restore carries out every element of the input, in order. *)
Theorem C67_restore : forall fs known n infile stdin l, (forall p v, fs p = FDoc v -> proper_doc v) ->
  (forall v, stdin = FDoc v -> proper_doc v) -> restore_plan fs known (S n) infile stdin = inr l ->
  exists bs ns d, input_says fs n (source fs (input_name infile) stdin) bs ns /\ dict_of bs d /\ restorable known d /\ carried_out d l.
Proof. exact C67_restore_l. Qed.
Print Assumptions C67_restore.

(** It does so for every input that can be restored, and refuses every other one before anything is set. *)
Theorem C67_restore_all_or_nothing : forall fs known n k infile stdin bs ns, (forall p v, fs p = FDoc v -> proper_doc v) ->
  (forall v, stdin = FDoc v -> proper_doc v) -> input_says fs k (source fs (input_name infile) stdin) bs ns -> NoDup ns ->
  (k <= n)%nat ->
  exists d, dict_of bs d /\
    (restorable known d -> exists l, restore_plan fs known (S n) infile stdin = inr l /\ carried_out d l) /\
    (~ restorable known d -> restore_plan fs known (S n) infile stdin = inl YError).
Proof. exact C67_restore_iff_l. Qed.
Print Assumptions C67_restore_all_or_nothing.

(** The hypotheses are met, with three files. *)
Example C67_case : (forall p v, x_fs p = FDoc v -> proper_doc v) /\ expands x_fs 3 (P ["d"%string; "a.yaml"%string]) x_bs x_ns /\
  NoDup x_ns /\ dict_of x_bs x_d /\ fst (yload x_fs 3 (P ["d"%string; "a.yaml"%string])) = inr x_d /\
  (forall p, ~ In p (map fst x_tab) -> x_fs p = FNone).
Proof. exact C67_case_l. Qed.
Example C67_restore_case : (forall p v, world r_tab p = FDoc v -> proper_doc v) /\
  restore_plan (world r_tab) r_known 2 (s2l "/a.yaml"%string) FNone =
  inr [(K "epp", Some (WCPU (T "0"), T "5")); (K "min_freq", Some (WDie (YMap [(KNum 0, T "0-1")]), T "2GHz"))].
Proof. exact C67_restore_case_l. Qed.

(** An 'include' inside a value is not followed: it becomes a key "include_0". *)
Theorem C67_nested_refuted : exists fs p d, fs p = FDoc (YMap [(K "a", YMap [(include, T "b.yaml")])]) /\
  fst (yload fs 5 p) = inr d /\ d = [(K "a", YMap [(K "include_0", T "b.yaml")])].
Proof. exact C67_nested_refuted_l. Qed.
Print Assumptions C67_nested_refuted.

(** A key that is in a file before and after an include has the value of the included file. *)
Theorem C67_again_refuted : exists fs p a b v w x, fs p = FDoc (YMap [(K "k", v); (include, T b); (K "k", w)]) /\
  fs (P [b]) = FDoc (YMap [(K "k", x)]) /\ p = P [a] /\ w <> x /\ fst (yload fs 5 p) = inr [(K "k", x)].
Proof. exact C67_again_refuted_l. Qed.
Print Assumptions C67_again_refuted.

(** Files that share an included file are refused, although there is no circle. *)
Theorem C67_shared_refuted : exists fs p k bs ns, (forall p v, fs p = FDoc v -> proper_doc v) /\ expands fs k p bs ns /\
  (forall q, clos_refl_trans _ (includes fs) p q -> ~ clos_trans _ (includes fs) q q) /\
  forall n, (k <= n)%nat -> fst (yload fs n p) = inl YError.
Proof. exact C67_shared_refuted_l. Qed.
Print Assumptions C67_shared_refuted.

(** A file that includes itself by a name with ".." is not noticed: the calls nest without an end. *)
Theorem C67_endless_refuted : exists fs p, (forall p q, resolve p = resolve q -> fs p = fs q) /\
  forall n, fst (yload fs n p) = inl YDeep.
Proof. exact C67_endless_refuted_l. Qed.
Print Assumptions C67_endless_refuted.

(** 'pepc ... restore' of a file with a relative include ends with AttributeError, although the file can be loaded. *)
Theorem C67_relative_refuted : exists fs infile d, fst (yload fs 2 (file_named infile)) = inr d /\ restorable r_known d /\
  forall n stdin, restore_plan fs r_known (S n) infile stdin = inl YAttr.
Proof. exact C67_relative_refuted_l. Qed.
Print Assumptions C67_relative_refuted.

(** A document that is not a mapping ends with AttributeError instead of an error message. *)
Theorem C67_list_refuted : exists fs infile, fs (file_named infile) = FDoc (YSeq [YNum 1]) /\
  forall n stdin, restore_plan fs r_known (S n) infile stdin = inl YAttr.
Proof. exact C67_list_refuted_l. Qed.
Print Assumptions C67_list_refuted.
