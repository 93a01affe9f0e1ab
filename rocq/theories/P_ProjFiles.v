(** Data directories, helper programs and datasets are looked for in the documented places, in order (C78). *)
From Coq Require Import Ascii String Sorted.
From Verif Require Import Base M_Text M_Yaml M_ProjFiles S_ProjFiles L_ProjFiles L_ProjFiles2 X_ProjFiles.
Open Scope list_scope.
Open Scope nat_scope.

Theorem C78_find prog ctl h prj datadir v :
  relative datadir -> env_name prj "_DATA_PATH" v -> vars_set h [v; s2l "HOME"; s2l "VIRTUAL_ENV"] ->
  first_of (data_place prog ctl (ph_env h) prj [v]) (data_at h datadir) (find_project_data prog ctl h prj datadir).
Proof. exact (find_data prog ctl h prj datadir v). Qed.

(** All of the existing ones, in order; an error only if there are none. *)
Theorem C78_search prog ctl h sub datadir envars ys r :
  relative datadir -> vars_set h (envars ++ [s2l "HOME"; s2l "VIRTUAL_ENV"]) ->
  (forall n q, data_place prog ctl (ph_env h) sub envars n q -> exists b, ph_exists h (under q datadir) = Ok b) ->
  search_project_data prog ctl h sub datadir envars = (ys, r) ->
  exists l, StronglySorted lt l /\
    (forall n, In n l <-> exists q, data_place prog ctl (ph_env h) sub envars n q /\ ph_exists h (under q datadir) = Ok true) /\
    Forall2 (fun n p => exists q, data_place prog ctl (ph_env h) sub envars n q /\ p = under q datadir) l ys /\
    r = match l with [] => Exn ENotFound | _ => Ok tt end.
Proof. exact (search_data prog ctl h sub datadir envars ys r). Qed.

Theorem C78_helper prog h prj helper v in_path :
  relative helper -> env_name prj "_HELPERSPATH" v -> vars_set h [v; s2l "HOME"; s2l "VIRTUAL_ENV"] ->
  ph_which h helper = Ok in_path ->
  first_of (helper_place prog (ph_env h) (ph_remote h) v in_path) (helper_at h helper) (find_project_helper prog h prj helper).
Proof. exact (find_helper prog h prj helper v in_path). Qed.

Theorem C78_helper_fails prog h prj helper e : ph_which h helper = Exn e -> find_project_helper prog h prj helper = Exn e.
Proof. exact (find_helper_which prog h prj helper e). Qed.

(** The user's directory first, if it is there, then the standard one. *)
Theorem C78_tpmi_specs prog h : ph_remote h = false ->
  exists std, first_of (data_place prog (ph_env h) (ph_env h) (s2l "pepc") [s2l "PEPC_DATA_PATH"]) (data_at h (s2l "tpmi")) std /\
  ((exists d, names (ph_env h) (s2l "PEPC_TPMI_DATA_PATH") d /\ ph_exists h d = Ok true /\ spec_dirs prog h = rbind std (fun s => Ok [d; s])) \/
   (((forall d, ~ names (ph_env h) (s2l "PEPC_TPMI_DATA_PATH") d) \/
     exists d, names (ph_env h) (s2l "PEPC_TPMI_DATA_PATH") d /\ ph_exists h d = Ok false) /\ spec_dirs prog h = rbind std (fun s => Ok [s])) \/
   (exists d e, names (ph_env h) (s2l "PEPC_TPMI_DATA_PATH") d /\ ph_exists h d = Exn e /\ spec_dirs prog h = Exn e)).
Proof. exact (spec_dirs_result prog h). Qed.

Theorem C78_dataset_dir prog h listdir d : ph_is_dir h (mkpath d) = Ok true -> get_next_dataset prog h listdir d = ([mkpath d], Ok tt).
Proof. exact (dataset_dir prog h listdir d). Qed.

Theorem C78_dataset_named prog h listdir d ys r : ph_remote h = false -> ph_is_dir h (mkpath d) = Ok false -> d <> s2l "all" ->
  get_next_dataset prog h listdir d = (ys, r) ->
  exists x, first_of (data_place prog (ph_env h) (ph_env h) (s2l "pepc") [s2l "PEPC_DATA_PATH"]) (data_at h (s2l "tests/data/" ++ d)) x /\
    ((exists p, x = Ok p /\ ys = [p] /\ r = Ok tt) \/ (exists e, x = Exn e /\ ys = [] /\ r = Exn e)).
Proof. exact (dataset_named prog h listdir d ys r). Qed.

(** Every dataset of every place, no name twice. *)
Theorem C78_dataset_all prog h listdir ys r : ph_remote h = false -> ph_is_dir h (mkpath (s2l "all")) = Ok false ->
  (forall p, exists b, ph_exists h p = Ok b) -> (forall b names, listdir b = Ok names -> Forall plain names) ->
  get_next_dataset prog h listdir (s2l "all") = (ys, r) -> r = Ok tt ->
  (exists b, dataset_base prog h b) /\
  (forall p, In p ys <-> exists b n, dataset_base prog h b /\ dataset_in listdir b n /\ p = under b n) /\
  exists nl, NoDup nl /\ Forall2 (fun p n => exists b, dataset_base prog h b /\ dataset_in listdir b n /\ p = under b n) ys nl.
Proof. exact (dataset_all prog h listdir ys r). Qed.

Theorem C78_dataset_all_none prog h listdir : ph_remote h = false -> ph_is_dir h (mkpath (s2l "all")) = Ok false ->
  (forall p, exists b, ph_exists h p = Ok b) -> (forall b, ~ dataset_base prog h b) ->
  get_next_dataset prog h listdir (s2l "all") = ([], Exn ENotFound).
Proof. exact (dataset_all_none prog h listdir). Qed.

(** It succeeds if no name is used twice and no directory is two of the places. *)
Theorem C78_dataset_all_succeeds prog h listdir : ph_remote h = false -> ph_is_dir h (mkpath (s2l "all")) = Ok false ->
  (forall p, exists b, ph_exists h p = Ok b) ->
  (exists b, dataset_base prog h b) ->
  (forall b, dataset_base prog h b -> exists names, listdir b = Ok names /\ Forall plain names /\ NoDup names) ->
  (forall n q n' q', data_place prog (ph_env h) (ph_env h) (s2l "pepc") [] n q ->
     data_place prog (ph_env h) (ph_env h) (s2l "pepc") [] n' q' -> q = q' -> n = n') ->
  (forall b b' n, dataset_base prog h b -> dataset_base prog h b' -> dataset_in listdir b n -> dataset_in listdir b' n -> b = b') ->
  snd (get_next_dataset prog h listdir (s2l "all")) = Ok tt.
Proof. exact (dataset_all_fine prog h listdir). Qed.

Theorem C78_remote_unset_refuted : exists prog ctl h prj datadir v,
  relative datadir /\ env_name prj "_DATA_PATH" v /\ (forall p, exists b, ph_exists h p = Ok b) /\
  data_place prog ctl (ph_env h) prj [v] 1 (mkpath (s2l "/data")) /\ ph_exists h (under (mkpath (s2l "/data")) datadir) = Ok true /\
  find_project_data prog ctl h prj datadir = Exn ENotFound.
Proof. exact remote_unset. Qed.

Theorem C78_remote_dot_refuted : exists prog ctl h prj datadir v p,
  relative datadir /\ env_name prj "_DATA_PATH" v /\
  find_project_data prog ctl h prj datadir = Ok p /\
  forall n q, data_place prog ctl (ph_env h) prj [v] n q -> p <> under q datadir.
Proof. exact remote_dot. Qed.

Theorem C78_all_variable_refuted : exists prog h listdir d p ys,
  ph_remote h = false /\ get_next_dataset prog h listdir d = ([p], Ok tt) /\
  get_next_dataset prog h listdir (s2l "all") = (ys, Ok tt) /\ ~ In p ys.
Proof. exact all_without_var. Qed.

Theorem C78_all_twice_refuted : exists prog h listdir b n,
  ph_remote h = false /\ (forall b', dataset_base prog h b' <-> b' = b) /\ dataset_in listdir b n /\ (forall n', dataset_in listdir b n' -> n' = n) /\
  snd (get_next_dataset prog h listdir (s2l "all")) = Exn EError.
Proof. exact all_twice. Qed.

Print Assumptions C78_find.
Print Assumptions C78_search.
Print Assumptions C78_helper.
Print Assumptions C78_helper_fails.
Print Assumptions C78_tpmi_specs.
Print Assumptions C78_dataset_dir.
Print Assumptions C78_dataset_named.
Print Assumptions C78_dataset_all.
Print Assumptions C78_dataset_all_none.
Print Assumptions C78_dataset_all_succeeds.
Print Assumptions C78_remote_unset_refuted.
Print Assumptions C78_remote_dot_refuted.
Print Assumptions C78_all_variable_refuted.
Print Assumptions C78_all_twice_refuted.
