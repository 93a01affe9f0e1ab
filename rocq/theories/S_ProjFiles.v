(** Specification of the search for data directories, helper programs and datasets (C78). *)
From Coq Require Import Ascii String Sorted.
From Verif Require Import Base M_Text M_Yaml M_ProjFiles.
Open Scope list_scope.
Open Scope nat_scope.

(** Path [d]/[s] for a relative [s]. *)
Definition under (d : ppath) (s : str) : ppath := PP (pp_abs d) (pp_parts d ++ pp_parts (mkpath s)).
Definition relative (s : str) : Prop := match s with "/"%char :: _ => False | _ => True end.

(** The directory an environment variable names. *)
Definition names (e : environ) (v : str) (d : ppath) : Prop := exists s, e v = Some s /\ s <> [] /\ d = mkpath s.

(** The variable of a project: upper case, "_" for "-", then a suffix. *)
Definition env_char (c d : ascii) : Prop :=
  (c = "-"%char /\ d = "_"%char) \/
  (97 <= nat_of_ascii c <= 122 /\ nat_of_ascii d + 32 = nat_of_ascii c) \/
  (c <> "-"%char /\ ~ (97 <= nat_of_ascii c <= 122) /\ d = c).
Definition env_name (prj : str) (suffix : string) (v : str) : Prop :=
  exists l, v = l ++ s2l suffix /\ Forall2 env_char prj l.

(** A variable of the target host, otherwise of this host. *)
Definition var_dir (ctl target : environ) (v : str) (d : ppath) : Prop :=
  names target v d \/ ((forall x, ~ names target v x) /\ names ctl v d).

(** The places for data, numbered in the order of the search. *)
Section Places.
  Variables (prog : ppath) (ctl target : environ).

  Inductive data_place (sub : str) (envars : list str) : nat -> ppath -> Prop :=
  | DPProgram : data_place sub envars 0 prog
  | DPVar i v d : nth_error envars i = Some v -> var_dir ctl target v d -> data_place sub envars (1 + i) d
  | DPHomeLocal d : names target (s2l "HOME") d -> data_place sub envars (1 + length envars) (under d (s2l ".local/share/" ++ sub))
  | DPHome d : names target (s2l "HOME") d -> data_place sub envars (2 + length envars) (under d (s2l "share/" ++ sub))
  | DPVenv d : names target (s2l "VIRTUAL_ENV") d -> data_place sub envars (3 + length envars) (under d (s2l "share/" ++ sub))
  | DPUsrLocal : data_place sub envars (4 + length envars) (mkpath (s2l "/usr/local/share/" ++ sub))
  | DPUsr : data_place sub envars (5 + length envars) (mkpath (s2l "/usr/share/" ++ sub)).

  Inductive helper_place (remote : bool) (v : str) (in_path : option ppath) : nat -> ppath -> Prop :=
  | HPProgram : remote = false -> helper_place remote v in_path 0 prog
  | HPVar d : names target v d -> helper_place remote v in_path 1 d
  | HPPath p : in_path = Some p -> helper_place remote v in_path 2 p
  | HPHomeLocal d : names target (s2l "HOME") d -> helper_place remote v in_path 3 (under d (s2l ".local/bin"))
  | HPHome d : names target (s2l "HOME") d -> helper_place remote v in_path 4 (under d (s2l "bin"))
  | HPVenv d : names target (s2l "VIRTUAL_ENV") d -> helper_place remote v in_path 5 (under d (s2l "bin"))
  | HPUsrLocal : helper_place remote v in_path 6 (mkpath (s2l "/usr/local/bin"))
  | HPUsr : helper_place remote v in_path 7 (mkpath (s2l "/usr/bin")).
End Places.

(** What is at a place: nothing, something, or no answer. *)
Definition data_at (h : phost) (datadir : str) (q : ppath) (r : res (option ppath)) : Prop :=
  (ph_exists h (under q datadir) = Ok true /\ r = Ok (Some (under q datadir))) \/
  (ph_exists h (under q datadir) = Ok false /\ r = Ok None) \/
  (exists e, ph_exists h (under q datadir) = Exn e /\ r = Exn e).
(** An executable of this name in a directory; a place that is not a directory is the program itself. *)
Definition helper_at (h : phost) (helper : str) (q : ppath) (r : res (option ppath)) : Prop :=
  (exists e, ph_is_dir h q = Exn e /\ r = Exn e) \/
  exists d, ph_is_dir h q = Ok d /\
    let c := if d then under q helper else q in
    (ph_is_exe h c = Ok true /\ r = Ok (Some c)) \/
    (ph_is_exe h c = Ok false /\ r = Ok None) \/
    (exists e, ph_is_exe h c = Exn e /\ r = Exn e).

(** The first place that has something, if all the places before it answered "nothing". *)
Definition first_of (place : nat -> ppath -> Prop) (at_ : ppath -> res (option ppath) -> Prop) (r : res ppath) : Prop :=
  (exists n q, place n q /\ (forall m q', (m < n)%nat -> place m q' -> at_ q' (Ok None)) /\
     ((exists p, at_ q (Ok (Some p)) /\ r = Ok p) \/ (exists e, at_ q (Exn e) /\ r = Exn e))) \/
  ((forall n q, place n q -> at_ q (Ok None)) /\ r = Exn ENotFound).

(** The host is this one, or the variables are set there, without spaces around the values. *)
Definition vars_set (h : phost) (vars : list str) : Prop :=
  ph_remote h = false \/ forall v, In v vars -> exists s, ph_env h v = Some s /\ s <> [] /\ strip s = s.

(** The name of a file or directory. *)
Definition plain (n : str) : Prop := mkpath n = PP false [n].

(** A place of datasets, and a dataset there. *)
Definition dataset_base (prog : ppath) (h : phost) (b : ppath) : Prop :=
  exists n q, data_place prog (ph_env h) (ph_env h) (s2l "pepc") [] n q /\ b = under q (s2l "tests/data") /\ ph_exists h b = Ok true.
Definition dataset_in (listdir : ppath -> res (list str)) (b : ppath) (n : str) : Prop :=
  exists names, listdir b = Ok names /\ In n names /\ n <> s2l "common".
