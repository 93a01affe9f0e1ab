(** Examples and counterexamples for C78. *)
From Coq Require Import Ascii String Sorted Lia.
From Verif Require Import Base M_Text M_CPUIdle M_Yaml M_ProjFiles S_ProjFiles L_Text L_ProjFiles L_ProjFiles2.
Open Scope list_scope.
Open Scope nat_scope.

Definition no_env : environ := fun _ => None.
Definition env_of (l : list (string * string)) : environ :=
  fun v => option_map (fun x => s2l (snd x)) (find (fun x => str_eqb v (s2l (fst x))) l).
Definition there (l : list string) (p : ppath) : res bool := Ok (existsb (fun s => path_eqb p (mkpath (s2l s))) l).
Definition host (remote : bool) (env : environ) (ex dirs exes : list string) (w : option ppath) : phost :=
  PHost remote env (there ex) (there dirs) (there exes) (fun _ => Ok w).
Definition prog0 : ppath := mkpath (s2l "/opt/bin").
Definition path (s : string) : ppath := mkpath (s2l s).

(** Local: the variable comes before /usr/share. *)
Definition h1 := host false (env_of [("HOME", "/root"); ("PEPC_DATA_PATH", "/data/")])%string ["/usr/share/pepc/tpmi"; "/data/tpmi"]%string [] [] None.
Example find_var : find_project_data prog0 (ph_env h1) h1 (s2l "pepc") (s2l "tpmi") = Ok (path "/data/tpmi").
Proof. vm_compute. reflexivity. Qed.
Example find_var_hyps : relative (s2l "tpmi") /\ env_name (s2l "pepc") "_DATA_PATH" (s2l "PEPC_DATA_PATH") /\
  vars_set h1 [s2l "PEPC_DATA_PATH"; s2l "HOME"; s2l "VIRTUAL_ENV"].
Proof. split; [exact I|]. split; [exact (up_name (s2l "pepc") "_DATA_PATH")|now left]. Qed.
Example find_none : find_project_data prog0 (ph_env h1) h1 (s2l "pepc") (s2l "other") = Exn ENotFound.
Proof. vm_compute. reflexivity. Qed.
Example search_two : search_project_data prog0 (ph_env h1) h1 (s2l "pepc") (s2l "tpmi") [s2l "PEPC_DATA_PATH"] =
  ([path "/data/tpmi"; path "/usr/share/pepc/tpmi"], Ok tt).
Proof. vm_compute. reflexivity. Qed.
Example envar_dash : data_envar (s2l "my-tool2") = s2l "MY_TOOL2_DATA_PATH".
Proof. vm_compute. reflexivity. Qed.

(** Remote, with the variables set there. *)
Definition h2 := host true (env_of [("HOME", "/root"); ("PEPC_HELPERSPATH", "/h"); ("VIRTUAL_ENV", "/v")])%string []
  ["/h"; "/v/bin"; "/root/bin"]%string ["/v/bin/ndl"; "/root/bin/ndl"]%string None.
Example helper_home : find_project_helper prog0 h2 (s2l "pepc") (s2l "ndl") = Ok (path "/root/bin/ndl").
Proof. vm_compute. reflexivity. Qed.
Example helper_home_hyps : vars_set h2 [s2l "PEPC_HELPERSPATH"; s2l "HOME"; s2l "VIRTUAL_ENV"].
Proof. right. intros v [<- |[<- |[<- |[]]]]; eexists; (split; [vm_compute; reflexivity|split; [discriminate|vm_compute; reflexivity]]). Qed.
Definition h2b := host false (ph_env h2) [] ["/h"; "/v/bin"; "/root/bin"]%string ["/v/bin/ndl"; "/root/bin/ndl"; "/x/ndl"]%string (Some (path "/x/ndl")).
Example helper_path : find_project_helper prog0 h2b (s2l "pepc") (s2l "ndl") = Ok (path "/x/ndl").
Proof. vm_compute. reflexivity. Qed.

(** Datasets *)
Definition listing (l : list (string * list string)) (p : ppath) : res (list str) :=
  match find (fun x => path_eqb p (mkpath (s2l (fst x)))) l with Some x => Ok (map s2l (snd x)) | None => Exn EValue end.
Definition h3 := host false (env_of [("HOME", "/root"); ("PEPC_DATA_PATH", "/data")])%string
  ["/opt/bin/tests/data"; "/usr/share/pepc/tests/data"; "/data/tests/data"; "/data/tests/data/own0"; "/opt/bin/tests/data/adl0"]%string [] [] None.
Definition ld3 := listing [("/opt/bin/tests/data", ["common"; "adl0"; "bdw0"]); ("/usr/share/pepc/tests/data", ["common"; "icx0"]);
  ("/data/tests/data", ["own0"])]%string.
Example all_three : get_next_dataset prog0 h3 ld3 (s2l "all") =
  ([path "/opt/bin/tests/data/adl0"; path "/opt/bin/tests/data/bdw0"; path "/usr/share/pepc/tests/data/icx0"], Ok tt).
Proof. vm_compute. reflexivity. Qed.
Example named : get_next_dataset prog0 h3 ld3 (s2l "adl0") = ([path "/opt/bin/tests/data/adl0"], Ok tt).
Proof. vm_compute. reflexivity. Qed.
Example all_plain : forall b names, ld3 b = Ok names -> Forall plain names.
Proof.
  intros b names H. unfold ld3, listing in H. cbn [find fst snd] in H.
  repeat match type of H with context [path_eqb b ?p] => destruct (path_eqb b p) end; try discriminate H;
    injection H as <-; repeat constructor.
Qed.
Example dir_given : let h := host false no_env [] ["/d/x"]%string [] None in
  get_next_dataset prog0 h ld3 (s2l "/d/x") = ([path "/d/x"], Ok tt).
Proof. vm_compute. reflexivity. Qed.
Example specs : spec_dirs prog0 (host false (env_of [("PEPC_TPMI_DATA_PATH", "/u")])%string ["/u"; "/usr/share/pepc/tpmi"]%string [] [] None) =
  Ok [path "/u"; path "/usr/share/pepc/tpmi"].
Proof. vm_compute. reflexivity. Qed.

(** The places of datasets of this host are different, and so are the names. *)
Example places_differ n q n' q' : data_place prog0 (ph_env h3) (ph_env h3) (s2l "pepc") [] n q ->
  data_place prog0 (ph_env h3) (ph_env h3) (s2l "pepc") [] n' q' -> q = q' -> n = n'.
Proof.
  intros H H' E. apply data_slots_place in H, H'. unfold slot in *. rewrite <- E in H'. clear E q'.
  do 6 (destruct n as [|n]; [vm_compute in H; try discriminate H; injection H as <-;
    do 6 (destruct n' as [|n']; [first [reflexivity|vm_compute in H'; discriminate H']|]); destruct n'; vm_compute in H'; discriminate H'|]).
  destruct n; vm_compute in H; discriminate H.
Qed.
Example bases_exist : dataset_base prog0 h3 (path "/opt/bin/tests/data") /\ dataset_base prog0 h3 (path "/usr/share/pepc/tests/data").
Proof.
  split; [exists 0, prog0|exists 5, (path "/usr/share/pepc")];
    (split; [first [apply (DPProgram _ _ _ (s2l "pepc") [])|apply (DPUsr _ _ _ (s2l "pepc") [])]|split; vm_compute; reflexivity]).
Qed.

(** A remote host without the variable. *)
Definition ctl4 := env_of [("PEPC_DATA_PATH", "/data")]%string.
Definition h4 := host true no_env ["/data/tpmi"]%string [] [] None.
Lemma remote_unset : exists prog ctl h prj datadir v,
  relative datadir /\ env_name prj "_DATA_PATH" v /\ (forall p, exists b, ph_exists h p = Ok b) /\
  data_place prog ctl (ph_env h) prj [v] 1 (path "/data") /\ ph_exists h (under (path "/data") datadir) = Ok true /\
  find_project_data prog ctl h prj datadir = Exn ENotFound.
Proof.
  exists prog0, ctl4, h4, (s2l "pepc"), (s2l "tpmi"), (s2l "PEPC_DATA_PATH").
  split; [exact I|]. split; [exact (up_name (s2l "pepc") "_DATA_PATH")|]. split; [intros p; eexists; reflexivity|]. split.
  - apply (DPVar _ _ _ _ _ 0 (s2l "PEPC_DATA_PATH")); [reflexivity|]. right. split.
    + intros x (s & H & _). discriminate H.
    + exists (s2l "/data"). repeat split; try discriminate; vm_compute; reflexivity.
  - split; vm_compute; reflexivity.
Qed.

(** ... finds what is in the current directory there. *)
Definition h5 := host true no_env ["tpmi"; "/usr/share/pepc/tpmi"]%string [] [] None.
Lemma remote_dot : exists prog ctl h prj datadir v p,
  relative datadir /\ env_name prj "_DATA_PATH" v /\
  find_project_data prog ctl h prj datadir = Ok p /\
  forall n q, data_place prog ctl (ph_env h) prj [v] n q -> p <> under q datadir.
Proof.
  exists prog0, no_env, h5, (s2l "pepc"), (s2l "tpmi"), (s2l "PEPC_DATA_PATH"), (path "tpmi").
  split; [exact I|]. split; [exact (up_name (s2l "pepc") "_DATA_PATH")|]. split; [vm_compute; reflexivity|].
  intros n q Hq E.
  assert (Hno : forall v d, ~ names no_env v d) by (intros v d (s & H & _); discriminate H).
  destruct Hq as [|i v d _ [Hd|[_ Hd]]|d Hd|d Hd|d Hd| |]; try (destruct (Hno _ _ Hd)); vm_compute in E; discriminate E.
Qed.

(** "all" leaves out the directory of the variable. *)
Lemma all_without_var : exists prog h listdir d p ys,
  ph_remote h = false /\ get_next_dataset prog h listdir d = ([p], Ok tt) /\
  get_next_dataset prog h listdir (s2l "all") = (ys, Ok tt) /\ ~ In p ys.
Proof.
  exists prog0, h3, ld3, (s2l "own0"), (path "/data/tests/data/own0"),
    [path "/opt/bin/tests/data/adl0"; path "/opt/bin/tests/data/bdw0"; path "/usr/share/pepc/tests/data/icx0"].
  split; [reflexivity|]. split; [vm_compute; reflexivity|]. split; [vm_compute; reflexivity|].
  intros [H|[H|[H|[]]]]; vm_compute in H; discriminate H.
Qed.

Lemma same_path p q : path_eqb p q = true -> p = q.
Proof.
  unfold path_eqb. intros E. apply andb_prop in E as [E1 E2]. apply Bool.eqb_prop in E1.
  destruct list_eq_dec as [E3|]; [|discriminate E2]. destruct p, q; cbn in *; congruence.
Qed.

(** A directory that is two of the places. *)
Definition h6 := host false (env_of [("HOME", "/usr/local"); ("VIRTUAL_ENV", "/usr/local")])%string ["/usr/local/share/pepc/tests/data"]%string [] [] None.
Definition ld6 := listing [("/usr/local/share/pepc/tests/data", ["common"; "adl0"])]%string.
Lemma all_twice : exists prog h listdir b n,
  ph_remote h = false /\ (forall b', dataset_base prog h b' <-> b' = b) /\ dataset_in listdir b n /\ (forall n', dataset_in listdir b n' -> n' = n) /\
  snd (get_next_dataset prog h listdir (s2l "all")) = Exn EError.
Proof.
  exists prog0, h6, ld6, (path "/usr/local/share/pepc/tests/data"), (s2l "adl0").
  split; [reflexivity|]. split.
  - intros b'. split.
    + intros (n & q & Hq & -> & E). unfold h6, host, there in E. cbn [ph_exists existsb] in E.
      rewrite Bool.orb_false_r in E. apply same_path. assert (Hk : forall x y : bool, Ok x = Ok y -> x = y) by (intros x y H; congruence). exact (Hk _ _ E).
    + intros ->. exists 4, (path "/usr/local/share/pepc"). split; [apply (DPUsrLocal _ _ _ (s2l "pepc") [])|split; vm_compute; reflexivity].
  - split; [eexists; split; [vm_compute; reflexivity|split; [right; left; reflexivity|discriminate]]|].
    split; [|vm_compute; reflexivity].
    intros n' (names & H & Hi & Hc). vm_compute in H. injection H as <-.
    destruct Hi as [<- |[<- |[]]]; [destruct Hc; reflexivity|reflexivity].
Qed.
