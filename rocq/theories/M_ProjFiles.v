(** Model of the search for data directories and helper programs: pepclibs/helperlibs/ProjectFiles.py, and its use for
    the "-D" option (pepctool/_Pepc.py) and the TPMI specification files (pepclibs/Tpmi.py). *)
From Coq Require Import Ascii String.
From Verif Require Import Base M_Text M_CPUIdle M_Yaml.
Open Scope list_scope.

Definition environ := str -> option str.

(** The "/" operator of pathlib.Path: an absolute right operand wins. *)
Definition pdiv (p q : ppath) : ppath := if pp_abs q then q else pjoin p q.

(** A host: local or reached with SSH, its environment and its files. The answers of exists(), is_dir(), is_exe() and
    which() are fixed during the search (simplification); over SSH they may fail. *)
Record phost := PHost {
  ph_remote : bool;
  ph_env : environ;
  ph_exists : ppath -> res bool;
  ph_is_dir : ppath -> res bool;
  ph_is_exe : ppath -> res bool;
  ph_which : str -> res (option ppath) }.

(** "if path:" for what os.environ.get() returns, then Path(path). *)
Definition env_path (e : environ) (v : str) : option ppath :=
  match e v with Some (c :: s) => Some (mkpath (c :: s)) | _ => None end.

(** get_envar() and the truth value of the result. LocalProcessManager.py:537-540: the text or None.
    SSHProcessManager.py:995-1002: Path() of what "echo $VAR" prints. A Path object is always true.
    Simplification: the command does not fail, and the shell prints the value as it is. *)
Definition get_envar (h : phost) (v : str) : option ppath :=
  if ph_remote h then Some (mkpath (strip (match ph_env h v with Some s => s | None => [] end)))
  else env_path (ph_env h) v.

Definition dash_us (c : ascii) : ascii := if Ascii.eqb c "-"%char then "_"%char else c.

(** ProjectFiles.py:17-24 get_project_data_envar(), 26-33 get_project_helpers_envar(). Simplification: ASCII letters only. *)
Definition data_envar (prj : str) : str := map upper_char (map dash_us prj) ++ s2l "_DATA_PATH"%string.
Definition helpers_envar (prj : str) : str := map upper_char (map dash_us prj) ++ s2l "_HELPERSPATH"%string.

Definition olist {A} (o : option A) : list A := match o with Some x => [x] | None => [] end.

Section Search.
  Variable prog : ppath.      (* the directory of sys.argv[0] *)
  Variable ctl : environ.     (* os.environ *)
  Variable h : phost.

  (** ProjectFiles.py:70-75: one variable *)
  Definition envar_paths (v : str) : list ppath :=
    match get_envar h v with Some p => [p] | None => olist (env_path ctl v) end.

  (** ProjectFiles.py:66-86: the paths in the order of the search *)
  Definition data_paths (subpath : str) (envars : list str) : list ppath :=
    [prog] ++
    flat_map envar_paths envars ++
    match get_envar h (s2l "HOME"%string) with
    | Some d => [pdiv d (mkpath (s2l ".local/share/"%string ++ subpath)); pdiv d (mkpath (s2l "share/"%string ++ subpath))]
    | None => []
    end ++
    match get_envar h (s2l "VIRTUAL_ENV"%string) with
    | Some d => [pdiv d (mkpath (s2l "share/"%string ++ subpath))]
    | None => []
    end ++
    [mkpath (s2l "/usr/local/share/"%string ++ subpath); mkpath (s2l "/usr/share/"%string ++ subpath)].

  (** ProjectFiles.py:88-113: the paths yielded, then the end of the generator or the exception *)
  Fixpoint yield_existing (datadir : ppath) (paths : list ppath) (found : bool) : list ppath * res unit :=
    match paths with
    | [] => ([], if found then Ok tt else Exn ENotFound)
    | p :: t =>
        match ph_exists h (pdiv p datadir) with
        | Exn e => ([], Exn e)
        | Ok true => let (ys, r) := yield_existing datadir t true in (pdiv p datadir :: ys, r)
        | Ok false => yield_existing datadir t found
        end
    end.

  (** ProjectFiles.py:35-113 search_project_data() *)
  Definition search_project_data (subpath datadir : str) (envars : list str) : list ppath * res unit :=
    yield_existing (mkpath datadir) (data_paths subpath envars) false.

  (** ProjectFiles.py:115-139 find_project_data(): next() of the generator. StopIteration (here EValue) if it ends. *)
  Definition find_project_data (prj datadir : str) : res ppath :=
    match search_project_data prj datadir [data_envar prj] with
    | (p :: _, _) => Ok p
    | ([], Exn e) => Exn e
    | ([], Ok _) => Exn EValue
    end.

  (** ProjectFiles.py:176-206: the paths, after which() has answered *)
  Definition helper_paths (prj : str) (found : option ppath) : list ppath :=
    (if ph_remote h then [] else [prog]) ++
    olist (get_envar h (helpers_envar prj)) ++
    olist found ++
    match get_envar h (s2l "HOME"%string) with
    | Some d => [pdiv d (mkpath (s2l ".local/bin"%string)); pdiv d (mkpath (s2l "bin"%string))]
    | None => []
    end ++
    match get_envar h (s2l "VIRTUAL_ENV"%string) with
    | Some d => [pdiv d (mkpath (s2l "bin"%string))]
    | None => []
    end ++
    [mkpath (s2l "/usr/local/bin"%string); mkpath (s2l "/usr/bin"%string)].

  (** ProjectFiles.py:208-219 *)
  Fixpoint first_exe (helper : ppath) (paths : list ppath) : res ppath :=
    match paths with
    | [] => Exn ENotFound
    | p :: t =>
        let? d := ph_is_dir h p in
        let exe := if d then pdiv p helper else p in
        let? x := ph_is_exe h exe in
        if x then Ok exe else first_exe helper t
    end.

  (** ProjectFiles.py:160-219 find_project_helper() *)
  Definition find_project_helper (prj helper : str) : res ppath :=
    let? found := ph_which h helper in
    first_exe (mkpath helper) (helper_paths prj found).
End Search.

(** Tpmi.py:123-143 _find_spec_dirs(): a warning only if the user directory is not there. The host is the local one. *)
Definition spec_dirs (prog : ppath) (h : phost) : res (list ppath) :=
  let? user := match env_path (ph_env h) (s2l "PEPC_TPMI_DATA_PATH"%string) with
               | Some p => let? x := ph_exists h p in Ok (if x then [p] else [])
               | None => Ok []
               end in
  let? std := find_project_data prog (ph_env h) h (s2l "pepc"%string) (s2l "tpmi"%string) in
  Ok (user ++ [std]).

Section Dataset.
  Variable prog : ppath.
  Variable h : phost.                               (* the local host *)
  Variable listdir : ppath -> res (list str).       (* os.listdir() *)

  (** _Pepc.py:1037-1045: the directories of one place. "seen" is the names in "datasets". *)
  Fixpoint place_names (base : ppath) (names seen : list str) : list ppath * res (list str) :=
    match names with
    | [] => ([], Ok seen)
    | n :: t =>
        if str_eqb n (s2l "common"%string) then place_names base t seen
        else if existsb (str_eqb n) seen then ([], Exn EError)
        else let (ys, r) := place_names base t (n :: seen) in (pdiv base (mkpath n) :: ys, r)
    end.

  (** _Pepc.py:1035-1045: "bases" is what search_project_data() yields and "r" how it ends. *)
  Fixpoint all_places (bases : list ppath) (r : res unit) (seen : list str) : list ppath * res unit :=
    match bases with
    | [] => ([], r)
    | b :: t =>
        match listdir b with
        | Exn e => ([], Exn e)
        | Ok names =>
            match place_names b names seen with
            | (ys, Ok seen') => let (ys', r') := all_places t r seen' in (ys ++ ys', r')
            | (ys, Exn e) => (ys, Exn e)
            end
        end
    end.

  (** _Pepc.py:1021-1049 _get_next_dataset() *)
  Definition get_next_dataset (dataset : str) : list ppath * res unit :=
    match ph_is_dir h (mkpath dataset) with
    | Exn e => ([], Exn e)
    | Ok true => ([mkpath dataset], Ok tt)
    | Ok false =>
        if str_eqb dataset (s2l "all"%string) then
          let (bases, r) := search_project_data prog (ph_env h) h (s2l "pepc"%string) (s2l "tests/data"%string) [] in
          all_places bases r []
        else
          match find_project_data prog (ph_env h) h (s2l "pepc"%string) (s2l "tests/data/"%string ++ dataset) with
          | Ok p => ([p], Ok tt)
          | Exn e => ([], Exn e)
          end
    end.
End Dataset.
