(** Model of the global command line options: pepctool/_Pepc.py, pepclibs/helperlibs/ArgParse.py and
    pepclibs/helperlibs/ProcessManager.py. *)
From Coq Require Import Ascii String.
From Verif Require Import Base M_Text.

(** The attributes of the "argparse" name space that are not 'None'.  Simplification: values are texts (the default
    timeout, the number 8, is the text "8"), and only the attributes of the global options are looked at here. *)
Definition attrs := list (str * str).

(** ArgParse.py:65-110 and _Pepc.py:38-48: an option and where its value goes. *)
Record gopt := GO { go_short : str; go_long : str; go_dest : str }.

Definition ssh_options : list gopt :=
  [GO (s2l "-H"%string) (s2l "--host"%string) (s2l "hostname"%string);
   GO (s2l "-U"%string) (s2l "--username"%string) (s2l "username"%string);
   GO (s2l "-K"%string) (s2l "--priv-key"%string) (s2l "privkey"%string);
   GO (s2l "-T"%string) (s2l "--timeout"%string) (s2l "timeout"%string)].
Definition dataset_option : gopt := GO (s2l "-D"%string) (s2l "--dataset"%string) (s2l "dataset"%string).

(** list.__contains__(), list.index(), list.remove() of a list of texts; str.startswith("-") *)
Definition in_args (x : str) (l : list str) : bool := existsb (str_eqb x) l.
Fixpoint arg_index (x : str) (l : list str) : option nat :=
  match l with
  | [] => None
  | y :: t => if str_eqb x y then Some O else option_map S (arg_index x t)
  end.
Fixpoint arg_remove (x : str) (l : list str) : res (list str) :=
  match l with
  | [] => Exn EValue
  | y :: t => if str_eqb x y then Ok t else let? t' := arg_remove x t in Ok (y :: t')
  end.
Definition dashed (x : str) : bool := match x with c :: _ => Ascii.eqb c "-" | [] => false end.

(** _Pepc.py:112-127: the body of the loop of _check_unknown_args() *)
Definition check_one (opt : gopt) (st : attrs * list str) : res (attrs * list str) :=
  let '(args, uargs) := st in
  let optname := if in_args (go_short opt) uargs then Some (go_short opt)
                 else if in_args (go_long opt) uargs then Some (go_long opt)
                 else None in
  match optname with
  | None => Ok (args, uargs)
  | Some o =>
    match arg_index o uargs with
    | None => Exn EValue
    | Some i =>
      match nth_error uargs (S i) with
      | None => Exn EError
      | Some val =>
        if dashed val then Exn EError
        else let? u1 := arg_remove val uargs in
             let? u2 := arg_remove o u1 in
             Ok (dset str_eqb args (go_dest opt) val, u2)
      end
    end
  end.

(** _Pepc.py:106-127: _check_unknown_args() *)
Fixpoint check_unknown_args (gargs : list gopt) (st : attrs * list str) : res (attrs * list str) :=
  match gargs with
  | [] => Ok st
  | opt :: t => let? st' := check_one opt st in check_unknown_args t st'
  end.

(** _Pepc.py:142, 1119: an attribute that is there and not empty *)
Definition attr_true (args : attrs) (a : str) : bool :=
  match dget str_eqb args a with Some (_ :: _) => true | _ => false end.
Definition is_local (args : attrs) : bool :=
  match dget str_eqb args (s2l "hostname"%string) with
  | Some h => str_eqb h (s2l "localhost"%string)
  | None => false
  end.

(** _Pepc.py:129-145: PepcArgsParser.parse_args().  [args] and [uargs] are what parse_known_args() of the standard
    library returns (not modelled): the name space, and the arguments it did not recognize, in order. *)
Definition parse_args (args : attrs) (uargs : list str) : res attrs :=
  match uargs with
  | [] => Ok args
  | _ :: _ =>
    let? st := check_unknown_args ssh_options (args, uargs) in
    let? st := check_unknown_args [dataset_option] st in
    let '(args, uargs) := st in
    match uargs with
    | _ :: _ => Exn EError
    | [] => if attr_true args (s2l "dataset"%string) && negb (is_local args) then Exn EError else Ok args
    end
  end.

(** ArgParse.py:197-205: ArgsParser.parse_args(), the check of the base class.  The options are attributes
    with any value. *)
Definition base_check (args : attrs) : res attrs :=
  match dget str_eqb args (s2l "quiet"%string), dget str_eqb args (s2l "debug"%string) with
  | Some _, Some _ => Exn EError
  | _, _ => Ok args
  end.

(** Where a command runs. *)
Inductive target :=
| TLocal                                               (* LocalProcessManager *)
| TEmul (host : str)                                   (* EmulProcessManager without any data set *)
| TSSH (host : str) (user key timeout : option str)    (* SSHProcessManager *)
| TDataset (d : str).                                  (* EmulProcessManager with a data set *)

Definition startswith (p x : str) : bool := str_eqb p (firstn (length p) x).

(** ProcessManager.py:31-92: get_pman() *)
Definition get_pman (host : str) (user key timeout : option str) : res target :=
  match str_eqb host (s2l "localhost"%string), user with
  | true, None => match key, timeout with None, None => Ok TLocal | _, _ => Exn EError end
  | _, _ => if startswith (s2l "emulation"%string) host then Ok (TEmul host) else Ok (TSSH host user key timeout)
  end.

(** _Pepc.py:1114-1140: main(), up to the point where the function of the sub-command is called.  Simplification: the
    path of the data set is its name. *)
Definition main_target (args : attrs) : res target :=
  let get a := if is_local args then None else dget str_eqb args (s2l a) in
  if attr_true args (s2l "dataset"%string) then
    match dget str_eqb args (s2l "dataset"%string) with Some d => Ok (TDataset d) | None => Exn EKey end
  else
    match dget str_eqb args (s2l "hostname"%string) with
    | Some h => get_pman h (get "username"%string) (get "privkey"%string) (get "timeout"%string)
    | None => Exn EKey
    end.

(** _Pepc.py:824-828, 1111-1140: the command line, from parse_known_args() on *)
Definition pepc_target (args : attrs) (uargs : list str) : res target :=
  let? args' := parse_args args uargs in main_target args'.
