(** What the global options of the command line are, for C65. *)
From Coq Require Import Ascii String.
From Verif Require Import Base M_Text M_Cmdline.

Inductive goption := OHost | OUser | OKey | OTimeout | ODataset.

(** The two spellings of an option, and the attribute that the rest of the program takes its value from. *)
Definition spellings (o : goption) : list str :=
  map s2l (match o with
           | OHost => ["-H"; "--host"]
           | OUser => ["-U"; "--username"]
           | OKey => ["-K"; "--priv-key"]
           | OTimeout => ["-T"; "--timeout"]
           | ODataset => ["-D"; "--dataset"]
           end)%string.

Definition attribute (o : goption) : str :=
  s2l (match o with
       | OHost => "hostname" | OUser => "username" | OKey => "privkey" | OTimeout => "timeout" | ODataset => "dataset"
       end)%string.

(** An option as typed: which one, how it is spelled, and its value. *)
Record typed := TY { ty_opt : goption; ty_as : str; ty_val : str }.

Definition is_option_like (x : str) : Prop := exists t, x = "-"%char :: t.

(** The words on the command line. *)
Definition on_line (l : list typed) : list str := flat_map (fun t => [ty_as t; ty_val t]) l.

(** No option is typed twice, every one is spelled properly and has a value that does not look like an option. *)
Definition proper (l : list typed) : Prop :=
  NoDup (map ty_opt l) /\ forall t, In t l -> In (ty_as t) (spellings (ty_opt t)) /\ ~ is_option_like (ty_val t).

(** The values after the sub-command count; without one, what was there already does. *)
Definition applied (l : list typed) (before after : goption -> option str) : Prop :=
  forall o, (forall t, In t l -> ty_opt t = o -> after o = Some (ty_val t)) /\
            ((forall t, In t l -> ty_opt t <> o) -> after o = before o).

Definition value (args : attrs) (o : goption) : option str := dget str_eqb args (attribute o).

Definition uses_dataset (v : goption -> option str) : Prop := exists d, v ODataset = Some d /\ d <> [].
Definition is_remote (v : goption -> option str) : Prop := v OHost <> Some (s2l "localhost"%string).

(** Where the options say that the command runs. *)
Inductive says_run (v : goption -> option str) : target -> Prop :=
| says_dataset d : v ODataset = Some d -> d <> [] -> says_run v (TDataset d)
| says_local : ~ uses_dataset v -> v OHost = Some (s2l "localhost"%string) -> says_run v TLocal
| says_remote h : ~ uses_dataset v -> v OHost = Some h -> h <> s2l "localhost"%string ->
    says_run v (TSSH h (v OUser) (v OKey) (v OTimeout)).
