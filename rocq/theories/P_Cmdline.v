(** C65: the global options of the command line. *)
From Coq Require Import Ascii String Permutation.
From Verif Require Import Base M_Text M_Cmdline S_Cmdline L_Cmdline X_Cmdline.

(** C65. The options for the host, the user, the key, the timeout and the data set typed after the sub-command, in any
    order and in either spelling, take effect and win over those before it; those not typed there keep their value,
    and nothing else changes. A data set together with another host is refused. Missing: equal values
    (C65_same_value_refuted, C65_swapped_refuted), and the refusal when everything is typed before the sub-command
    (C65_dataset_host_refuted). *)
Theorem C65_options_partial : forall args l, proper l -> NoDup (map ty_val l) -> exists args',
  applied l (value args) (value args') /\
  (forall a, (forall o, a <> attribute o) -> dget str_eqb args' a = dget str_eqb args a) /\
  (l <> [] -> uses_dataset (value args') -> is_remote (value args') -> parse_args args (on_line l) = Exn EError) /\
  (l = [] \/ ~ (uses_dataset (value args') /\ is_remote (value args')) -> parse_args args (on_line l) = Ok args').
Proof. exact options_applied. Qed.
Print Assumptions C65_options_partial.

(** The command then runs where the options say: on the data set, on this host, or on the other host with the user name,
    the key and the timeout. Missing: hosts with a name that begins with "emulation" (C65_emulation_refuted). *)
Theorem C65_command_partial : forall args l, proper l -> NoDup (map ty_val l) ->
  value args OHost <> None ->
  (forall t, value args OHost <> Some (s2l "emulation"%string ++ t)) ->
  (forall t, In t l -> ty_opt t = OHost -> forall u, ty_val t <> s2l "emulation"%string ++ u) ->
  exists after, applied l (value args) after /\
    (l = [] \/ ~ (uses_dataset after /\ is_remote after) -> exists t, pepc_target args (on_line l) = Ok t /\ says_run after t) /\
    (l <> [] -> uses_dataset after -> is_remote after -> pepc_target args (on_line l) = Exn EError).
Proof. exact command_l. Qed.
Print Assumptions C65_command_partial.

Theorem C65_where : forall v t t', says_run v t -> says_run v t' -> t = t'.
Proof. exact says_run_unique. Qed.
Print Assumptions C65_where.

(** Whatever is typed after the sub-command: when it is accepted, then every word was used, as an option or as the value
    of an option, and nothing else took effect. *)
Theorem C65_nothing_lost : forall args uargs args', parse_args args uargs = Ok args' ->
  exists l, proper l /\ Permutation uargs (on_line l) /\ applied l (value args) (value args') /\
    (forall a, (forall o, a <> attribute o) -> dget str_eqb args' a = dget str_eqb args a).
Proof. exact nothing_lost. Qed.
Print Assumptions C65_nothing_lost.

(** So that an unknown option is refused, wherever it is... *)
Theorem C65_unknown_refused : forall args uargs x args', In x uargs -> is_option_like x -> (forall o, ~ In x (spellings o)) ->
  parse_args args uargs <> Ok args'.
Proof. exact unknown_refused. Qed.
Print Assumptions C65_unknown_refused.

(** ... and so is an option that is there twice, in whichever spellings. *)
Theorem C65_twice_refused : forall args a x b y c o args', In x (spellings o) -> In y (spellings o) ->
  parse_args args (a ++ x :: b ++ y :: c) <> Ok args'.
Proof. exact twice_refused. Qed.
Print Assumptions C65_twice_refused.

(** Not so: with two equal values ("-U box -T 5 -H box") a proper command line is refused... *)
Theorem C65_same_value_refuted : exists args l, proper l /\ value args OHost <> None /\ ~ uses_dataset (value args) /\
  (forall t, In t l -> ty_opt t <> ODataset) /\ parse_args args (on_line l) = Exn EError.
Proof. exact same_refused_l. Qed.
Print Assumptions C65_same_value_refuted.

(** ... or accepted, with the values of two options swapped ("-T 10 -K box -U 10 -H box"). *)
Theorem C65_swapped_refuted : exists args l args', proper l /\ parse_args args (on_line l) = Ok args' /\
  ~ applied l (value args) (value args').
Proof. exact swapped_l. Qed.
Print Assumptions C65_swapped_refuted.

(** Not so: an option without a value is not always refused. *)
Theorem C65_missing_value_refuted : exists args args' : attrs,
  parse_args args (map s2l ["-T"; "-K"; "a"; "z"; "-U"; "a"]%string) = Ok args' /\
  value args' OKey = Some (s2l "z"%string) /\ value args' OTimeout = Some (s2l "a"%string).
Proof. exact malformed_l. Qed.
Print Assumptions C65_missing_value_refuted.

(** Not so: a data set and another host, both typed before the sub-command, are accepted, and the host is ignored. *)
Theorem C65_dataset_host_refuted : exists args t, uses_dataset (value args) /\ is_remote (value args) /\
  pepc_target args [] = Ok (TDataset t).
Proof. exact dataset_remote_l. Qed.
Print Assumptions C65_dataset_host_refuted.

(** Not so: a command for a host with a name that begins with "emulation" is not run on it. *)
Theorem C65_emulation_refuted : exists args h, value args OHost = Some h /\ h <> s2l "localhost"%string /\
  ~ uses_dataset (value args) /\ pepc_target args [] = Ok (TEmul h).
Proof. exact emulation_l. Qed.
Print Assumptions C65_emulation_refuted.

(** Not so: "-q" and "-d" together, which the base class refuses, are accepted. *)
Theorem C65_quiet_debug_refuted : exists args, base_check args = Exn EError /\ parse_args args [] = Ok args.
Proof. exact quiet_debug_l. Qed.
Print Assumptions C65_quiet_debug_refuted.

(** A case: "-U admin --host box7". *)
Example C65_applies : proper x_line /\ NoDup (map ty_val x_line).
Proof. exact x_proper. Qed.
Example C65_command_applies : pepc_target x_defaults (on_line x_line) =
  Ok (TSSH (s2l "box7"%string) (Some (s2l "admin"%string)) None (Some (s2l "8"%string))).
Proof. exact x_target. Qed.
