(** Specification vocabulary for MSR features. *)
From Coq Require Import Ascii String.
From Verif Require Import Base M_CPUInfo S_CPUInfo M_Text M_MSR S_MSR S_Osa M_FMSR.

(** Equal but for the case of ASCII letters. *)
Definition nocase (a b : str) : Prop := Forall2 same_letter a b.

Definition vals_of (fe : feature) : list (fval * Z) := match fe_vals fe with Some l => l | None => [] end.
Definition aliases_of (fe : feature) : list (str * str) := match fe_aliases fe with Some l => l | None => [] end.

(** Two names a user cannot tell apart. *)
Definition same_name (v w : fval) : Prop :=
  v = w \/ exists s t, v = VStr s /\ w = VStr t /\ nocase s t.

(** [v] is a way to say [n]: the name itself or one of its aliases, ignoring the case, or a boolean. *)
Definition says (fe : feature) (v n : fval) : Prop :=
  same_name v n \/
  (exists s al t, v = VStr s /\ n = VStr t /\ In (al, t) (aliases_of fe) /\ nocase s al) \/
  (fe_type fe = FBool /\ exists (b : bool) t, v = VBool b /\ n = VStr t /\
     nocase (s2l (if b then "on" else "off")%string) t).

(** The number a user's value stands for: that of the name, or the number itself for features without
    names. *)
Definition means (fe : feature) (v : fval) (code : Z) : Prop :=
  match fe_vals fe with
  | Some vals => exists n, In (n, code) vals /\ says fe v n
  | None => v = VInt code \/ exists b : bool, v = VBool b /\ code = Z.b2z b
  end.

(** What reading the number should return. *)
Definition named_as (fe : feature) (code : Z) (v : fval) : Prop :=
  match fe_vals fe with
  | Some vals => In (v, code) vals
  | None => v = VInt code
  end.

(** A sound table entry: the field is a field, every code fits into it, no two names are equal or
    share a code, and aliases lead to names and clash with nothing. *)
Record feature_ok (fe : feature) : Prop := {
  fo_field : field_ok (fe_bits fe);
  fo_vals : fe_vals fe <> Some [];
  fo_fits : forall v c, In (v, c) (vals_of fe) -> fits (fe_bits fe) c;
  fo_strings : fe_type fe = FBool \/ fe_type fe = FDict -> forall v c, In (v, c) (vals_of fe) -> exists s, v = VStr s;
  fo_numbers : fe_type fe = FInt \/ fe_type fe = FFloat -> forall v c, In (v, c) (vals_of fe) -> exists n, v = VInt n;
  fo_names : forall v w c d, In (v, c) (vals_of fe) -> In (w, d) (vals_of fe) -> same_name v w -> v = w /\ c = d;
  fo_codes : forall v w c, In (v, c) (vals_of fe) -> In (w, c) (vals_of fe) -> v = w;
  fo_alias_target : forall al t, In (al, t) (aliases_of fe) -> exists c, In (VStr t, c) (vals_of fe);
  fo_alias_new : forall al t n c, In (al, t) (aliases_of fe) -> In (VStr n, c) (vals_of fe) -> ~ nocase al n;
  fo_alias_uniq : forall al t al' t', In (al, t) (aliases_of fe) -> In (al', t') (aliases_of fe) -> nocase al al' -> t = t';
  fo_alias_type : fe_aliases fe <> None -> fe_type fe = FDict }.

Definition disjoint (b1 b2 : bits_t) : Prop := forall i, ~ (in_field b1 i /\ in_field b2 i).

(** A sound register: distinct feature names, sound features, no two of them overlapping. *)
Definition reg_ok (feats : list (str * feature)) : Prop :=
  NoDup (map fst feats) /\
  (forall n fe, In (n, fe) feats -> feature_ok fe) /\
  (forall n1 f1 n2 f2, In (n1, f1) feats -> In (n2, f2) feats -> n1 <> n2 -> disjoint (fe_bits f1) (fe_bits f2)).

(** The feature exists on the CPU: the model is listed, all the flags are there, and the mechanism is
    not switched off. *)
Definition cpu_supports (model : Z) (flags : Z -> list str) (off : list Z) (fe : feature) (c : Z) : Prop :=
  (forall l, fe_models fe = Some l -> In model l) /\
  (forall l f, fe_flags fe = Some l -> In f l -> In f (flags c)) /\
  ~ In c off.

(** Requests that must be turned down before anything is touched. *)
Inductive unacceptable (env : menv) (model : Z) (flags : Z -> list str) (off : list Z)
    (feats : list (str * feature)) (fname : str) (v : fval) (cpus : nums_t) : Prop :=
| un_unknown : (forall fe, ~ In (fname, fe) feats) -> unacceptable env model flags off feats fname v cpus
| un_offline c : In c (targets env cpus) -> ~ In c (ci_online (me_ci env)) ->
    unacceptable env model flags off feats fname v cpus
| un_unsupported fe c : In (fname, fe) feats -> In c (targets env cpus) ->
    ~ cpu_supports model flags off fe c -> unacceptable env model flags off feats fname v cpus
| un_readonly fe : In (fname, fe) feats -> fe_writable fe = false ->
    unacceptable env model flags off feats fname v cpus
| un_value fe : In (fname, fe) feats -> fe_vals fe <> None -> (forall code, ~ means fe v code) ->
    unacceptable env model flags off feats fname v cpus.

(** A history of MSR calls such that a write of register [a] on [cpus] may follow, see
    [disciplined]. *)
Definition disciplined_for (env : menv) (sc : Z -> scope) (ops : list mop) (a : Z) (cpus : nums_t) : Prop :=
  (forall o, In o ops -> op_scoped sc o) /\
  ((~ In OStart ops) \/
   exists rep, (forall o, In o ops -> op_rep env rep o) /\ first_is env rep a cpus).

(** A number to be written as it is must not be negative. *)
Definition not_negative (v : fval) : Prop := match v with VInt n => 0 <= n | _ => True end.

(** What enables and what disables a feature. *)
Definition switch (v : fval) (b : bool) : Prop :=
  v = VBool b \/ v = VInt (Z.b2z b) \/ v = VStr (s2l (if b then "on" else "off")%string) \/
  v = VStr (s2l (if b then "enable" else "disable")%string).
