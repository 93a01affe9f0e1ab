(** Specification of the package C-state limit (C30). *)
From Coq Require Import Ascii String.
From Verif Require Import Base M_CPUInfo S_CPUInfo M_Text M_MSR S_MSR M_FMSR S_FMSR M_PCState.

(** The lock bit of the register copy that CPU [c] uses is set. *)
Definition is_locked (env : menv) (s : mstate) (a : Z) (lockbit c : Z) : Prop :=
  Z.testbit (view env s a (me_dom env a c)) lockbit = true.

(** What is reported for the number [code]: its name; failing that, the name of the closest lower
    number that has one, other than "unlimited"; failing that, the number in decimal. *)
Inductive reported (vals : list (fval * Z)) (code : Z) : fval -> Prop :=
| rep_exact n : In (n, code) vals -> reported vals code n
| rep_lower n low : (forall m, ~ In (m, code) vals) -> In (n, low) vals -> low < code ->
    n <> VStr (s2l "unlimited") ->
    (forall m x, In (m, x) vals -> low < x < code -> m = VStr (s2l "unlimited")) ->
    reported vals code n
| rep_none : (forall m x, In (m, x) vals -> x <= code -> x <> code /\ m = VStr (s2l "unlimited")) ->
    reported vals code (VStr (dec code)).

(** A register with a limit field and a read-only lock bit next to it, as in the tables. *)
Definition limit_reg (fr : freg) (fe : feature) (lockbit : Z) : Prop :=
  dget str_eqb (fr_feats fr) (s2l "pkg_cstate_limit") = Some fe /\ feature_ok fe /\ fe_vals fe <> None /\
  exists lock, dget str_eqb (fr_feats fr) (s2l "pkg_cstate_limit_lock") = Some lock /\
    fe_bits lock = (lockbit, lockbit) /\ 0 <= lockbit <= 63.
