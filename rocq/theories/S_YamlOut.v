(** Specification of the writing of YAML files and of the checks of ranges (C84). *)
From Coq Require Import Ascii String QArith.
From Verif Require Import Base M_Text M_YamlOut.
Open Scope list_scope.

(** Where a value is: keys of dictionaries and positions in lists. *)
Inductive step := Key (k : str) | Pos (n : nat).
Inductive at_path : yval -> list step -> yval -> Prop :=
| ap_here v : at_path v [] v
| ap_key l k x p v : In (k, x) l -> at_path x p v -> at_path (YDict l) (Key k :: p) v
| ap_pos l n x p v : nth_error l n = Some x -> at_path x p v -> at_path (YList l) (Pos n :: p) v.
Inductive node_at : node -> list step -> node -> Prop :=
| np_here v : node_at v [] v
| np_key l k x p v : In (k, x) l -> node_at x p v -> node_at (NMap l) (Key k :: p) v
| np_pos l n x p v : nth_error l n = Some x -> node_at x p v -> node_at (NSeq l) (Pos n :: p) v.

(** Through dictionaries only. *)
Definition keys_only (p : list step) : Prop := Forall (fun s => exists k, s = Key k) p.
Definition not_dict (v : yval) : Prop := forall l, v <> YDict l.

(** The keys of which the values are not None, in order. *)
Inductive keys_with_values : list (str * yval) -> list str -> Prop :=
| kv_nil : keys_with_values [] []
| kv_none k l ks : keys_with_values l ks -> keys_with_values ((k, YNone) :: l) ks
| kv_some k x l ks : x <> YNone -> keys_with_values l ks -> keys_with_values ((k, x) :: l) (k :: ks).

(** How a scalar is to be written, with the text of floats given. *)
Inductive scalar_as (text : Q -> str) : yval -> node -> Prop :=
| sa_none : scalar_as text YNone (NScal TNull [])
| sa_float q : scalar_as text (YFloat q) (NScal TFloat (text q))
| sa_path p : scalar_as text (YPath p) (NScal TStr p)
| sa_other s : scalar_as text (YScal s) (NScal TOther s).
Definition is_scalar (v : yval) : Prop := (forall l, v <> YDict l) /\ (forall l, v <> YList l).

(** A format was given. *)
Definition formatted (c : ycall) (f : str) : Prop := y_format c = Some f /\ f <> [].
Definition unformatted (c : ycall) : Prop := forall f, ~ formatted c f.

(** A range with limits, where there are any. *)
Definition in_limits (a b : Q) (lo hi : option Q) : Prop :=
  (a <= b)%Q /\ (forall l, lo = Some l -> (l <= a)%Q) /\ (forall h, hi = Some h -> (b <= h)%Q).
Definition limits_make_sense (lo hi : option Q) : Prop := forall l h, lo = Some l -> hi = Some h -> (l <= h)%Q.
