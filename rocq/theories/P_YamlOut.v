(** C84: what is written to YAML files, and the checks of ranges. *)
From Coq Require Import Ascii String QArith.
From Verif Require Import Base M_Text M_YamlOut S_YamlOut L_YamlOut X_YamlOut.
Open Scope list_scope.

(** With a format, every scalar is written where it is in the data, floats with that format, None as nothing and paths as text, whatever was written before (case: x_yaml). *)
Theorem C84_formatted : forall fmt repr before c f p v, formatted c f -> y_skip c = false -> at_path (YDict (y_data c)) p v -> is_scalar v ->
  exists n, scalar_as (fmt f) v n /\ node_at (written fmt repr before c) p n.
Proof. exact formatted_l. Qed.
Print Assumptions C84_formatted.

(** Without a format, and if none was given before, floats are written the way the library does (case: x_yaml). *)
Theorem C84_unformatted : forall fmt repr before c p v, Forall unformatted before -> unformatted c -> y_skip c = false -> at_path (YDict (y_data c)) p v -> is_scalar v ->
  exists n, scalar_as repr v n /\ node_at (written fmt repr before c) p n.
Proof. exact unformatted_l. Qed.
Print Assumptions C84_unformatted.

(** Nothing is written that is not in the data (case: x_yaml). *)
Theorem C84_nothing_else : forall fmt repr before c p n, y_skip c = false -> node_at (written fmt repr before c) p n -> exists v, at_path (YDict (y_data c)) p v.
Proof. exact nothing_else_l. Qed.
Print Assumptions C84_nothing_else.

(** Refuted: what is written depends on the call only. *)
Theorem C84_history_refuted : exists before c fmt repr, written fmt repr before c <> written fmt repr [] c.
Proof. exact format_refuted_l. Qed.
Print Assumptions C84_history_refuted.

(** Without a format, the last format that was given before is used (case: x_yaml). *)
Theorem C84_leftover : forall fmt repr a b c d f p v, formatted c f -> Forall unformatted b -> unformatted d -> y_skip d = false -> at_path (YDict (y_data d)) p v -> is_scalar v ->
  exists n, scalar_as (fmt f) v n /\ node_at (written fmt repr (a ++ c :: b) d) p n.
Proof. exact leftover_l. Qed.
Print Assumptions C84_leftover.

(** With the option to skip None, below dictionaries every other scalar is written as it would be, and for None nothing is written, not even the key (case: x_yaml). *)
Theorem C84_skip : forall fmt repr before c p v, y_skip c = true -> keys_only p -> is_scalar v -> at_path (YDict (y_data c)) p v ->
  (forall text, (exists f, formatted c f /\ text = fmt f) \/ (Forall unformatted before /\ unformatted c /\ text = repr) -> v <> YNone ->
     exists n, scalar_as text v n /\ node_at (written fmt repr before c) p n) /\
  (v = YNone -> (forall u, at_path (YDict (y_data c)) p u -> u = YNone) -> forall n, ~ node_at (written fmt repr before c) p n).
Proof. exact skip_l. Qed.
Print Assumptions C84_skip.

(** The copy without None has every dictionary, with the other keys in the same order, and everything that is not a dictionary as it was (case: x_yaml). *)
Theorem C84_copy : forall d p, d <> YNone -> keys_only p ->
  (forall v, not_dict v -> (at_path (copy_none d) p v <-> at_path d p v /\ v <> YNone)) /\
  (forall l ks, at_path d p (YDict l) -> keys_with_values l ks -> exists l', at_path (copy_none d) p (YDict l') /\ map fst l' = ks) /\
  (forall l, at_path (copy_none d) p (YDict l) -> exists l', at_path d p (YDict l')).
Proof.
  intros d p Hd Hp. split; [intros v Hv; exact (skip_leaf_l p d v Hv Hp Hd)|]. split; [intros l ks H; exact (skip_dict_l d p l ks Hp H)|intros l; exact (skip_no_more_l d p l Hp)].
Qed.
Print Assumptions C84_copy.

(** Refuted: no key with None is written with the option. In dictionaries that are in lists it is. *)
Theorem C84_list_refuted : exists c fmt repr p n, y_skip c = true /\ at_path (YDict (y_data c)) p YNone /\ (exists q k, p = q ++ [Key k]) /\
  node_at (written fmt repr [] c) p n.
Proof. exact list_refuted_l. Qed.
Print Assumptions C84_list_refuted.

(** A value is accepted exactly if it is within the bounds. *)
Theorem C84_value : forall v lo hi, value_ok v lo hi = true <-> (lo <= v)%Q /\ (v <= hi)%Q.
Proof. exact value_ok_l. Qed.
Print Assumptions C84_value.

(** A range is accepted if it goes up and is within the limits there are, and refused otherwise (case: x_range). *)
Theorem C84_range : forall a b lo hi, limits_make_sense lo hi ->
  (in_limits a b lo hi -> range_ok a b lo hi = Accepted) /\ (~ in_limits a b lo hi -> range_ok a b lo hi = Refused).
Proof. exact range_ok_l. Qed.
Print Assumptions C84_range.

(** The assertion fails exactly for a range that goes up and limits that do not (case: x_range). *)
Theorem C84_assertion : forall a b lo hi, range_ok a b lo hi = Asserts <-> (a <= b)%Q /\ ~ limits_make_sense lo hi.
Proof. exact assert_l. Qed.
Print Assumptions C84_assertion.
