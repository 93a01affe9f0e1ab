(** C83: ranges of numbers with units, and first letters. *)
From Coq Require Import Ascii String QArith.
From Verif Require Import Base M_Text M_Human S_Systemd S_Ident M_Words S_Words L_Words X_Words.
Open Scope list_scope.

(** Two numbers with a separator between them, and any white space, are a range exactly if the first one is less; the range is what the two say (case: x_range). *)
Theorem C83_range : forall sep x y rng unit target integer a b, pair_text sep x y rng ->
  parse_human x unit target integer = Ok a -> parse_human y unit target integer = Ok b ->
  (less a b -> parse_human_range rng unit target integer sep = Ok (a, b)) /\ (~ less a b -> parse_human_range rng unit target integer sep = Exn EError).
Proof. exact range_ok_l. Qed.
Print Assumptions C83_range.

(** Whatever the text, a range that is returned goes up (case: x_range). *)
Theorem C83_goes_up : forall rng unit target integer sep a b, parse_human_range rng unit target integer sep = Ok (a, b) -> less a b.
Proof. intros rng unit target integer sep a b H. exact (proj1 (range_sound_l _ _ _ _ _ _ _ H)). Qed.
Print Assumptions C83_goes_up.

(** A number that cannot be understood makes the range fail the same way (case: x_range, of the texts). *)
Theorem C83_bad_number : forall sep x y rng unit target integer e, pair_text sep x y rng ->
  (parse_human x unit target integer = Exn e -> parse_human_range rng unit target integer sep = Exn e) /\
  (forall a, parse_human x unit target integer = Ok a -> parse_human y unit target integer = Exn e -> parse_human_range rng unit target integer sep = Exn e).
Proof. exact range_bad_l. Qed.
Print Assumptions C83_bad_number.

(** One text or three are no range (case: texts without the separator). *)
Theorem C83_two_numbers : forall sep unit target integer,
  (forall rng, ~ In sep rng -> parse_human_range rng unit target integer sep = Exn EError) /\
  (forall x y z, ~ In sep x -> ~ In sep y -> ~ In sep z -> x <> [] -> y <> [] -> z <> [] ->
     parse_human_range (x ++ sep :: y ++ sep :: z) unit target integer sep = Exn EError).
Proof. intros sep unit target integer. split; [intros rng; apply range_one_l|intros x y z; apply range_three_l]. Qed.
Print Assumptions C83_two_numbers.

(** Refuted: a range of two numbers of which the first is less is accepted. With rounding, which is the default, it is refused if both round to the same. *)
Theorem C83_rounded_refuted : exists rng x y unit target a b, pair_text "-" x y rng /\
  parse_human x unit target false = Ok a /\ parse_human y unit target false = Ok b /\ less a b /\ parse_human_range rng unit target true "-" = Exn EError.
Proof. exact rounded_refuted_l. Qed.
Print Assumptions C83_rounded_refuted.

(** Refuted: the example of the description, that '500us - 1ms' with rounding is 0.5 to 1; it is 0 to 1. *)
Theorem C83_docstring_refuted :
  parse_human_range (s2l "500us - 1ms") (s2l "s") (Some (s2l "ms")) true "-" = Ok (HInt 0, HInt 1) /\ ~ value_of (HInt 0) (1 # 2).
Proof. exact docstring_refuted_l. Qed.
Print Assumptions C83_docstring_refuted.

(** The first letter of an ordinary first word becomes a lower case one, and nothing else changes (case: x_words). *)
Theorem C83_first_letter : forall c s w rest, first_word (c :: s) w rest -> ordinary w -> exists d, lowered c d /\ uncapitalize (c :: s) = d :: s.
Proof. exact ordinary_l. Qed.
Print Assumptions C83_first_letter.

(** A sentence with any other first word stays as it is (case: x_words). *)
Theorem C83_left_alone : forall s w rest, first_word s w rest -> ~ ordinary w -> uncapitalize s = s.
Proof. exact unchanged_l. Qed.
Print Assumptions C83_left_alone.

(** Every sentence has a first word, so that one of the two applies. *)
Theorem C83_has_word : forall s, exists w rest, first_word s w rest.
Proof. exact has_first_word. Qed.
Print Assumptions C83_has_word.

(** Doing it again changes nothing. *)
Theorem C83_again : forall s, uncapitalize (uncapitalize s) = uncapitalize s.
Proof. exact idempotent_l. Qed.
Print Assumptions C83_again.

(** Refuted: words with digits are left alone. The digits after a hyphen are not looked at. *)
Theorem C83_digits_refuted : exists w rest c, ~ In " "%char w /\ In c w /\ a_digit c /\ (exists t, rest = " "%char :: t) /\ uncapitalize (w ++ rest) <> w ++ rest.
Proof. exact digits_refuted_l. Qed.
Print Assumptions C83_digits_refuted.
