(** C69: how the value of a property is printed. *)
From Coq Require Import QArith Qabs.
From Verif Require Import Base M_Text M_Human S_Human M_Fmt S_Fmt L_Fmt3 L_Fmt4 X_Fmt.

(** A number is written so that reading it gives the number back to half a percent, other than times of more than 100
    seconds, which are good to a second. *)
Theorem C69_number : forall unit v, base_unit unit -> unit <> s2l "s" \/ (v <= inject_Z 100)%Q ->
  exists t, format_value (PNumb unit v) = Ok (FText t) /\ about unit t v.
Proof. exact number_l. Qed.
Print Assumptions C69_number.

Theorem C69_seconds : forall v, (inject_Z 100 < v)%Q ->
  exists t, format_value (PNumb (s2l "s") v) = Ok (FText t) /\ to_a_second t v.
Proof. exact seconds_l. Qed.
Print Assumptions C69_seconds.

(** Whole numbers of few digits are written exactly. *)
Theorem C69_number_exact : forall unit v, base_unit unit -> short v ->
  exists t, format_value (PNumb unit (inject_Z v)) = Ok (FText t) /\ exactly unit t (inject_Z v).
Proof. exact exact_number_l. Qed.
Print Assumptions C69_number_exact.

(** Every list of numbers is written, and what the text says is the list. *)
Theorem C69_list : forall unit l, base_unit unit -> l <> [] ->
  exists txt, format_value (PNums unit l) = Ok (FText txt) /\ stands (fun t v => about unit t (inject_Z v)) txt l.
Proof. exact list_l. Qed.
Print Assumptions C69_list.

Theorem C69_list_exact : forall unit l, base_unit unit -> l <> [] ->
  Forall short l -> Forall (fun d => d = 0 \/ short d) (differences l) ->
  exists txt, format_value (PNums unit l) = Ok (FText txt) /\ stands (fun t v => exactly unit t (inject_Z v)) txt l.
Proof. exact list_exact_l. Qed.
Print Assumptions C69_list_exact.

(** The text of a list says one list only. *)
Theorem C69_unambiguous : forall unit txt l1 l2,
  stands (fun t v => exactly unit t (inject_Z v)) txt l1 -> stands (fun t v => exactly unit t (inject_Z v)) txt l2 -> l1 = l2.
Proof. exact unambiguous_l. Qed.
Print Assumptions C69_unambiguous.

Theorem C69_same_text : forall unit l1 l2 txt, base_unit unit -> l1 <> [] -> l2 <> [] ->
  Forall short l1 -> Forall (fun d => d = 0 \/ short d) (differences l1) ->
  Forall short l2 -> Forall (fun d => d = 0 \/ short d) (differences l2) ->
  format_value (PNums unit l1) = Ok (FText txt) -> format_value (PNums unit l2) = Ok (FText txt) -> l1 = l2.
Proof. exact same_text_l. Qed.
Print Assumptions C69_same_text.

(** Texts are written as they are, lists of texts and dictionaries one by one. *)
Theorem C69_texts : (forall t, format_value (PText t) = Ok (FText t)) /\
  (forall l, l <> [] -> exists t, format_value (PTexts l) = Ok (FText t) /\ listed l t) /\
  (forall d, d <> [] -> exists t ts, format_value (PDict d) = Ok (FText t) /\ listed ts t /\
     Forall2 (fun x kv => x = fst kv ++ s2l "=" ++ snd kv) ts d).
Proof. exact texts_l. Qed.
Print Assumptions C69_texts.

(** There is a line for every value but an empty dictionary and an empty list of texts. *)
Theorem C69_printed : forall name nums v action prefix, units_ok v ->
  exists o, prop_line name nums (Some v) action prefix = Ok o /\
    (o = None <-> v = PDict [] \/ v = PTexts [] \/ v = PTexts [[]]).
Proof. exact dropped_l. Qed.
Print Assumptions C69_printed.

(** The line is the name, the value and the numbers of the CPUs, the dies or the packages. The value is between quotes only
    if it is a text and there are numbers. *)
Theorem C69_line : forall name nums v action prefix t, prop_line name nums (Some v) action prefix = Ok (Some t) ->
  exists y, (format_value v = Ok (FText y) \/ format_value v = Ok FEmpty /\ y = s2l "()") /\
    t = the_line name nums action prefix (quoted nums v y).
Proof. exact line_l. Qed.
Print Assumptions C69_line.

(** A property that is not supported is said to be so. *)
Theorem C69_unsupported : forall name nums action prefix,
  prop_line name nums None action prefix = Ok (Some (the_line name nums action prefix (s2l "not supported"))).
Proof. exact unsupported_l. Qed.
Print Assumptions C69_unsupported.

(** A latency limit of zero is "no limit" for a CPU and the smallest possible one for all of them. *)
Theorem C69_latency : forall global v, (v <= inject_Z 100)%Q ->
  exists t, format_latency global v = Ok t /\
    ((v == 0)%Q -> t = if global then s2l "0 (absolute minimum)" else s2l "0 (no limit)") /\
    (~ (v == 0)%Q -> about (s2l "s") t v).
Proof. exact latency_l. Qed.
Print Assumptions C69_latency.

Example C69_latency_case : exists t, format_latency true (25 # 1000000) = Ok t /\ about (s2l "s") t (25 # 1000000).
Proof. exact latency_case_l. Qed.

(** A frequency close to its neighbour is not told from it. *)
Theorem C69_same_text_refuted : exists l1 l2 txt, l1 <> l2 /\
  format_value (PNums (s2l "Hz") l1) = Ok (FText txt) /\ format_value (PNums (s2l "Hz") l2) = Ok (FText txt) /\
  txt = s2l "1.00GHz - 1.20GHz with step 100.00MHz, 1.20GHz".
Proof. exact close_l. Qed.
Print Assumptions C69_same_text_refuted.

(** Times above 100 seconds lose their fraction. *)
Theorem C69_seconds_refuted : exists v t, format_value (PNumb (s2l "s") v) = Ok (FText t) /\ ~ about (s2l "s") t v.
Proof. exact truncated_l. Qed.
Print Assumptions C69_seconds_refuted.

(** The empty list of numbers is printed, as "()". *)
Theorem C69_empty_refuted : exists name v t, (v = PNums (s2l "Hz") []) /\
  prop_line name None (Some v) None None = Ok (Some t) /\ t = name ++ s2l ": ()".
Proof. exact empty_l. Qed.
Print Assumptions C69_empty_refuted.

(** The latency limit "0 (no limit)" cannot be given back. *)
Theorem C69_latency_refuted : exists t e, format_latency false 0 = Ok t /\ parse_human t (s2l "s") None false = Exn e.
Proof. exact no_limit_l. Qed.
Print Assumptions C69_latency_refuted.
