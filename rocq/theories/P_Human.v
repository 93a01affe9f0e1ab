(** C46: numbers with SI prefixes and units, from text and to text. *)
From Coq Require Import QArith Qabs Lqa.
From Verif Require Import Base M_Text S_Text M_Human S_Human L_Human L_Human2 L_Human3 L_Human4 L_Human5 L_Human6 L_Human7 X_Human.

(** A number followed by a unit is that many of that unit, exactly: in base units, or in the units asked for;
    rounded to an integer only if an integer is asked for. *)
Theorem C46_parse : forall unit base f target tf integer v q sp g t,
  si_unit unit base f -> target_unit target base tf ->
  number v q -> factor base sp g -> spaces t ->
  exists r, parse_human (v ++ sp ++ t) unit target integer = Ok r /\ answer integer r (q * g / tf).
Proof. exact parse_single_l. Qed.
Print Assumptions C46_parse.

(** A number without a unit is in the caller's unit, prefix included. *)
Theorem C46_parse_bare : forall unit base f target tf integer v q,
  si_unit unit base f -> target_unit target base tf -> number v q ->
  exists r, parse_human v unit target integer = Ok r /\ answer integer r (q * f / tf).
Proof. exact parse_bare_l. Qed.
Print Assumptions C46_parse_bare.

(** Times: the sum of their parts. *)
Theorem C46_parse_time : forall unit f target tf integer ps t,
  si_unit unit (s2l "s") f -> target_unit target (s2l "s") tf -> time_parts ps -> spaces t ->
  exists r, parse_human (parts_text ps ++ t) unit target integer = Ok r /\ answer integer r (parts_total ps / tf).
Proof. exact parse_time_l. Qed.
Print Assumptions C46_parse_time.

(** The converse: whatever is accepted is a number, or numbers with units (several for times only), and
    the answer is what they add up to. *)
Theorem C46_parse_meaning : forall hval unit base f target tf integer r,
  si_unit unit base f -> target_unit target base tf -> ~ In "_"%char hval ->
  parse_human hval unit target integer = Ok r ->
  (exists q, number hval q /\ answer integer r (q * f / tf)) \/
  (exists ps t, parts_ok base ps /\ spaces t /\ ((length ps <= 1)%nat \/ base = s2l "s") /\ hval = parts_text ps ++ t /\
     answer integer r (parts_total ps / tf)).
Proof. exact parse_meaning_l. Qed.
Print Assumptions C46_parse_meaning.

(** The text of a value in a unit without a prefix reads back as that value, to half a unit of the last
    printed place. The place is the one of the prefix, which is not larger than the value, or "n". *)
Theorem C46_format : forall v base decp sep strip_zeroes,
  base_unit base -> (decp <= 8)%nat -> white sep ->
  exists txt w p k, num2si v base decp sep strip_zeroes = Ok txt /\ parse_human txt base None false = Ok (HFloat w) /\
    si_prefix p k /\ (((10 # 1) ^ k <= Qabs v)%Q \/ k = -9) /\
    (Qabs (w - v) <= (1 # 2) * (10 # 1) ^ (k - Z.of_nat decp))%Q.
Proof. exact format_l. Qed.
Print Assumptions C46_format.

(** Units with a prefix. Missing: values from 1 to 1000, and values that are 1 to 500 base units, for which
    the claim is false. *)
Theorem C46_format_prefixed_partial : forall v unit base f decp sep strip_zeroes,
  si_unit unit base f -> (decp <= 8)%nat -> white sep ->
  (Qabs v < 1 \/ 1000 # 1 <= Qabs v)%Q -> (Qabs (v * f) < 1 \/ 500 # 1 < Qabs (v * f))%Q ->
  exists txt w p k, num2si v unit decp sep strip_zeroes = Ok txt /\ parse_human txt base None false = Ok (HFloat w) /\
    si_prefix p k /\ (((10 # 1) ^ k <= 2 * Qabs (v * f))%Q \/ k = -9) /\
    (Qabs (w - v * f) <= (1 # 2) * (10 # 1) ^ (k - Z.of_nat decp))%Q.
Proof. exact format_prefixed_l. Qed.
Print Assumptions C46_format_prefixed_partial.

(** 150 MHz is printed as "150.0Hz". *)
Theorem C46_prefixed_refuted : exists v unit base f txt w,
  si_unit unit base f /\ num2si v unit 1 [] false = Ok txt /\
  parse_human txt base None false = Ok (HFloat w) /\ (1 < Qabs (w - v * f))%Q.
Proof. exact C46_prefixed_refuted_l. Qed.
Print Assumptions C46_prefixed_refuted.

(** 2000000 uW is printed as "2.0uW". *)
Theorem C46_prefixed_scaled_refuted : exists v unit base f txt w,
  si_unit unit base f /\ (1000 # 1 <= v)%Q /\
  num2si v unit 1 [] false = Ok txt /\ parse_human txt base None false = Ok (HFloat w) /\ (1 < Qabs (w - v * f))%Q.
Proof. exact C46_prefixed_scaled_refuted_l. Qed.
Print Assumptions C46_prefixed_scaled_refuted.

(** No text at all is accepted, as 0. *)
Theorem C46_blank_refuted : parse_human [] (s2l "Hz") None false = Ok (HFloat 0) /\ forall q, ~ number [] q.
Proof. exact C46_blank_refuted_l. Qed.
Print Assumptions C46_blank_refuted.

(** Durations below a day read back exactly. *)
Theorem C46_duration : forall n, 0 <= n < 86400 -> exists txt w, duration n = Ok txt /\
  parse_human txt (s2l "s") None false = Ok (HFloat w) /\ (w == inject_Z n)%Q.
Proof. exact duration_l. Qed.
Print Assumptions C46_duration.

(** A day and more is printed in a way that is refused: "1 days 1h". *)
Theorem C46_days_refuted : exists n txt, 86400 <= n /\ duration n = Ok txt /\
  parse_human txt (s2l "s") None false = Exn EError.
Proof. exact C46_days_refuted_l. Qed.
Print Assumptions C46_days_refuted.

(** "-1m 5s" is read as -60 + 5 seconds. *)
Theorem C46_negative_refuted : exists n txt w, -86400 < n < 0 /\ duration n = Ok txt /\
  parse_human txt (s2l "s") None false = Ok (HFloat w) /\ ~ (w == inject_Z n)%Q.
Proof. exact C46_negative_refuted_l. Qed.
Print Assumptions C46_negative_refuted.

(** Cases that meet the hypotheses *)
Example C46_parse_case : exists r, parse_human (s2l "2.5" ++ s2l "GHz" ++ []) (s2l "Hz") (Some (s2l "MHz")) true = Ok r /\
  answer true r (inject_Z 25 * (10 # 1) ^ (-1) * (10 # 1) ^ 9 / inject_Z 1000000).
Proof.
  refine (C46_parse _ _ _ (Some (s2l "MHz")) _ _ _ _ _ _ _ hz_unit mhz_unit num_2_5 _ _); [|constructor].
  apply (F_si (s2l "Hz") (s2l "G") 9). cbn. tauto.
Qed.
Example C46_parse_value : parse_human (s2l "2.5GHz") (s2l "Hz") (Some (s2l "MHz")) true = Ok (HInt 2500).
Proof. vm_compute. reflexivity. Qed.
Example C46_parse_bare_case : exists r, parse_human (s2l "2.5") (s2l "MHz") None false = Ok r /\
  answer false r (inject_Z 25 * (10 # 1) ^ (-1) * inject_Z 1000000 / 1).
Proof. refine (C46_parse_bare _ _ _ None 1%Q _ _ _ mhz_unit eq_refl num_2_5). Qed.
Example C46_parse_time_case : exists r, parse_human (s2l "1h 2m") (s2l "us") None true = Ok r /\
  answer true r (parts_total xtime / 1) /\ (parts_total xtime / 1 == inject_Z 3720)%Q.
Proof.
  destruct (C46_parse_time (s2l "us") _ None 1%Q true xtime [] us_unit eq_refl xtime_ok) as (r & E & H); [constructor|].
  exists r. split; [exact E|]. split; [exact H|]. vm_compute. reflexivity.
Qed.
Example C46_parse_meaning_case : exists r, parse_human (s2l "1kB ") (s2l "B") None false = Ok r /\ ~ In "_"%char (s2l "1kB ").
Proof. eexists. split; [vm_compute; reflexivity|]. cbn. intuition discriminate. Qed.
Example C46_format_case : num2si (inject_Z 2345678) (s2l "Hz") 2 (s2l " ") true = Ok (s2l "2.35 MHz").
Proof. vm_compute. reflexivity. Qed.
Example C46_format_prefixed_case : num2si (inject_Z 1999) (s2l "uW") 3 (s2l " ") false = Ok (s2l "1.999 mW").
Proof. vm_compute. reflexivity. Qed.
Example C46_duration_case : duration 3661 = Ok (s2l "1h 1m 1s").
Proof. vm_compute. reflexivity. Qed.
