(** Examples and counterexamples for how values are written. *)
From Coq Require Import QArith Qabs Lqa.
From Verif Require Import Base M_Text M_Human S_Human M_Fmt S_Fmt L_Fmt3.

Lemma hz_unit : base_unit (s2l "Hz").
Proof. cbn. tauto. Qed.

(** The frequencies of a CPU, with the turbo activation ratio 1 MHz above the base frequency. *)
Lemma close_l : exists l1 l2 txt, l1 <> l2 /\
  format_value (PNums (s2l "Hz") l1) = Ok (FText txt) /\ format_value (PNums (s2l "Hz") l2) = Ok (FText txt) /\
  txt = s2l "1.00GHz - 1.20GHz with step 100.00MHz, 1.20GHz".
Proof.
  exists [1000000000; 1100000000; 1200000000; 1201000000], [1000000000; 1100000000; 1200000000; 1202000000].
  eexists. split; [discriminate|]. split; [vm_compute; reflexivity|]. split; vm_compute; reflexivity.
Qed.

Lemma truncated_l : exists v t, format_value (PNumb (s2l "s") v) = Ok (FText t) /\ ~ about (s2l "s") t v.
Proof.
  exists (1009 # 10)%Q, (s2l "100s"). split; [vm_compute; reflexivity|]. intros (_ & w & E & H).
  vm_compute in E. injection E as <-. destruct H as [H|H]; vm_compute in H; now apply H.
Qed.

Lemma empty_l : exists name v t, (v = PNums (s2l "Hz") []) /\ prop_line name None (Some v) None None = Ok (Some t) /\ t = name ++ s2l ": ()".
Proof. exists (s2l "Bus clock speeds"), (PNums (s2l "Hz") []). eexists. split; [reflexivity|]. split; vm_compute; reflexivity. Qed.

Lemma no_limit_l : exists t e, format_latency false 0 = Ok t /\ parse_human t (s2l "s") None false = Exn e.
Proof. eexists. eexists. split; [reflexivity|]. vm_compute. reflexivity. Qed.

Example short_freqs : Forall short [800000000; 900000000; 1000000000; 1100000000].
Proof.
  repeat (apply Forall_cons; [split; [lia|]|]); [| | | |constructor]; right.
  - exists 6. split; [cbn; tauto|]. split; [lia|]. exists 80000. reflexivity.
  - exists 6. split; [cbn; tauto|]. split; [lia|]. exists 90000. reflexivity.
  - exists 9. split; [cbn; tauto|]. split; [lia|]. exists 100. reflexivity.
  - exists 9. split; [cbn; tauto|]. split; [lia|]. exists 110. reflexivity.
Qed.
Example short_steps : Forall (fun d => d = 0 \/ short d) (differences [800000000; 900000000; 1000000000; 1100000000]).
Proof.
  cbn [differences]. repeat (apply Forall_cons; [right; split; [cbn; lia|right; exists 6; split; [cbn; tauto|split; [cbn; lia|exists 10000; reflexivity]]]|]). constructor.
Qed.
Example steps_text : format_value (PNums (s2l "Hz") [800000000; 900000000; 1000000000; 1100000000]) =
  Ok (FText (s2l "800.00MHz - 1.10GHz with step 100.00MHz")).
Proof. vm_compute. reflexivity. Qed.
Example each_text : format_value (PNums (s2l "Hz") [800000000; 900000000; 1000000000]) =
  Ok (FText (s2l "800.00MHz, 900.00MHz, 1.00GHz")).
Proof. vm_compute. reflexivity. Qed.
Example steps_stand : stands (fun t v => exactly (s2l "Hz") t (inject_Z v)) (s2l "800.00MHz - 1.10GHz with step 100.00MHz")
  [800000000; 900000000; 1000000000; 1100000000].
Proof.
  destruct (list_exact_l (s2l "Hz") [800000000; 900000000; 1000000000; 1100000000] hz_unit ltac:(discriminate) short_freqs short_steps) as (t & E & S).
  rewrite steps_text in E. injection E as <-. exact S.
Qed.
Example number_text : format_value (PNumb (s2l "W") (2505 # 10)%Q) = Ok (FText (s2l "250.50W")).
Proof. vm_compute. reflexivity. Qed.
Example seconds_text : format_value (PNumb (s2l "s") (2505 # 10)%Q) = Ok (FText (s2l "250s")).
Proof. vm_compute. reflexivity. Qed.
Example line_text : prop_line (s2l "Governor") (Some (s2l "CPUs 0-3 (all CPUs)")) (Some (PText (s2l "powersave"))) (Some (s2l "set to")) None =
  Ok (Some (s2l "Governor: set to 'powersave' for CPUs 0-3 (all CPUs)")).
Proof. vm_compute. reflexivity. Qed.
Example dropped_line : prop_line (s2l "EPP modes") None (Some (PTexts [])) None None = Ok None.
Proof. vm_compute. reflexivity. Qed.
