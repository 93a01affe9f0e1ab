(** Examples for C83. *)
From Coq Require Import Ascii String Lia QArith.
From Verif Require Import Base M_Text M_Human M_Osa S_Systemd S_Ident M_Words S_Words L_Words.
Open Scope list_scope.

Ltac tight_ok := split; [intros ? ? [= <- <-]; reflexivity|intros ? ? E; apply (f_equal (fun l => hd "a"%char (rev l))) in E; rewrite rev_app_distr in E; cbn in E; subst; reflexivity].
Ltac not_in := cbn; intuition discriminate.

Definition rng_us : str := s2l " 500us - 1ms"%string.
Definition rng_close : str := s2l "1.2s-1.4s"%string.

Lemma x_pair_us : pair_text "-" (s2l "500us") (s2l "1ms") rng_us.
Proof.
  split; [not_in|]. split; [not_in|]. split; [tight_ok|]. split; [tight_ok|]. split; [discriminate|]. split; [discriminate|]. split; [reflexivity|].
  exists (s2l " "), (s2l " "), (s2l " "), []. repeat split; repeat constructor.
Qed.
Lemma x_pair_close : pair_text "-" (s2l "1.2s") (s2l "1.4s") rng_close.
Proof.
  split; [not_in|]. split; [not_in|]. split; [tight_ok|]. split; [tight_ok|]. split; [discriminate|]. split; [discriminate|]. split; [reflexivity|].
  exists [], [], [], []. repeat split; repeat constructor.
Qed.

(** The hypotheses of C83_range are met. *)
Example x_range : exists a b, pair_text "-" (s2l "500us") (s2l "1ms") rng_us /\
  parse_human (s2l "500us") (s2l "s") (Some (s2l "us")) true = Ok a /\ parse_human (s2l "1ms") (s2l "s") (Some (s2l "us")) true = Ok b /\ less a b /\
  parse_human_range rng_us (s2l "s") (Some (s2l "us")) true "-" = Ok (HInt 500, HInt 1000).
Proof.
  exists (HInt 500), (HInt 1000). split; [exact x_pair_us|]. split; [vm_compute; reflexivity|]. split; [vm_compute; reflexivity|].
  split; [exists (inject_Z 500), (inject_Z 1000); now repeat split|vm_compute; reflexivity].
Qed.

(** Hypotheses of C83_first_letter and of C83_left_alone. *)
Example x_words : (first_word (s2l "Turbo mode") (s2l "Turbo") (s2l " mode") /\ ordinary (s2l "Turbo") /\ uncapitalize (s2l "Turbo mode") = s2l "turbo mode") /\
  (first_word (s2l "C-state limit") (s2l "C") (s2l "-state limit") /\ ~ ordinary (s2l "C")) /\
  (first_word (s2l "EPP policy") (s2l "EPP") (s2l " policy") /\ ~ ordinary (s2l "EPP")).
Proof.
  split; [|split].
  - split; [|split; [|reflexivity]].
    + split; [reflexivity|]. split; [not_in|]. split; [not_in|]. right. exists (s2l "mode"). now left.
    + exists "T"%char, "u"%char, (s2l "rbo"). split; [reflexivity|]. unfold lower_case, upper_case, a_digit, between. cbn.
      split; [lia|]. split; [lia|]. repeat constructor; cbn; lia.
  - split.
    + split; [reflexivity|]. split; [not_in|]. split; [not_in|]. right. exists (s2l "state limit"). now right.
    + intros (? & ? & ? & E & _). discriminate E.
  - split.
    + split; [reflexivity|]. split; [not_in|]. split; [not_in|]. right. exists (s2l "policy"). now left.
    + intros (? & ? & ? & [= <- <- <-] & _ & H & _). apply H. unfold upper_case, between. cbn. lia.
Qed.

Lemma rounded_refuted_l : exists rng x y unit target a b, pair_text "-" x y rng /\
  parse_human x unit target false = Ok a /\ parse_human y unit target false = Ok b /\ less a b /\ parse_human_range rng unit target true "-" = Exn EError.
Proof.
  exists rng_close, (s2l "1.2s"), (s2l "1.4s"), (s2l "s"), (Some (s2l "s")), (HFloat (12 # 10)), (HFloat (14 # 10)).
  split; [exact x_pair_close|]. split; [vm_compute; reflexivity|]. split; [vm_compute; reflexivity|].
  split; [exists (12 # 10)%Q, (14 # 10)%Q; now repeat split|vm_compute; reflexivity].
Qed.

Lemma docstring_refuted_l :
  parse_human_range (s2l "500us - 1ms") (s2l "s") (Some (s2l "ms")) true "-" = Ok (HInt 0, HInt 1) /\ ~ value_of (HInt 0) (1 # 2).
Proof. split; [vm_compute; reflexivity|discriminate]. Qed.

Lemma digits_refuted_l : exists w rest c, ~ In " "%char w /\ In c w /\ a_digit c /\ (exists t, rest = " "%char :: t) /\ uncapitalize (w ++ rest) <> w ++ rest.
Proof.
  exists (s2l "Turbo-3"), (s2l " mode"), "3"%char. split; [not_in|]. split; [cbn; tauto|]. split; [unfold a_digit, between; cbn; lia|].
  split; [now exists (s2l "mode")|discriminate].
Qed.
