(** Property C40: typo suggestions. *)
From Verif Require Import Base L_Base M_Text S_Text L_Text M_Osa S_Osa L_Osa X_Osa.

(** The distance computed is the price of the cheapest way to turn one text into the other. *)
Theorem C40_distance : forall a b d, osa_distance a b = Ok d <-> is_distance a b d.
Proof. exact osa_distance_spec. Qed.
Print Assumptions C40_distance.

Example C40_distance_case :
  osa_distance (s2l "freqeuncy") (s2l "frequency") = Ok 1 /\
  osa_distance (s2l "kitten") (s2l "sitting") = Ok 3.
Proof. vm_compute. split; reflexivity. Qed.

(** C40: it is zero exactly for equal texts... *)
Theorem C40_zero : forall a b, osa_distance a b = Ok 0 <-> a = b.
Proof. exact C40_zero_l. Qed.
Print Assumptions C40_zero.

(** ... and symmetric. *)
Theorem C40_symmetric : forall a b, osa_distance a b = osa_distance b a.
Proof. exact C40_symmetric_l. Qed.
Print Assumptions C40_symmetric.

Example C40_symmetric_case :
  osa_distance (s2l "turbo") (s2l "trubos") = Ok 2 /\ osa_distance (s2l "trubos") (s2l "turbo") = Ok 2.
Proof. vm_compute. split; reflexivity. Qed.

(** C40: the suggestion is one of the options, within the allowed distance, no option is closer, and
    no equally close option precedes it in the list (up to upper and lower case). *)
Theorem C40_suggestion : forall s strings maxd cs r,
  closest_match s strings maxd cs = Ok (Some r) ->
  In r strings /\
  exists d, is_distance (folded cs s) (folded cs r) d /\ d <= maxd /\
    (forall o d', In o strings -> is_distance (folded cs s) (folded cs o) d' -> d <= d') /\
    (forall pre o post, strings = pre ++ o :: post -> is_distance (folded cs s) (folded cs o) d ->
       exists o', In o' (pre ++ [o]) /\ folded cs o' = folded cs r).
Proof. exact C40_suggestion_l. Qed.
Print Assumptions C40_suggestion.

Example C40_suggestion_case :
  closest_match (s2l "PSTATE") (map s2l ["cstates"; "PStates"; "estates"]%string) 2 false
  = Ok (Some (s2l "PStates")).
Proof. vm_compute. reflexivity. Qed.

(** The search always ends with an answer... *)
Theorem C40_total : forall s strings maxd cs, exists r, closest_match s strings maxd cs = Ok r.
Proof. exact C40_total_l. Qed.
Print Assumptions C40_total.

(** ... and the answer is "no suggestion" exactly when no option is within the distance. *)
Theorem C40_none : forall s strings maxd cs, ~ In [] strings ->
  closest_match s strings maxd cs = Ok None <->
  forall o d, In o strings -> is_distance (folded cs s) (folded cs o) d -> maxd < d.
Proof. exact C40_none_l. Qed.
Print Assumptions C40_none.

Example C40_none_case :
  ~ In [] (map s2l ["cstates"; "pstates"]%string) /\
  closest_match (s2l "uncore") (map s2l ["cstates"; "pstates"]%string) 2 false = Ok None.
Proof. split; [cbn; intuition discriminate|vm_compute; reflexivity]. Qed.

(** With an empty option that is false: the empty option can be the closest, and is not returned. *)
Theorem C40_empty_option_refuted : exists s strings maxd cs o d,
  In o strings /\ is_distance (folded cs s) (folded cs o) d /\ d <= maxd /\
  closest_match s strings maxd cs = Ok None.
Proof. exact C40_empty_option_refuted_l. Qed.
Print Assumptions C40_empty_option_refuted.

(** Texts are compared as they are, or up to the case of ASCII letters. *)
Theorem C40_case : forall a b, folded false a = folded false b <-> Forall2 same_letter a b.
Proof. exact C40_case_l. Qed.
Print Assumptions C40_case.

Example C40_case_case : folded false (s2l "EPP-7") = folded false (s2l "epp-7").
Proof. vm_compute. reflexivity. Qed.

(** The distance is not a metric: a detour can be cheaper. *)
Theorem C40_triangle_refuted : exists a b c x y z,
  osa_distance a b = Ok x /\ osa_distance b c = Ok y /\ osa_distance a c = Ok z /\ x + y < z.
Proof. exact C40_triangle_refuted_l. Qed.
Print Assumptions C40_triangle_refuted.
