(** Properties C01 and C02: formatting and parsing of number lists. *)
From Verif Require Import Base L_Base M_Text S_Text L_Text X_Text.

(** C01: formatting a list of non-negative numbers and parsing the text back gives the sorted list:
    the same numbers with the same multiplicities. *)
Theorem C01_round_trip : forall l, Forall (fun n => 0 <= n) l ->
  exists r, parse_int_list "," false [NStr (rangify l)] = Ok r /\
            Permutation l r /\ StronglySorted Z.le r.
Proof. exact rangify_round_trip. Qed.
Print Assumptions C01_round_trip.

Example C01_round_trip_case :
  rangify [8; 3; 1; 2; 7; 100; 7] = s2l "1-3,7,7,8,100" /\
  parse_int_list "," false [NStr (s2l "1-3,7,7,8,100")] = Ok [1; 2; 3; 7; 7; 8; 100].
Proof. vm_compute. split; reflexivity. Qed.

(** With removal of duplicates switched on, a list without duplicates round-trips as well. *)
Theorem C01_round_trip_dedup : forall l, Forall (fun n => 0 <= n) l -> NoDup l ->
  exists r, parse_int_list "," true [NStr (rangify l)] = Ok r /\
            Permutation l r /\ StronglySorted Z.le r.
Proof. exact rangify_round_trip_dedup. Qed.
Print Assumptions C01_round_trip_dedup.

Example C01_round_trip_dedup_case :
  NoDup [8; 3; 1; 2; 7] /\ parse_int_list "," true [NStr (rangify [8; 3; 1; 2; 7])] = Ok [1; 2; 3; 7; 8].
Proof. split; [repeat constructor; cbn; intuition lia|vm_compute; reflexivity]. Qed.

(** The text depends only on the numbers, not on their order... *)
Theorem C01_order_independent : forall l l', Permutation l l' -> rangify l = rangify l'.
Proof. exact rangify_perm. Qed.
Print Assumptions C01_order_independent.

Example C01_order_independent_case : rangify [2; 0; 1; 9] = rangify [9; 2; 1; 0].
Proof. vm_compute. reflexivity. Qed.

(** ... and different numbers have different texts. *)
Theorem C01_injective : forall l l', Forall (fun n => 0 <= n) l -> Forall (fun n => 0 <= n) l' ->
  rangify l = rangify l' -> Permutation l l'.
Proof. exact rangify_inj. Qed.
Print Assumptions C01_injective.

Example C01_injective_case : rangify [2; 0; 1] <> rangify [2; 0].
Proof. vm_compute. discriminate. Qed.

(** Outside the claim: a negative number is formatted into text that is rejected... *)
Theorem C01_negative_refuted :
  exists l, parse_int_list "," false [NStr (rangify l)] = Exn EBadFormat.
Proof. exact C01_negative_refuted_l. Qed.
Print Assumptions C01_negative_refuted.

(** ... or read as different numbers. *)
Theorem C01_negative_range_refuted :
  exists l r, parse_int_list "," false [NStr (rangify l)] = Ok r /\ ~ (forall n, In n l <-> In n r).
Proof. exact C01_negative_range_refuted_l. Qed.
Print Assumptions C01_negative_range_refuted.

(** C02: parsing items written with commas and blanks, given as any number of strings, returns the
    concatenation of what the items mean, in order. *)
Theorem C02_parse : forall chunks its,
  Forall2 written its (concat chunks) -> Forall (fun i => ~ descending i) its ->
  parse_int_list "," false (map (fun c => NStr (commas c)) chunks) = Ok (flat_map meaning its).
Proof. exact parse_chunks_ok. Qed.
Print Assumptions C02_parse.

Example C02_parse_case :
  Forall2 written x_items (concat [x_texts]) /\ Forall (fun i => ~ descending i) x_items /\
  parse_int_list "," false [NStr (commas x_texts)] = Ok [3; 10; 11; 12; 7].
Proof. split; [exact x_written|split; [exact x_ascending|vm_compute; reflexivity]]. Qed.

(** A descending range anywhere in the list is rejected as a format error. *)
Theorem C02_descending : forall chunks its,
  Forall2 written its (concat chunks) -> Exists descending its ->
  parse_int_list "," false (map (fun c => NStr (commas c)) chunks) = Exn EBadFormat.
Proof. exact parse_chunks_bad. Qed.
Print Assumptions C02_descending.

Example C02_descending_case :
  Exists descending [INum 1; IRange 5 3] /\
  parse_int_list "," false [NStr (s2l "1,5-3")] = Exn EBadFormat.
Proof. split; [right; left; cbn; lia|vm_compute; reflexivity]. Qed.

(** Whatever the text, the separator and the flags, the parser never returns a negative number and
    never fails with anything but a format error. *)
Theorem C02_outcome : forall sep dd nums,
  match parse_int_list sep dd nums with
  | Ok r => Forall (fun n => 0 <= n) r
  | Exn e => e = EBadFormat
  end.
Proof. exact parse_outcome. Qed.
Print Assumptions C02_outcome.

Example C02_outcome_case :
  parse_int_list "," false [NStr (s2l "0x1F, -3-+5")] = Ok [31; 3; 4; 5] /\
  parse_int_list "," false [NStr (s2l "1,x")] = Exn EBadFormat.
Proof. vm_compute. split; reflexivity. Qed.

(** Removal of duplicates: the same numbers come out... *)
Theorem C02_dedup_members : forall chunks its,
  Forall2 written its (concat chunks) -> Forall (fun i => ~ descending i) its ->
  exists r, parse_int_list "," true (map (fun c => NStr (commas c)) chunks) = Ok r /\
    forall n, In n r <-> In n (flat_map meaning its).
Proof. exact parse_dedup_members. Qed.
Print Assumptions C02_dedup_members.

(** ... each once, in order of first occurrence, when the list has no ranges.  Missing for the full
    claim: lists with ranges, for which it is false, see below. *)
Theorem C02_dedup_partial : forall chunks its,
  Forall2 written its (concat chunks) -> Forall plain its ->
  parse_int_list "," true (map (fun c => NStr (commas c)) chunks) =
  Ok (firsts [] (flat_map meaning its)).
Proof. exact parse_dedup_plain. Qed.
Print Assumptions C02_dedup_partial.

Example C02_dedup_partial_case :
  parse_int_list "," true [NStr (s2l "4, 1,4 ,2,1")] = Ok [4; 1; 2] /\
  firsts [] [4; 1; 4; 2; 1] = [4; 1; 2].
Proof. vm_compute. split; reflexivity. Qed.

(** When no number is denoted twice, de-duplication changes nothing, ranges or not. *)
Theorem C02_dedup_disjoint : forall chunks its,
  Forall2 written its (concat chunks) -> Forall (fun i => ~ descending i) its ->
  NoDup (flat_map meaning its) ->
  parse_int_list "," true (map (fun c => NStr (commas c)) chunks) = Ok (flat_map meaning its).
Proof. exact parse_dedup_disjoint. Qed.
Print Assumptions C02_dedup_disjoint.

Example C02_dedup_disjoint_case :
  NoDup (flat_map meaning x_items) /\
  parse_int_list "," true [NStr (commas x_texts)] = Ok [3; 10; 11; 12; 7].
Proof. split; [vm_compute; repeat constructor; cbn; intuition discriminate|vm_compute; reflexivity]. Qed.

(** A range that overlaps another item leaves duplicates behind. *)
Theorem C02_dedup_refuted :
  exists its ts r, Forall2 written its ts /\ Forall (fun i => ~ descending i) its /\
    parse_int_list "," true [NStr (commas ts)] = Ok r /\ ~ NoDup r.
Proof. exact C02_dedup_refuted_l. Qed.
Print Assumptions C02_dedup_refuted.
