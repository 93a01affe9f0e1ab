(** Concrete cases for the number-list properties. *)
From Verif Require Import Base L_Base M_Text S_Text L_Text.

Lemma x_num n : 0 <= n -> written (INum n) (dec n).
Proof.
  intros Hn. pose proof (W_num n (dec n) [] [] (dec_numeral n Hn)) as H.
  cbn [app] in H. rewrite app_nil_r in H. apply H; constructor.
Qed.

(** " 3, 10 - 12,,7": three items with blanks and an empty one. *)
Definition x_items : list item := [INum 3; IRange 10 12; IEmpty; INum 7].
Definition x_texts : list str := map s2l ["  3"; " 10 - 12"; ""; "7"]%string.

Lemma x_written : Forall2 written x_items x_texts.
Proof.
  assert (B : forall n, 0 <= n -> numeral (dec n) n) by exact dec_numeral.
  repeat constructor.
  - apply (W_num 3 (dec 3) (s2l "  ") []); [apply B; lia|repeat constructor..].
  - apply (W_range 10 12 (dec 10) (dec 12) (s2l " ") (s2l " ") (s2l " ") []);
      [apply B; lia|apply B; lia|repeat constructor..].
  - apply (x_num 7). lia.
Qed.

Lemma x_ascending : Forall (fun i => ~ descending i) x_items.
Proof. repeat constructor; cbn; lia. Qed.

(** Duplicates survive the removal of duplicates when a range overlaps another item. *)
Lemma C02_dedup_refuted_l :
  exists its ts r, Forall2 written its ts /\ Forall (fun i => ~ descending i) its /\
    parse_int_list "," true [NStr (commas ts)] = Ok r /\ ~ NoDup r.
Proof.
  exists [IRange 0 2; INum 1], (map s2l ["0-2"; "1"]%string), [0; 1; 2; 1].
  split; [|split; [|split]].
  - constructor; [|constructor; [|constructor]].
    + apply (W_range 0 2 (dec 0) (dec 2) [] [] [] []); try apply dec_numeral; try lia; constructor.
    + apply (x_num 1). lia.
  - repeat constructor; cbn; lia.
  - vm_compute. reflexivity.
  - intros H. inversion H as [|? ? _ H1]; subst. inversion H1 as [|? ? H2 _]; subst. apply H2. cbn. tauto.
Qed.

(** Negative numbers do not survive the round trip. *)
Lemma C01_negative_refuted_l :
  exists l, parse_int_list "," false [NStr (rangify l)] = Exn EBadFormat.
Proof. exists [-1]. vm_compute. reflexivity. Qed.

(** A negative range is silently read as another, non-negative one. *)
Lemma C01_negative_range_refuted_l :
  exists l r, parse_int_list "," false [NStr (rangify l)] = Ok r /\ ~ (forall n, In n l <-> In n r).
Proof.
  exists [-1; 0; 1; 2; 3], [1; 2; 3]. split; [vm_compute; reflexivity|].
  intros H. destruct (proj1 (H 0)); cbn in *; intuition lia.
Qed.
