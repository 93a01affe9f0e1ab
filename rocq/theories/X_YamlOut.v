(** Examples for C84. *)
From Coq Require Import Ascii String QArith.
From Verif Require Import Base M_Text M_YamlOut S_YamlOut L_YamlOut.
Open Scope list_scope.

Definition x_data : list (str * yval) :=
  [(s2l "cpu", YDict [(s2l "min", YNone); (s2l "max", YFloat (7 # 2)); (s2l "sub", YDict [])]); (s2l "gov", YNone); (s2l "list", YList [YNone; YScal (s2l "1")])].
Definition c_skip : ycall := YC x_data (Some (s2l "%.2f")) true.
Definition c_plain : ycall := YC x_data None false.
Definition c_fmt : ycall := YC x_data (Some (s2l "%.2f")) false.

(** The cases of the theorems: calls with and without a format, a float and a None below a key, and a dictionary without any. *)
Example x_yaml : formatted c_fmt (s2l "%.2f") /\ formatted c_skip (s2l "%.2f") /\ unformatted c_plain /\
  at_path (YDict x_data) [Key (s2l "cpu"); Key (s2l "max")] (YFloat (7 # 2)) /\ at_path (YDict x_data) [Key (s2l "cpu"); Key (s2l "min")] YNone /\
  keys_only [Key (s2l "cpu"); Key (s2l "max")] /\ is_scalar (YFloat (7 # 2)) /\
  (forall u, at_path (YDict x_data) [Key (s2l "cpu"); Key (s2l "min")] u -> u = YNone) /\
  at_path (YDict x_data) [Key (s2l "cpu")] (YDict [(s2l "min", YNone); (s2l "max", YFloat (7 # 2)); (s2l "sub", YDict [])]) /\
  keys_with_values [(s2l "min", YNone); (s2l "max", YFloat (7 # 2)); (s2l "sub", YDict [])] [s2l "max"; s2l "sub"].
Proof.
  split; [split; [reflexivity|discriminate]|]. split; [split; [reflexivity|discriminate]|]. split; [intros f (E & _); discriminate E|].
  split; [eapply ap_key; [now left|]; eapply ap_key; [right; now left|constructor]|].
  split; [eapply ap_key; [now left|]; eapply ap_key; [now left|constructor]|].
  split; [repeat constructor; eexists; reflexivity|]. split; [split; intros; discriminate|].
  split.
  - intros u H. inversion H as [|? ? ? ? ? Hi Hp|]; subst. destruct Hi as [E|[E|[E|[]]]]; try discriminate E. injection E as <-.
    inversion Hp as [|? ? ? ? ? Hi Hq|]; subst. destruct Hi as [E|[E|[E|[]]]]; try discriminate E. injection E as <-. now inversion Hq.
  - split; [eapply ap_key; [now left|constructor]|]. constructor. constructor; [discriminate|]. constructor; [discriminate|]. constructor.
Qed.

Lemma list_refuted_l : exists c fmt repr p n, y_skip c = true /\ at_path (YDict (y_data c)) p YNone /\ (exists q k, p = q ++ [Key k]) /\
  node_at (written fmt repr [] c) p n.
Proof.
  exists (YC [(s2l "a", YList [YDict [(s2l "b", YNone)]])] None true), (fun _ _ => []), (fun _ => []), [Key (s2l "a"); Pos 0; Key (s2l "b")], (NScal TNull []).
  split; [reflexivity|]. split; [eapply ap_key; [now left|]; eapply ap_pos; [reflexivity|]; eapply ap_key; [now left|constructor]|].
  split; [now exists [Key (s2l "a"); Pos 0], (s2l "b")|].
  eapply np_key; [now left|]. eapply np_pos; [reflexivity|]. eapply np_key; [now left|constructor].
Qed.

Lemma format_refuted_l : exists before c fmt repr, written fmt repr before c <> written fmt repr [] c.
Proof. exists [c_fmt], c_plain, (fun f _ => f), (fun _ => s2l "3.5"). discriminate. Qed.

Example x_range : in_limits (1 # 1) (2 # 1) (Some (1 # 1)) (Some (3 # 1)) /\ limits_make_sense (Some (1 # 1)) (Some (3 # 1)) /\
  ~ in_limits (1 # 2) (2 # 1) (Some (1 # 1)) None /\ ~ limits_make_sense (Some (3 # 1)) (Some (1 # 1)).
Proof.
  split; [split; [discriminate|split; intros ? [= <-]; discriminate]|]. split; [intros ? ? [= <-] [= <-]; discriminate|].
  split; [intros (_ & H & _); now apply (H _ eq_refl)|intros H; now apply (H _ _ eq_refl eq_refl)].
Qed.
