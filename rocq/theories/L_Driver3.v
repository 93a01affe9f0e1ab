(** Blank lines in "/proc/modules" (C75). *)
From Coq Require Import Ascii String.
From Verif Require Import Base M_Text M_Human M_CFreq M_Remote M_Driver S_Systemd S_Driver L_Human4 L_Remote L_Driver L_Driver2.
Open Scope list_scope.
Open Scope Z_scope.

Lemma find_blank n b l2 : S_Systemd.spaces b -> forall l1, find_module n (l1 ++ b :: l2) = find_module n (l1 ++ l2).
Proof.
  intros Hb. assert (E : strip b = []) by now apply strip_nil.
  induction l1 as [|l l1 IH]; cbn [app find_module]; [now rewrite E|].
  destruct (strip l) as [|c s]; [exact IH|]. destruct (words (c :: s)) as [|m [|size [|cnt [|x more]]]]; try reflexivity.
  now rewrite IH.
Qed.

Lemma blank_lines_l {W} (h h' : host W) n w l1 b l2 : Forall one_line (l1 ++ b :: l2) -> S_Systemd.spaces b ->
  h_modules h w = Ok (text_of (l1 ++ b :: l2)) -> h_modules h' w = Ok (text_of (l1 ++ l2)) -> is_loaded h n w = is_loaded h' n w.
Proof.
  intros Hl Hb E E'. unfold is_loaded, get_usage_count, reads, mbind. rewrite E, E'. cbn [rbind].
  unfold text_of. change newline with nl.
  assert (H2 : Forall one_line (l1 ++ l2)).
  { apply Forall_app in Hl as [H1 H2]. inversion H2; subst. now apply Forall_app. }
  rewrite (splitlines_concat _ Hl), (splitlines_concat _ H2). now rewrite find_blank.
Qed.
