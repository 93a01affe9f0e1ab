(** Cases and counterexamples for the operating system and the tools (C82). *)
From Coq Require Import Ascii String.
From Verif Require Import Base M_Text S_Systemd S_Ident M_Tools S_Tools L_Tools.
Open Scope list_scope.

Definition x_q (s : string) : str := [ascii_of_nat 34] ++ s2l s ++ [ascii_of_nat 34].
Definition x_none : str -> res (option str) := fun _ => Ok None.
Definition x_usr : list str := [s2l "# comment"; []; s2l "ID=debian"; s2l "NAME=" ++ x_q "Fedora Linux" ++ [ascii_of_nat 10]; s2l "ID=" ++ x_q "fedora"].
Definition x_e : env := Env x_usr [s2l "ID=ubuntu"] x_none.

Lemma x_id_says : os_says (s2l "ID") (s2l "ID=" ++ x_q "fedora") (s2l "fedora").
Proof. apply parse_line_iff. vm_compute. reflexivity. Qed.

Lemma x_used : file_used x_e x_usr /\ last_says (os_says (s2l "ID")) x_usr (s2l "fedora") /\ last_says (os_says (s2l "NAME")) x_usr (s2l "Fedora Linux").
Proof.
  split; [left; split; [reflexivity|]; intros H; apply (H (s2l "ID") (s2l "ID=debian") (s2l "debian")); [cbn; auto|apply parse_line_iff; vm_compute; reflexivity]|].
  split.
  - exists (firstn 4 x_usr), (s2l "ID=" ++ x_q "fedora"), []. split; [reflexivity|]. split; [apply x_id_says|]. intros l v [].
  - exists (firstn 3 x_usr), (s2l "NAME=" ++ x_q "Fedora Linux" ++ [ascii_of_nat 10]), [s2l "ID=" ++ x_q "fedora"]. split; [reflexivity|].
    split; [apply parse_line_iff; vm_compute; reflexivity|]. intros l v [<-|[]] H. apply parse_line_iff in H. vm_compute in H. discriminate H.
Qed.

Lemma equals_witness : exists e v, e_usr e = [s2l "NAME=" ++ [ascii_of_nat 34] ++ v ++ [ascii_of_nat 34]] /\ fst (get_osname e tools_init) <> Ok v.
Proof. exists (Env [s2l "NAME=" ++ x_q "A=B"] [] x_none), (s2l "A=B"). split; [reflexivity|]. vm_compute. discriminate. Qed.

Lemma single_witness : exists e, e_usr e = [s2l "ID='debian'"] /\ fst (get_osid e tools_init) <> Ok (s2l "debian").
Proof. exists (Env [s2l "ID='debian'"] [] x_none). split; [reflexivity|]. vm_compute. discriminate. Qed.

Lemma etc_witness : exists e v, last_says (os_says (s2l "NAME")) (e_etc e) v /\ fst (get_osname e tools_init) <> Ok v.
Proof.
  exists (Env [s2l "NAME=Generic"] [s2l "NAME=Special"] x_none), (s2l "Special"). split; [|vm_compute; discriminate].
  exists [], (s2l "NAME=Special"), []. split; [reflexivity|]. split; [apply parse_line_iff; vm_compute; reflexivity|]. intros l v [].
Qed.

Lemma search_witness : exists e tool p, fst (check_tool e tool tools_init) = Ok (Found p) /\ t_searches (trun [TCheck e tool; TCheck e tool] tools_init) = 2%nat.
Proof. exists (Env [] [] (fun _ => Ok (Some (s2l "/bin/cat")))), (s2l "cat"), (s2l "/bin/cat"). split; reflexivity. Qed.
