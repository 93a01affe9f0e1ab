(** C82: the operating system and the tools. *)
From Coq Require Import Ascii String.
From Verif Require Import Base M_Text S_Systemd S_Ident M_Tools S_Tools L_Tools X_Tools.
Open Scope list_scope.

(** The OS ID is what the last 'ID' line of the file that counts says, and unknown if there is none (case: x_os). *)
Theorem C82_id : forall e f, file_used e f ->
  (forall v, last_says (os_says (s2l "ID")) f v -> fst (get_osid e tools_init) = Ok v) /\
  (none_says (os_says (s2l "ID")) f -> fst (get_osid e tools_init) = Ok (s2l "<unknown_OS_ID>")).
Proof. exact osid_l. Qed.
Print Assumptions C82_id.

(** The OS name is what the last 'NAME' line says; without one it is the ID with a capital letter, and without an ID unknown (case: x_os). *)
Theorem C82_name : forall e f, file_used e f ->
  (forall v, last_says (os_says (s2l "NAME")) f v -> fst (get_osname e tools_init) = Ok v) /\
  (none_says (os_says (s2l "NAME")) f -> forall v, last_says (os_says (s2l "ID")) f v -> exists n, fst (get_osname e tools_init) = Ok n /\ capital v n) /\
  (none_says (os_says (s2l "NAME")) f -> none_says (os_says (s2l "ID")) f -> fst (get_osname e tools_init) = Ok (s2l "<unknown_OS_NAME>")).
Proof. exact osname_l. Qed.
Print Assumptions C82_name.

Example x_os : file_used x_e x_usr /\ last_says (os_says (s2l "ID")) x_usr (s2l "fedora") /\ last_says (os_says (s2l "NAME")) x_usr (s2l "Fedora Linux") /\
  fst (get_osid x_e tools_init) = Ok (s2l "fedora") /\ fst (get_osname x_e tools_init) = Ok (s2l "Fedora Linux") /\
  fst (get_osname (Env [] [s2l "ID=ubuntu"] x_none) tools_init) = Ok (s2l "Ubuntu").
Proof. destruct x_used as (H1 & H2 & H3). split; [exact H1|]. split; [exact H2|]. split; [exact H3|]. repeat split; vm_compute; reflexivity. Qed.

(** Once the OS ID is known, it stays, whatever is called and whatever becomes of the files (case: x_stays). *)
Theorem C82_remembered : forall ops e v ops' e', let s := trun ops tools_init in
  fst (get_osid e s) = Ok v -> v <> s2l "<unknown_OS_ID>" -> fst (get_osid e' (trun ops' (snd (get_osid e s)))) = Ok v.
Proof. exact remembered_l. Qed.
Print Assumptions C82_remembered.

Example x_stays : fst (get_osid x_e (trun [TId (Env [] [] x_none)] tools_init)) = Ok (s2l "fedora") /\
  fst (get_osid (Env [s2l "ID=rhel"] [] x_none) (trun [TId (Env [] [] x_none); TName x_e] tools_init)) = Ok (s2l "fedora").
Proof. split; vm_compute; reflexivity. Qed.

(** In every state of the object, a tool that is there is found where it is (case: x_tool). *)
Theorem C82_found : forall s e tool p, e_which e tool = Ok (Some p) -> fst (check_tool e tool s) = Ok (Found p).
Proof. exact found_l. Qed.
Print Assumptions C82_found.

(** An error of the search is not hidden (case: x_tool). *)
Theorem C82_search_fails : forall s e tool x, e_which e tool = Exn x -> fst (check_tool e tool s) = Exn x.
Proof. exact search_fails_l. Qed.
Print Assumptions C82_search_fails.

(** For a tool that is not there the package that has it on this operating system is suggested, and none if it is not known (case: x_tool). *)
Theorem C82_missing : forall s e tool name os, e_which e tool = Ok None -> file_name tool name -> fst (get_osid e s) = Ok os ->
  (forall pkg, package_of os name pkg -> exists osname, fst (get_osname e s) = Ok osname /\ fst (check_tool e tool s) = Ok (Missing (Some (osname, pkg)))) /\
  ((forall pkg, ~ package_of os name pkg) -> fst (check_tool e tool s) = Ok (Missing None)).
Proof. exact missing_l. Qed.
Print Assumptions C82_missing.

(** The package of every tool on every operating system (case: x_tool). *)
Theorem C82_package : forall tool os pkg, tool_to_pkg tool os = Some pkg <-> package_of os tool pkg.
Proof. exact pkg_iff. Qed.
Print Assumptions C82_package.

Example x_tool : file_name (s2l "/usr/sbin/tc") (s2l "tc") /\ package_of (s2l "fedora") (s2l "tc") (s2l "iproute-tc") /\
  fst (check_tool x_e (s2l "/usr/sbin/tc") tools_init) = Ok (Missing (Some (s2l "Fedora Linux", s2l "iproute-tc"))) /\
  fst (check_tool x_e (s2l "nothing") tools_init) = Ok (Missing None) /\
  fst (check_tool (Env [] [] (fun t => if str_eqb t (s2l "cat") then Ok (Some (s2l "/bin/cat")) else Exn EError)) (s2l "cat") tools_init) = Ok (Found (s2l "/bin/cat")).
Proof.
  split; [split; [cbn; intros [H|[H|[]]]; discriminate H|]; right; exists (s2l "/usr/sbin"); reflexivity|].
  split; [apply pkg_iff; vm_compute; reflexivity|]. repeat split; vm_compute; reflexivity.
Qed.

(** FINDING: a line whose value has an equals sign in it is dropped. *)
Theorem C82_equals_refuted : exists e v, e_usr e = [s2l "NAME=" ++ [ascii_of_nat 34] ++ v ++ [ascii_of_nat 34]] /\ fst (get_osname e tools_init) <> Ok v.
Proof. exact equals_witness. Qed.
Print Assumptions C82_equals_refuted.

(** FINDING: single quotes, which the format of the file has, are kept in the value. *)
Theorem C82_single_quotes_refuted : exists e, e_usr e = [s2l "ID='debian'"] /\ fst (get_osid e tools_init) <> Ok (s2l "debian").
Proof. exact single_witness. Qed.
Print Assumptions C82_single_quotes_refuted.

(** FINDING: '/etc/os-release', which should have precedence and which the documentation of the functions names, does not count if there is the other file. *)
Theorem C82_etc_refuted : exists e v, last_says (os_says (s2l "NAME")) (e_etc e) v /\ fst (get_osname e tools_init) <> Ok v.
Proof. exact etc_witness. Qed.
Print Assumptions C82_etc_refuted.

(** FINDING: a tool that was found is searched for again: the cache is filled and never used. *)
Theorem C82_search_once_refuted : exists e tool p, fst (check_tool e tool tools_init) = Ok (Found p) /\
  t_searches (trun [TCheck e tool; TCheck e tool] tools_init) = 2%nat.
Proof. exact search_witness. Qed.
Print Assumptions C82_search_once_refuted.
