(** C57: the output and the exit code of a process with streams of its own (a local process or an SSH
    session), for every interleaving and cutting of its streams and every history of wait() calls.
    C58: the same for a command run in the shared interactive shell of an SSH connection. *)
From Verif Require Import Base M_Text M_Proc S_Proc L_Proc2 L_Proc5 L_Proc6 X_Proc.

(** ** C57 *)

(** Whatever the limits, timeouts and the order in which the output arrives: the text returned by the
    wait() calls is, in order and without gaps, the beginning of what the process printed; once the exit
    code was returned it is everything up to the last line end. *)
Theorem C57_output : forall k open q cs rs e p', k <> IntSh -> stream_items open q -> capturing cs ->
  waits k cs (new_proc open q) = (rs, e, p') -> forall s,
  (exists rest, said s q = got s rs ++ rest) /\
  (forall x, finished rs x -> full_lines_of (said s q) (got s rs)).
Proof. exact output_l. Qed.
Print Assumptions C57_output.

(** wait() returns whole lines; they are the lines between newlines unless there is a "\r". *)
Theorem C57_lines : forall k open q cs rs e p', k <> IntSh -> stream_items open q -> capturing cs ->
  waits k cs (new_proc open q) = (rs, e, p') -> forall s,
  Forall is_line (lines_got s rs) /\ (~ In CR (said s q) -> Forall is_nl_line (lines_got s rs)).
Proof. exact lines_l. Qed.
Print Assumptions C57_lines.

(** Never more lines than asked for. *)
Theorem C57_limits : forall k open q cs rs p c o er x p', k <> IntSh -> stream_items open q -> capturing cs ->
  c_capture c = true ->
  waits k cs (new_proc open q) = (rs, None, p) -> wait k c p = (Ok (o, er, x), p') ->
  (forall n, fst (c_lines c) = Some n -> (List.length o <= n)%nat) /\
  (forall n, snd (c_lines c) = Some n -> (List.length er <= n)%nat).
Proof. exact limits_l. Qed.
Print Assumptions C57_limits.

(** The exit code is the status the system gave; it is returned after both streams ended, and every
    later call returns it again, with no output. *)
Theorem C57_exit : forall k open q cs rs e p' x, k <> IntSh -> stream_items open q -> capturing cs ->
  waits k cs (new_proc open q) = (rs, e, p') ->
  forall rs1 r rs2, rs = rs1 ++ r :: rs2 -> snd r = Some x ->
  (exists c a, In c cs /\ In a (c_passes c) /\ a_status a = Some x) /\
  (forall s, get2 s open = true -> In (Closed s) q) /\
  Forall (eq ([], [], Some x)) rs2.
Proof. exact exit_l. Qed.
Print Assumptions C57_exit.

(** wait() raises only for the limits (0, 0), or "command not found": exit status 127, no line on
    stdout and exactly one line on stderr. *)
Theorem C57_raises : forall k open q cs rs ex p', k <> IntSh -> stream_items open q -> capturing cs ->
  waits k cs (new_proc open q) = (rs, Some ex, p') ->
  ex = EError /\ (exists c, In c cs /\ c_lines c = (Some O, Some O)) \/
  ex = ENotFound /\ (exists c a, In c cs /\ In a (c_passes c) /\ a_status a = Some 127) /\
  full_lines_of (said SOut q) [] /\ (exists l, is_line l /\ full_lines_of (said SErr q) l).
Proof. exact raises_l. Qed.
Print Assumptions C57_raises.

(** After any history, a wait() call that is not held up returns the exit code, unless it is 127. *)
Theorem C57_succeeds : forall k open q cs rs p c x, k <> IntSh -> stream_items open q -> all_closed open q ->
  capturing cs -> waits k cs (new_proc open q) = (rs, None, p) ->
  (forall c' a, In c' cs -> In a (c_passes c') -> a_status a = Some x) ->
  c_capture c = true -> c_zero c = false -> c_lines c = (None, None) -> Forall (prompt x) (c_passes c) ->
  (List.length q <= List.length (c_passes c))%nat -> x <> 127 ->
  exists o er p', wait k c p = (Ok (o, er, Some x), p').
Proof. exact succeeds_l. Qed.
Print Assumptions C57_succeeds.

(** With 'capture_output=False' no lines are returned, by no kind of process. *)
Theorem C57_no_capture : forall k open q cs rs e p', Forall (fun c => c_capture c = false) cs ->
  waits k cs (new_proc open q) = (rs, e, p') -> Forall (fun r => fst r = ([], [])) rs.
Proof. exact no_capture_l. Qed.
Print Assumptions C57_no_capture.
Example C57_no_capture_ex : forall c, c = Call false false (None, None) true (repeat (Pass true true false (Some 3)) 9) true ->
  fst (waits Local [c; c] (new_proc x_open x_q)) = ([([], [], Some 3); ([], [], Some 3)], None).
Proof. intros c ->. vm_compute. reflexivity. Qed.

(** Finding: "once the exit code was returned, all output was returned" is false: a last line without a
    line end is dropped. *)
Theorem C57_last_line_refuted : exists open q cs x, stream_items open q /\ all_closed open q /\ capturing cs /\
  forall k, k <> IntSh -> exists rs p', waits k cs (new_proc open q) = (rs, None, p') /\
    finished rs x /\ got SOut rs <> said SOut q.
Proof. exact last_line_refuted_l. Qed.
Print Assumptions C57_last_line_refuted.

(** Finding: with a "\r" in the output the list of lines depends on how the text was cut into pieces. *)
Theorem C57_lines_refuted : exists open q q' cs, stream_items open q /\ stream_items open q' /\ capturing cs /\
  (forall s, said s q = said s q') /\
  forall k, k <> IntSh -> exists rs rs' p p', waits k cs (new_proc open q) = (rs, None, p) /\
    waits k cs (new_proc open q') = (rs', None, p') /\ finished rs 0 /\ finished rs' 0 /\
    lines_got SOut rs <> lines_got SOut rs'.
Proof. exact lines_refuted_l. Qed.
Print Assumptions C57_lines_refuted.

(** Finding: when the streams end but the process does not exit before the timeout of that call, no
    later call ever returns the exit code. *)
Theorem C57_status_refuted : exists open q cs, stream_items open q /\ all_closed open q /\ capturing cs /\
  forall k, k <> IntSh -> exists rs p, waits k cs (new_proc open q) = (rs, None, p) /\
    forall cs' rs' e p', waits k cs' p = (rs', e, p') -> forall x, ~ finished rs' x.
Proof. exact status_refuted_l. Qed.
Print Assumptions C57_status_refuted.

(** A history that meets the hypotheses: one line, whatever is there, the rest, and once more. *)
Example C57_case : stream_items x_open x_q /\ all_closed x_open x_q /\ capturing x_line_by_line /\
  fst (waits Local x_line_by_line (new_proc x_open x_q)) =
    ([([lf "cpu0"], [lf "warning"], None); ([lf "cpu1"], [], None); ([], [], Some 3); ([], [], Some 3)], None).
Proof.
  split; [apply items_sound; reflexivity|]. split; [apply closed_sound; reflexivity|].
  split; [repeat constructor|]. vm_compute. reflexivity.
Qed.

(** ** C58 *)

(** A command whose output is empty or ends with a newline and does not contain the marker: the PID is
    that of the command; what the wait() calls return is the beginning of what the command printed, never
    a piece of the marker line; the exit code is that of the command, and once it was returned all of
    stdout was returned. *)
Theorem C58_command : forall m pid out e q p0 c v p cs rs ex p',
  good_marker m (pid_text pid out) -> newline_ended out -> 0 <= e -> 0 <= pid ->
  shell_shows m (pid_text pid out) e q -> capturing cs ->
  run_in_intsh m c (set_queue q p0) = (Ok v, p) -> waits IntSh cs p = (rs, ex, p') ->
  v = pid /\
  (exists rest, out = got SOut rs ++ rest) /\ (exists rest, said SErr q = got SErr rs ++ rest) /\
  (forall x, finished rs x -> x = e /\ got SOut rs = out).
Proof. exact command_l. Qed.
Print Assumptions C58_command.

(** wait() raises only for the limits (0, 0), or "command not found": exit code 127, no output, a line
    on stderr. *)
Theorem C58_raises : forall m pid out e q p0 c v p cs rs ex p',
  good_marker m (pid_text pid out) -> newline_ended out -> 0 <= e -> 0 <= pid ->
  shell_shows m (pid_text pid out) e q -> capturing cs ->
  run_in_intsh m c (set_queue q p0) = (Ok v, p) -> waits IntSh cs p = (rs, Some ex, p') ->
  ex = EError /\ (exists c', In c' cs /\ c_lines c' = (Some O, Some O)) \/
  ex = ENotFound /\ e = 127 /\ out = [] /\ exists l rest, is_line l /\ said SErr q = l ++ rest.
Proof. exact i_raises_l. Qed.
Print Assumptions C58_raises.

(** In an environment that does not hold the calls up the PID is read, and one wait() returns the exit
    code, all of stdout and the full lines of stderr. *)
Theorem C58_succeeds : forall m pid out e q p0 c c2 x,
  good_marker m (pid_text pid out) -> newline_ended out -> 0 <= e -> e <> 127 -> 0 <= pid ->
  (List.length (dec pid) <= 128)%nat -> shell_shows m (pid_text pid out) e q ->
  Forall (prompt x) (c_passes c) -> (List.length q <= List.length (c_passes c))%nat ->
  c_capture c2 = true -> c_zero c2 = false -> c_lines c2 = (None, None) -> c_first c2 = true ->
  Forall (prompt x) (c_passes c2) -> (List.length q <= List.length (c_passes c2))%nat ->
  exists p o er p', run_in_intsh m c (set_queue q p0) = (Ok pid, p) /\
    wait IntSh c2 p = (Ok (o, er, Some e), p') /\ concat o = out /\ full_lines_of (said SErr q) (concat er).
Proof. exact i_succeeds_l. Qed.
Print Assumptions C58_succeeds.

(** Finding: the end of a command whose output does not end with a newline may never be noticed. *)
Theorem C58_hang_refuted : exists m pid out e q p0 c p, good_marker m (pid_text pid out) /\
  shell_shows m (pid_text pid out) e q /\ run_in_intsh m c (set_queue q p0) = (Ok pid, p) /\
  forall cs rs ex p', waits IntSh cs p = (rs, ex, p') -> forall x, ~ finished rs x.
Proof. exact hang_refuted_l. Qed.
Print Assumptions C58_hang_refuted.

(** Finding: when the pieces of such an output are cut differently the end is noticed, but the output
    without a newline is dropped. *)
Theorem C58_lost_refuted : exists m pid out e q p0 c p cs rs p', good_marker m (pid_text pid out) /\
  shell_shows m (pid_text pid out) e q /\ capturing cs /\ run_in_intsh m c (set_queue q p0) = (Ok pid, p) /\
  waits IntSh cs p = (rs, None, p') /\ finished rs e /\ got SOut rs <> out.
Proof. exact lost_refuted_l. Qed.
Print Assumptions C58_lost_refuted.

(** Finding: stderr of a command that arrives after the marker is returned as the stderr of the next
    command. *)
Theorem C58_stderr_refuted : exists m pid e q1 m' pid' e' q2 p0 c1 p1 cs1 rs1 p2 c2 p3 cs2 rs2 p4,
  good_marker m (pid_text pid []) /\ shell_shows m (pid_text pid []) e q1 /\
  good_marker m' (pid_text pid' []) /\ shell_shows m' (pid_text pid' []) e' q2 /\
  capturing cs1 /\ capturing cs2 /\
  run_in_intsh m c1 (set_queue q1 p0) = (Ok pid, p1) /\ waits IntSh cs1 p1 = (rs1, None, p2) /\ finished rs1 e /\
  run_in_intsh m' c2 (set_queue (p_queue p2 ++ q2) p2) = (Ok pid', p3) /\ waits IntSh cs2 p3 = (rs2, None, p4) /\
  finished rs2 e' /\
  said SErr q1 <> [] /\ got SErr rs1 = [] /\ said SErr q2 = [] /\ got SErr rs2 = said SErr q1.
Proof. exact stderr_refuted_l. Qed.
Print Assumptions C58_stderr_refuted.

(** Finding: whether a command that does not exist is reported as "not found" or as exit code 127 depends
    on when the error message arrives. *)
Theorem C58_not_found_refuted : exists m pid q p0 c p c1 c2 p1 r p2,
  good_marker m (pid_text pid []) /\ shell_shows m (pid_text pid []) 127 q /\
  c_capture c1 = true /\ c_capture c2 = true /\
  run_in_intsh m c (set_queue q p0) = (Ok pid, p) /\
  wait IntSh c1 p = (Exn ENotFound, p1) /\ wait IntSh c2 p = (Ok r, p2) /\ snd r = Some 127.
Proof. exact not_found_refuted_l. Qed.
Print Assumptions C58_not_found_refuted.

(** A first line that is no number is not taken for the PID. *)
Theorem C58_bogus : forall m ch t out e q p0 c r p, letter ch -> (forall x, In x t -> ~ line_end x) ->
  good_marker m (ch :: t ++ NL :: out) -> newline_ended out -> 0 <= e -> shell_shows m (ch :: t ++ NL :: out) e q ->
  run_in_intsh m c (set_queue q p0) = (r, p) -> forall v, r <> Ok v.
Proof. exact bogus_l. Qed.
Print Assumptions C58_bogus.
Example C58_bogus_ex : letter "f" /\ good_marker x_m (lf "fork: no memory") /\
  shell_shows x_m (lf "fork: no memory") 254 [Data SOut (lf "fork: no memory" ++ marker_line x_m 254)] /\
  fst (run_in_intsh x_m (wait_all 0 7) (set_queue [Data SOut (lf "fork: no memory" ++ marker_line x_m 254)] x_proc)) = Exn EError.
Proof.
  split; [right; cbn; lia|]. split; [apply x_marker_ok; vm_compute; reflexivity|]. split; [|vm_compute; reflexivity].
  split; [cbn; now rewrite ?app_nil_r|]. split; [intros s [H|[]]; discriminate|]. intros s d [[= _ <-]|[]]. discriminate.
Qed.

(** If the shell goes away before the marker comes, wait() fails and does not wait for ever. *)
Theorem C58_closed : forall m q1 s q2 p c x, started m (q1 ++ Closed s :: q2) p -> ~ occurs m (said SOut q1) ->
  c_zero c = false -> c_lines c = (None, None) -> Forall (prompt x) (c_passes c) ->
  (List.length q1 < List.length (c_passes c))%nat -> exists p', wait IntSh c p = (Exn EError, p').
Proof. exact closed_l. Qed.
Print Assumptions C58_closed.
Example C58_closed_ex : good_marker x_m (said SOut [Data SOut (s2l "cpu0"); Data SErr (lf "killed")]) /\
  fst (wait IntSh (wait_all 0 7) (reinit x_m (set_queue [Data SOut (s2l "cpu0"); Data SErr (lf "killed"); Closed SErr; Closed SOut] x_proc))) = Exn EError.
Proof. split; [apply x_marker_ok; vm_compute; reflexivity|]. vm_compute. reflexivity. Qed.

(** A command that meets the hypotheses: the PID, the output and the marker come in pieces, and a line
    of the output begins like the marker. *)
Example C58_case : good_marker x_m (pid_text 417 x_out) /\ newline_ended x_out /\
  shell_shows x_m (pid_text 417 x_out) 12 x_shell /\ Forall (prompt 0) (c_passes (wait_all 0 7)) /\
  exists p, run_in_intsh x_m (wait_all 0 7) (set_queue x_shell x_proc) = (Ok 417, p) /\
    fst (wait IntSh (wait_all 0 7) p) = Ok ([lf "cpu0"; lf "--- not a marker"], [lf "slow"], Some 12).
Proof.
  split; [exact x_good|].
  split; [right; exists (lf "cpu0" ++ s2l "--- not a marker"); vm_compute; reflexivity|].
  split; [exact x_shows|]. split; [repeat constructor|].
  eexists. split; [vm_compute; reflexivity|]. vm_compute. reflexivity.
Qed.
