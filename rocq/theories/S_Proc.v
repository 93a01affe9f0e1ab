(** What the properties about the output and the exit code of a command say: C57, C58. *)
From Verif Require Import Base M_Text M_Proc.

(** The text a process prints to stream 's', when 'q' is all its stream-fetcher threads queue. *)
Definition said (s : sid) (q : list item) : str :=
  flat_map (fun i => match i, s with
                     | Data SOut d, SOut | Data SErr d, SErr => d
                     | _, _ => []
                     end) q.

(** The lines of stream 's' that a series of wait() calls returned, and their text. *)
Definition lines_got (s : sid) (rs : list (list str * list str * option Z)) : list str :=
  flat_map (fun r => get2 s (fst r)) rs.
Definition got (s : sid) (rs : list (list str * list str * option Z)) : str := concat (lines_got s rs).

(** One of the calls reported the exit code. *)
Definition finished (rs : list (list str * list str * option Z)) (x : Z) : Prop :=
  exists r, In r rs /\ snd r = Some x.

(** All the calls are made with 'capture_output=True'. *)
Definition capturing (cs : list call) : Prop := Forall (fun c => c_capture c = true) cs.

Definition of_item (i : item) : sid := match i with Data s _ => s | Closed s => s end.

(** What two stream-fetcher threads can queue: non-empty data of the streams that are pipes; nothing
    of a stream after the end of it. *)
Definition stream_items (open : bool * bool) (q : list item) : Prop :=
  (forall i, In i q -> get2 (of_item i) open = true) /\
  (forall s d, In (Data s d) q -> d <> []) /\
  (forall s q1 q2, q = q1 ++ Closed s :: q2 -> forall i, In i q2 -> of_item i <> s).

(** The streams that are pipes all come to their end. *)
Definition all_closed (open : bool * bool) (q : list item) : Prop :=
  (fst open = true \/ snd open = true) /\
  (forall s, get2 s open = true -> In (Closed s) q).

(** Line ends, and a line: text up to and including its line end. *)
Definition line_end (c : ascii) : Prop := c = NL \/ c = CR.
Definition is_line (l : str) : Prop := exists t c, l = t ++ [c] /\ line_end c /\ ~ In NL t.
Definition is_nl_line (l : str) : Prop := exists t, l = t ++ [NL] /\ ~ In NL t.

(** 'a' is the text up to the last line end of 't'. *)
Definition full_lines_of (t a : str) : Prop :=
  exists b, t = a ++ b /\ (forall c, In c b -> ~ line_end c) /\ (a = [] \/ exists a' c, a = a' ++ [c] /\ line_end c).

(** An environment that does not hold a call up: items are there, the time is not over, the process
    exits with 'x' once its streams are closed. *)
Definition prompt (x : Z) (p : pass) : Prop :=
  a_seen p = true /\ a_there p = true /\ a_late p = false /\ a_status p = Some x.

(** ** The interactive shell *)

(** What the shell prints after the command, SSHProcessManager.py:475:
    printf "%s, %d ---" "<marker>" "$?" *)
Definition marker_line (marker : str) (e : Z) : str := marker ++ s2l ", " ++ dec e ++ s2l " ---".

(** 'part' occurs in 'whole'. *)
Definition occurs (part whole : str) : Prop := exists a b, whole = a ++ part ++ b.

(** The text is empty or ends with a newline. *)
Definition newline_ended (t : str) : Prop := t = [] \/ exists t', t = t' ++ [NL].

(** A command that prints 'out' to stdout and exits with status 'e', as the interactive shell shows it
    when the marker for the command is 'm'. *)
Definition shell_shows (m out : str) (e : Z) (q : list item) : Prop :=
  said SOut q = out ++ marker_line m e /\
  (forall s, ~ In (Closed s) q) /\ (forall s d, In (Data s d) q -> d <> []).

(** A marker the output does not contain. *)
Definition good_marker (m out : str) : Prop := ~ In NL m /\ m <> [] /\ ~ occurs m out.

(** The interactive shell process just after a new command was sent to it. *)
Definition started (m : str) (q : list item) (p : proc) : Prop :=
  exists p0, p = reinit m (set_queue q p0).

(** The command line the shell is sent prints the PID first, SSHProcessManager.py:416-429. *)
Definition pid_text (pid : Z) (out : str) : str := dec pid ++ NL :: out.

Definition letter (c : ascii) : Prop :=
  let n := Z.of_nat (nat_of_ascii c) in 65 <= n <= 90 \/ 97 <= n <= 122.
