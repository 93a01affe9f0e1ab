(** Model of how a process object of pepclibs/helperlibs collects the output and the exit code of a
    command: _ProcessManagerBase.py (ProcessBase), LocalProcessManager.py (LocalProcess) and
    SSHProcessManager.py (SSHProcess, both a separate session and the interactive shell).

    The stream-fetcher threads and the clock are the environment.  '_queue' of the model is the whole
    sequence of items the two threads ever put into the queue; at every read of the queue the
    environment decides whether the next item is already there.  At every pass of a wait loop it also
    decides whether the time is over and what the process status is.

    Simplifications: text is ASCII (the fetcher decodes UTF-8 before it queues an item); the
    'output_fobjs' echo and the 'join' argument are left out (the lists of lines are returned, joining
    them is "".join()); 'lines' limits are natural numbers, because wait() rejects all else
    (_ProcessManagerBase.py:267-273). *)
From Verif Require Import Base M_Text.

Definition NL : ascii := "010"%char.
Definition CR : ascii := "013"%char.

(** stdout is stream 0, stderr is stream 1. *)
Inductive sid := SOut | SErr.

Definition get2 {A} (s : sid) (p : A * A) : A := match s with SOut => fst p | SErr => snd p end.
Definition set2 {A} (s : sid) (x : A) (p : A * A) : A * A :=
  match s with SOut => (x, snd p) | SErr => (fst p, x) end.

(** One item of the queue, _ProcessManagerBase.py:131, 136: data of a stream, or the end of it. *)
Inductive item := Data (s : sid) (d : str) | Closed (s : sid).

(** ** Lines *)

(** The matches of ".*\n": 'cur' is the line read so far, reversed. *)
Fixpoint nl_lines (cur t : str) : list str * str :=
  match t with
  | [] => ([], rev cur)
  | c :: t' =>
      if Ascii.eqb c NL then
        let (full, rest) := nl_lines [] t' in (rev (c :: cur) :: full, rest)
      else nl_lines (c :: cur) t'
  end.

(** Greedy ".*\r" on a text without "\n": up to the last "\r". *)
Fixpoint last_cr (t : str) : option (str * str) :=
  match t with
  | [] => None
  | c :: t' =>
      match last_cr t' with
      | Some (a, b) => Some (c :: a, b)
      | None => if Ascii.eqb c CR then Some ([c], t') else None
      end
  end.

(** _ProcessManagerBase.py:55-68 extract_full_lines(): the regex is "(.*[\n\r])|(.+$)", "." matches
    anything but "\n". *)
Definition extract_full_lines (text : str) : list str * str :=
  let (full, rest) := nl_lines [] text in
  match last_cr rest with
  | Some (a, b) => (full ++ [a], b)
  | None => (full, rest)
  end.

(** The 'lines' argument of wait(). *)
Definition limits := (option nat * option nat)%type.

(** _ProcessManagerBase.py:70-76 have_enough_lines() *)
Definition enough1 (l : list str) (lim : option nat) : bool :=
  match lim with
  | Some (S n) => Nat.leb (S n) (List.length l)
  | _ => false
  end.

Definition have_enough_lines (output : list str * list str) (lines : limits) : bool :=
  enough1 (fst output) (fst lines) || enough1 (snd output) (snd lines).

(** ** The process object *)

(** The attributes of ProcessBase and SSHProcess: 'exitcode', '_output', '_partial', '_lines_cnt',
    whether '_streams' are open, '_queue', '_ll', '_check_ll' and '_marker'. *)
Record proc := Proc {
  p_exit : option Z;
  p_out : list str * list str;
  p_partial : str * str;
  p_cnt : Z * Z;
  p_open : bool * bool;
  p_queue : list item;
  p_ll : str;
  p_check : bool;
  p_marker : str }.

(** _ProcessManagerBase.py:389-447 and SSHProcessManager.py:374-392: a new process object; 'open'
    tells which of stdout and stderr are pipes, 'q' is all the process is going to print. *)
Definition new_proc (open : bool * bool) (q : list item) : proc :=
  Proc None ([], []) ([], []) (0, 0) open q [] true [].

Definition set_exit (x : option Z) (p : proc) : proc :=
  Proc x (p_out p) (p_partial p) (p_cnt p) (p_open p) (p_queue p) (p_ll p) (p_check p) (p_marker p).
Definition set_out (x : list str * list str) (p : proc) : proc :=
  Proc (p_exit p) x (p_partial p) (p_cnt p) (p_open p) (p_queue p) (p_ll p) (p_check p) (p_marker p).
Definition set_cnt (x : Z * Z) (p : proc) : proc :=
  Proc (p_exit p) (p_out p) (p_partial p) x (p_open p) (p_queue p) (p_ll p) (p_check p) (p_marker p).
Definition set_open (x : bool * bool) (p : proc) : proc :=
  Proc (p_exit p) (p_out p) (p_partial p) (p_cnt p) x (p_queue p) (p_ll p) (p_check p) (p_marker p).
Definition set_queue (x : list item) (p : proc) : proc :=
  Proc (p_exit p) (p_out p) (p_partial p) (p_cnt p) (p_open p) x (p_ll p) (p_check p) (p_marker p).
Definition set_ll (x : str) (c : bool) (p : proc) : proc :=
  Proc (p_exit p) (p_out p) (p_partial p) (p_cnt p) (p_open p) (p_queue p) x c (p_marker p).

(** _ProcessManagerBase.py:139-154 _get_next_queue_item(): 'None' stands for (-1, None); 'there' tells
    whether an item comes before the timeout. *)
Definition get_next_queue_item (there : bool) (p : proc) : option item * proc :=
  match p_queue p with
  | i :: q => if there then (Some i, set_queue q p) else (None, p)
  | [] => (None, p)
  end.

(** self._queue.empty(): 'seen' tells whether the next item has been queued already. *)
Definition queue_empty (seen : bool) (p : proc) : bool :=
  match p_queue p with
  | [] => true
  | _ => negb seen
  end.

(** _ProcessManagerBase.py:156-180 _handle_queue_item() *)
Definition handle_queue_item (s : sid) (d : str) (capture : bool) (p : proc) : proc :=
  let (full, rest) := extract_full_lines (get2 s (p_partial p) ++ d) in
  Proc (p_exit p)
       (if capture then set2 s (get2 s (p_out p) ++ filter nonemptyb full) (p_out p) else p_out p)
       (set2 s rest (p_partial p))
       (set2 s (get2 s (p_cnt p) + Z.of_nat (List.length full)) (p_cnt p))
       (p_open p) (p_queue p) (p_ll p) (p_check p) (p_marker p).

(** _ProcessManagerBase.py:195-202: one stream *)
Definition lines_to_return1 (l : list str) (lim : option nat) : list str * list str :=
  match lim with
  | None => (l, [])
  | Some n => if Nat.leb (List.length l) n then (l, []) else (firstn n l, skipn n l)
  end.

(** _ProcessManagerBase.py:182-206 _get_lines_to_return() *)
Definition get_lines_to_return (lines : limits) (p : proc) : (list str * list str) * proc :=
  let (o, o') := lines_to_return1 (fst (p_out p)) (fst lines) in
  let (e, e') := lines_to_return1 (snd (p_out p)) (snd lines) in
  ((o, e), set_out (o', e') p).

(** _ProcessManagerBase.py:208-218 _process_is_done() and the SSHProcess version of it,
    SSHProcessManager.py:108-114 ('_ll' of a local process is always empty). *)
Definition process_is_done (seen : bool) (p : proc) : bool :=
  negb (nonemptyb (p_ll p)) &&
  match p_exit p with Some _ => true | None => false end &&
  match p_out p with ([], []) => true | _ => false end &&
  queue_empty seen p.

(** ** Waiting *)

(** What the environment does in one pass of a wait loop: whether the next item is in the queue when
    the loop asks if the queue is empty, and when it reads the queue; whether the time is over at the
    end of the pass; what the process status is when both streams are closed ('None': the process does
    not exit in time). *)
Record pass := Pass {
  a_seen : bool;
  a_there : bool;
  a_late : bool;
  a_status : option Z }.

(** LocalProcessManager.py:86-114, the loop of LocalProcess._wait(); 'zero' tells that the timeout is
    0.  The time runs out when there is no next pass.  Simplification: lines 78-80, the case of both
    streams redirected to files, is not modelled. *)
Fixpoint wait_local (zero capture : bool) (lines : limits) (ps : list pass) (p : proc) : proc :=
  match ps with
  | [] => p
  | x :: ps' =>
      if have_enough_lines (p_out p) lines then p else
      match p_exit p with
      | Some _ => p
      | None =>
          let (it, p) := get_next_queue_item (a_there x) p in
          match it with
          | None => p
          | Some (Data s d) =>
              let p := handle_queue_item s d capture p in
              if zero || a_late x then p else wait_local zero capture lines ps' p
          | Some (Closed s) =>
              let p := set_open (set2 s false (p_open p)) p in
              if negb (fst (p_open p)) && negb (snd (p_open p)) then set_exit (a_status x) p
              else if zero || a_late x then p else wait_local zero capture lines ps' p
          end
      end
  end.

(** SSHProcessManager.py:258-287, the loop of SSHProcess._wait_nointsh(): unlike the local one it does
    not stop when the queue stays empty, only when the time is over. *)
Fixpoint wait_nointsh (zero capture : bool) (lines : limits) (ps : list pass) (p : proc) : proc :=
  match ps with
  | [] => p
  | x :: ps' =>
      if have_enough_lines (p_out p) lines then p else
      match p_exit p with
      | Some _ => p
      | None =>
          let (it, p) := get_next_queue_item (a_there x) p in
          match it with
          | None => if zero || a_late x then p else wait_nointsh zero capture lines ps' p
          | Some (Data s d) =>
              let p := handle_queue_item s d capture p in
              if zero || a_late x then p else wait_nointsh zero capture lines ps' p
          | Some (Closed s) =>
              let p := set_open (set2 s false (p_open p)) p in
              if negb (fst (p_open p)) && negb (snd (p_open p)) then set_exit (a_status x) p
              else if zero || a_late x then p else wait_nointsh zero capture lines ps' p
          end
      end
  end.

(** *** The marker of the interactive shell *)

(** data.rsplit("\n", 1), when there is a "\n" *)
Fixpoint rsplit_nl (t : str) : option (str * str) :=
  match t with
  | [] => None
  | c :: t' =>
      match rsplit_nl t' with
      | Some (a, b) => Some (c :: a, b)
      | None => if Ascii.eqb c NL then Some ([], t') else None
      end
  end.

(** str.startswith() *)
Fixpoint starts_with (pre l : str) : bool :=
  match pre, l with
  | [], _ => true
  | _, [] => false
  | a :: pre', b :: l' => Ascii.eqb a b && starts_with pre' l'
  end.

Definition is_dig (c : ascii) : bool :=
  let n := Z.of_nat (nat_of_ascii c) in (48 <=? n) && (n <=? 57).

Fixpoint span_dig (l : str) : str * str :=
  match l with
  | [] => ([], [])
  | c :: t => if is_dig c then let (a, b) := span_dig t in (c :: a, b) else ([], l)
  end.

(** SSHProcessManager.py:357, 170-175: the regex "^<marker>, \d+ ---$" and the text between ", " and
    " ---".  Simplification: "$" also allows a "\n" at the end, '_ll' never has one. *)
Definition match_marker (marker ll : str) : option str :=
  let pre := marker ++ s2l ", " in
  if starts_with pre ll then
    let (ds, rest) := span_dig (skipn (List.length pre) ll) in
    if nonemptyb ds && str_eqb rest (s2l " ---") then Some ds else None
  else None.

(** SSHProcessManager.py:116-188 _watch_for_marker(): the data to capture, the exit code, the new
    '_ll' and '_check_ll'.  The text of \d+ is always an integer, so that the error of lines 176-179
    cannot happen. *)
Definition watch_for_marker (marker ll : str) (check : bool) (data : str)
  : str * option Z * str * bool :=
  let '(cdata, ll, check) :=
    match rsplit_nl data with
    | Some (a, b) => (ll ++ a ++ [NL], b, true)
    | None =>
        let check := if nonemptyb ll then check else true in
        if check then ([], ll ++ data, check) else (ll ++ data, [], check)
    end in
  let check := if check then starts_with marker ll || starts_with ll marker else check in
  match (if check then match_marker marker ll else None) with
  | Some ds => (cdata, int_digits 10 ds, [], false)
  | None => (cdata, None, ll, check)
  end.

(** SSHProcessManager.py:203-231, the loop of SSHProcess._wait_intsh() *)
Fixpoint wait_intsh (zero capture : bool) (lines : limits) (ps : list pass) (p : proc)
  : res unit * proc :=
  match ps with
  | [] => (Ok tt, p)
  | x :: ps' =>
      if have_enough_lines (p_out p) lines then (Ok tt, p) else
      if match p_exit p with Some _ => queue_empty (a_seen x) p | None => false end then (Ok tt, p) else
      let (it, p) := get_next_queue_item (a_there x) p in
      match it with
      | Some (Closed _) => (Exn EError, p)
      | _ =>
          let p :=
            match it with
            | Some (Data SOut d) =>
                let '(cdata, exitcode, ll, check) :=
                  watch_for_marker (p_marker p) (p_ll p) (p_check p) d in
                handle_queue_item SOut cdata capture (set_exit exitcode (set_ll ll check p))
            | Some (Data SErr d) => handle_queue_item SErr d capture p
            | _ => p
            end in
          if zero || a_late x then (Ok tt, p) else wait_intsh zero capture lines ps' p
      end
  end.

(** ** wait() *)

(** Which '_wait' implementation a process object uses: LocalProcess, SSHProcess in a session of its
    own, SSHProcess in the interactive shell (SSHProcessManager.py:298-301). *)
Inductive kind := Local | Session | IntSh.

(** The arguments of one wait() call and its environment: 'c_first' and 'c_last' tell whether the next
    item is in the queue when wait() asks if the process is done, before and after the loop. *)
Record call := Call {
  c_zero : bool;
  c_capture : bool;
  c_lines : limits;
  c_first : bool;
  c_passes : list pass;
  c_last : bool }.

Definition wait_loop (k : kind) (c : call) (p : proc) : res unit * proc :=
  match k with
  | Local => (Ok tt, wait_local (c_zero c) (c_capture c) (c_lines c) (c_passes c) p)
  | Session => (Ok tt, wait_nointsh (c_zero c) (c_capture c) (c_lines c) (c_passes c) p)
  | IntSh => wait_intsh (c_zero c) (c_capture c) (c_lines c) (c_passes c) p
  end.

(** _ProcessManagerBase.py:230-335 wait(): the lines of stdout and stderr and the exit code. *)
Definition wait (k : kind) (c : call) (p : proc) : res (list str * list str * option Z) * proc :=
  match c_lines c with
  | (Some O, Some O) => (Exn EError, p)
  | _ =>
      if process_is_done (c_first c) p then (Ok ([], [], p_exit p), p)
      else
        match wait_loop k c p with
        | (Exn e, p1) => (Exn e, p1)
        | (Ok _, p1) =>
            let (output, p2) := get_lines_to_return (c_lines c) p1 in
            if match p_exit p2 with Some 127 => true | _ => false end
               && (fst (p_cnt p2) =? 0) && (snd (p_cnt p2) =? 1)
            then (Exn ENotFound, p2)
            else (Ok (fst output, snd output,
                      if process_is_done (c_last c) p2 then p_exit p2 else None), p2)
        end
  end.

(** A caller that goes on calling wait() until it raises. *)
Fixpoint waits (k : kind) (cs : list call) (p : proc)
  : list (list str * list str * option Z) * option exc * proc :=
  match cs with
  | [] => ([], None, p)
  | c :: cs' =>
      match wait k c p with
      | (Ok r, p') => let '(rs, e, p'') := waits k cs' p' in (r :: rs, e, p'')
      | (Exn e, p') => ([], Some e, p')
      end
  end.

(** ** The interactive shell *)

(** SSHProcessManager.py:347-357 and 359-370, _reinit_marker() and _reinit() up to _read_pid(): the
    process object of the interactive shell is re-used for a new command; the queue stays. *)
Definition reinit (marker : str) (p : proc) : proc :=
  Proc None ([], []) ([], []) (0, 0) (p_open p) (p_queue p) [] true marker.

(** SSHProcessManager.py:316-345 _read_pid(): the first line of stdout is the PID; 'c' is the
    environment of its wait() call. *)
Definition read_pid (k : kind) (c : call) (p : proc) : res Z * proc :=
  match wait k (Call false true (Some 1%nat, Some O) (c_first c) (c_passes c) (c_last c)) p with
  | (Exn e, p') => (Exn e, p')
  | (Ok ([line], [], _), p') =>
      let pid := strip line in
      let p'' := set_cnt (fst (p_cnt p') - 1, snd (p_cnt p')) p' in
      if Nat.ltb 128 (List.length pid) then (Exn EError, p'')
      else match py_int0 pid with
           | Some v => (Ok v, p'')
           | None => (Exn EError, p'')
           end
  | (Ok _, p') => (Exn EError, p')
  end.

(** SSHProcessManager.py:461-480 _run_in_intsh() of an interactive shell that is already running: the
    PID of the new command.  Simplification: int(pid) in base 10 after is_int() in base 0 is taken as
    int(pid, 0). *)
Definition run_in_intsh (marker : str) (c : call) (p : proc) : res Z * proc :=
  read_pid IntSh c (reinit marker p).
