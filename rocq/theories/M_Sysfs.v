(** Model of sysfs file access: pepclibs/_SysfsIO.py. *)
From Verif Require Import Base M_Text.

(** ** The outside world *)

(** What does not change: the 'enable_cache' argument, and the kernel: [k_write p old v] is the new
    contents of file [p] when [v] is written (None: the write fails), [k_settle p c] is what the
    contents turn into during a pause of the verification, [k_unreadable p] tells that reading the
    file fails. *)
Record senv := SE {
  se_cache : bool;
  k_write : str -> str -> str -> option str;
  k_settle : str -> str -> str;
  k_unreadable : str -> bool }.

(** An entry of the transaction buffer (_SysfsIO.py:90-118).  Simplification: the sleep time is an
    integer. *)
Record stinfo := STI {
  st_val : str; st_what : option str; st_verify : bool; st_retries : Z; st_sleep : Z }.

(** The files (None: no such file), the cache, the transaction buffer in insertion order, and - only
    to speak about the order of the writes - the log of the values handed over to the kernel. *)
Record sstate := SS {
  ss_fs : str -> option str;
  ss_cache : list (str * str);
  ss_buf : list (str * stinfo);
  ss_intr : bool;
  ss_log : list (str * str) }.

Definition s_fs s f := SS f (ss_cache s) (ss_buf s) (ss_intr s) (ss_log s).
Definition s_cache s c := SS (ss_fs s) c (ss_buf s) (ss_intr s) (ss_log s).
Definition s_buf s b := SS (ss_fs s) (ss_cache s) b (ss_intr s) (ss_log s).
Definition s_intr s b := SS (ss_fs s) (ss_cache s) (ss_buf s) b (ss_log s).
Definition s_log s l := SS (ss_fs s) (ss_cache s) (ss_buf s) (ss_intr s) l.

(** _SysfsIO.py:373-387 __init__(). *)
Definition s_init (fs : str -> option str) : sstate := SS fs [] [] false [].

Definition fs_upd (f : str -> option str) (p : str) (c : str) : str -> option str :=
  fun q => if str_eqb p q then Some c else f q.

Definition what_eqb (a b : option str) : bool :=
  match a, b with
  | None, None => true
  | Some x, Some y => str_eqb x y
  | _, _ => false
  end.

Section Sysfs.
  Variable k : senv.

  (** _SysfsIO.py:47-61 cache_get(): None stands for ErrorNotFound. *)
  Definition cache_get (p : str) : M sstate (option str) :=
    gets (fun s => if se_cache k then dget str_eqb (ss_cache s) p else None).

  (** _SysfsIO.py:63-76 cache_add() *)
  Definition cache_add (p v : str) : M sstate str :=
    if se_cache k then modify (fun s => s_cache s (dset str_eqb (ss_cache s) p v)) ;; ret v
    else ret v.

  (** _SysfsIO.py:78-88 cache_remove() *)
  Definition cache_remove (p : str) : M sstate unit :=
    if se_cache k then modify (fun s => s_cache s (ddel str_eqb (ss_cache s) p)) else ret tt.

  (** _SysfsIO.py:90-118 _add_for_transaction() *)
  Definition add_for_transaction (p v : str) (what : option str) (verify : bool) (retries sleep : Z)
    : M sstate unit :=
    if negb (se_cache k) then throw EError
    else
      let! b := gets ss_buf in
      match dget str_eqb b p with
      | Some ti =>
          if negb (what_eqb (st_what ti) what) then throw EError
          else if negb (Bool.eqb (st_verify ti) verify) then throw EError
          else if negb (st_retries ti =? retries) then throw EError
          else if negb (st_sleep ti =? sleep) then throw EError
          else modify (fun s => s_buf s (dset str_eqb (ss_buf s) p (STI v what verify retries sleep)))
      | None => modify (fun s => s_buf s (dset str_eqb (ss_buf s) p (STI v what verify retries sleep)))
      end.

  (** _SysfsIO.py:120-137 start_transaction() *)
  Definition s_start : M sstate unit :=
    if negb (se_cache k) then ret tt
    else
      let! t := gets ss_intr in
      if t then throw EError else modify (fun s => s_intr s true).

  (** _SysfsIO.py:139-164 _write(): a missing file is "not supported", a failing write is an error. *)
  Definition raw_write (p v : str) : M sstate unit :=
    let! f := gets ss_fs in
    match f p with
    | None => throw ENotSupported
    | Some old =>
        match k_write k p old v with
        | None => throw EError
        | Some c => modify (fun s => s_log (s_fs s (fs_upd (ss_fs s) p c)) (ss_log s ++ [(p, v)]))
        end
    end.

  (** _SysfsIO.py:234-261 read() *)
  Definition s_read (p : str) : M sstate str :=
    let! c := cache_get p in
    match c with
    | Some v => ret v
    | None =>
        let! f := gets ss_fs in
        match f p with
        | None => throw ENotSupported
        | Some raw => if k_unreadable k p then throw EError else cache_add p (strip raw)
        end
    end.

  (** _SysfsIO.py:166-188 _verify(): [n] more attempts after the first one, with a pause before
      each. *)
  Fixpoint verify_loop (n : nat) (p v : str) : M sstate unit :=
    cache_remove p ;;
    let! new := s_read p in
    if str_eqb v new then ret tt
    else match n with
         | O => throw EVerify
         | S n' =>
             modify (fun s => s_fs s (match ss_fs s p with
                                      | Some c => fs_upd (ss_fs s) p (k_settle k p c)
                                      | None => ss_fs s
                                      end)) ;;
             verify_loop n' p v
         end.

  Definition s_verify (p v : str) (retries : Z) : M sstate unit := verify_loop (Z.to_nat retries) p v.

  (** _SysfsIO.py:207-219: one iteration of the loop of flush_transaction() *)
  Definition flush_one (e : str * stinfo) : M sstate unit :=
    let (p, ti) := e in
    cache_remove p ;;
    raw_write p (st_val ti) ;;
    (if st_verify ti then s_verify p (st_val ti) (st_retries ti) else ret tt) ;;
    cache_add p (st_val ti) ;; ret tt.

  (** _SysfsIO.py:190-221 flush_transaction() *)
  Definition s_flush : M sstate unit :=
    if negb (se_cache k) then ret tt
    else
      let! t := gets ss_intr in
      if negb t then throw EError
      else
        let! b := gets ss_buf in
        mfor b flush_one ;;
        modify (fun s => s_buf s []).

  (** _SysfsIO.py:223-232 commit_transaction() *)
  Definition s_commit : M sstate unit :=
    s_flush ;; modify (fun s => s_intr s false).

  (** _SysfsIO.py:263-283 read_int(): contents that are not a number are an error. *)
  Definition s_read_int (p : str) : M sstate Z :=
    let! v := s_read p in
    match str_to_int v with
    | Ok n => ret n
    | Exn _ => throw EError
    end.

  (** _SysfsIO.py:285-299 write() *)
  Definition s_write (p v : str) (what : option str) : M sstate unit :=
    cache_remove p ;;
    let! t := gets ss_intr in
    (if t then add_for_transaction p v what true 0 0 else raw_write p v) ;;
    cache_add p v ;; ret tt.

  (** _SysfsIO.py:301-311 write_int() *)
  Definition s_write_int (p : str) (val : str) (what : option str) : M sstate unit :=
    let! n := lift (str_to_int val) in
    s_write p (dec n) what.

  (** _SysfsIO.py:313-337 write_verify() *)
  Definition s_write_verify (p v : str) (what : option str) (retries sleep : Z) : M sstate unit :=
    cache_remove p ;;
    let! t := gets ss_intr in
    (if t then add_for_transaction p v what true retries sleep
     else raw_write p v ;; s_verify p v retries) ;;
    cache_add p v ;; ret tt.

  (** _SysfsIO.py:339-371 write_verify_int(); the fields of the exception are not modelled. *)
  Definition s_write_verify_int (p val : str) (what : option str) (retries sleep : Z)
    : M sstate unit :=
    let! n := lift (str_to_int val) in
    s_write_verify p (dec n) what retries sleep.

  (** ** Histories of calls *)
  Inductive sop :=
  | SRead (p : str)
  | SReadInt (p : str)
  | SWrite (p v : str) (what : option str)
  | SWriteInt (p v : str) (what : option str)
  | SWriteVerify (p v : str) (what : option str) (retries sleep : Z)
  | SWriteVerifyInt (p v : str) (what : option str) (retries sleep : Z)
  | SStart
  | SFlush
  | SCommit.

  Definition sstep (o : sop) : M sstate unit :=
    match o with
    | SRead p => s_read p ;; ret tt
    | SReadInt p => s_read_int p ;; ret tt
    | SWrite p v w => s_write p v w
    | SWriteInt p v w => s_write_int p v w
    | SWriteVerify p v w r sl => s_write_verify p v w r sl
    | SWriteVerifyInt p v w r sl => s_write_verify_int p v w r sl
    | SStart => s_start
    | SFlush => s_flush
    | SCommit => s_commit
    end.

  (** A history: the caller goes on after exceptions.  The trace tells which calls succeeded. *)
  Fixpoint srun (ops : list sop) (s : sstate) : list (sop * bool) * sstate :=
    match ops with
    | [] => ([], s)
    | o :: t =>
        let (r, s1) := sstep o s in
        let (tr, s2) := srun t s1 in
        ((o, match r with Ok _ => true | Exn _ => false end) :: tr, s2)
    end.
End Sysfs.
