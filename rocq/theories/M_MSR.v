(** Model of MSR access: pepclibs/msr/MSR.py and pepclibs/_PerCPUCache.py. *)
From Verif Require Import Base M_CPUInfo.

(** ** Bit-fields *)

(** A bits range is (msb, lsb). *)
Definition bits_t := (Z * Z)%type.

(** pepclibs/msr/MSR.py:632 regbits *)
Definition regbits : Z := 64.

(** pepclibs/msr/MSR.py:232-253 _normalize_bits(). The numbers are integers, so only the range
    checks remain. *)
Definition normalize_bits (b : bits_t) : res bits_t :=
  let (hi, lo) := b in
  if hi <? lo then Exn EError
  else if regbits <? hi - lo + 1 then Exn EError
  else Ok (hi, lo).

(** Shifting by a negative count raises ValueError in Python. *)
Definition py_shl (x n : Z) : res Z := if n <? 0 then Exn EValue else Ok (Z.shiftl x n).
Definition py_shr (x n : Z) : res Z := if n <? 0 then Exn EValue else Ok (Z.shiftr x n).

(** pepclibs/msr/MSR.py:255-268 get_bits() *)
Definition get_bits (regval : Z) (b : bits_t) : res Z :=
  let? (hi, lo) := normalize_bits b in
  let mask := Z.shiftl 1 (hi - lo + 1) - 1 in
  let? x := py_shr regval lo in
  Ok (Z.land x mask).

(** pepclibs/msr/MSR.py:444-469 set_bits(). The value None stands for ALL_BITS_1. *)
Definition set_bits (regval : Z) (b : bits_t) (val : option Z) : res Z :=
  let? (hi, lo) := normalize_bits b in
  let max_val := Z.shiftl 1 (hi - lo + 1) - 1 in
  let v := match val with None => max_val | Some v => v end in
  if max_val <? v then Exn EError
  else
    let? clear_mask := py_shl max_val lo in
    let? set_mask := py_shl v lo in
    Ok (Z.lor (Z.land regval (Z.lnot clear_mask)) set_mask).

(** int.to_bytes(8): raises OverflowError for negative and too large values. *)
Definition to_bytes_ok (v : Z) : bool := (0 <=? v) && (v <? 2 ^ regbits).

(** ** State *)

(** An entry of the transaction buffer (MSR.py:66-78). *)
Record tinfo := TI { ti_val : Z; ti_verify : bool; ti_ios : scope }.

(** What does not change: the topology, the 'enable_cache' argument, which CPUs share a register
    ([me_dom a c] identifies the copy of register [a] that CPU [c] accesses), and what the hardware
    stores when a value is written ([me_accept a old new]). *)
Record menv := ME {
  me_ci : cpuinfo;
  me_cache : bool;
  me_dom : Z -> Z -> Z;
  me_accept : Z -> Z -> Z -> Z }.

(** The hardware registers (by address and register copy), the PerCPUCache contents (None: the
    address is not in the dictionary), the transaction state, the outcomes of the coming I/O
    operations (true: the operation fails; an exhausted list means no more failures), and the list
    of writes done to the hardware so far, as (CPU, address, value). *)
Record mstate := MS {
  ms_hw : Z -> Z -> Z;
  ms_cache : Z -> option (Z -> option Z);
  ms_intr : bool;
  ms_tbuf : list (Z * list (Z * tinfo));
  ms_faults : list bool;
  ms_log : list (Z * Z * Z) }.

Definition set_hw h s := MS h (ms_cache s) (ms_intr s) (ms_tbuf s) (ms_faults s) (ms_log s).
Definition set_cache m s := MS (ms_hw s) m (ms_intr s) (ms_tbuf s) (ms_faults s) (ms_log s).
Definition set_intr b s := MS (ms_hw s) (ms_cache s) b (ms_tbuf s) (ms_faults s) (ms_log s).
Definition set_tbuf t s := MS (ms_hw s) (ms_cache s) (ms_intr s) t (ms_faults s) (ms_log s).
Definition set_faults f s := MS (ms_hw s) (ms_cache s) (ms_intr s) (ms_tbuf s) f (ms_log s).
Definition set_log l s := MS (ms_hw s) (ms_cache s) (ms_intr s) (ms_tbuf s) (ms_faults s) l.

Definition upd {A} (f : Z -> A) (k : Z) (v : A) : Z -> A := fun x => if x =? k then v else f x.

(** MSR.py:631-656 (the state a new object starts in) *)
Definition msr_init (hw : Z -> Z -> Z) (faults : list bool) : mstate :=
  MS hw (fun _ => None) false [] faults [].

Section MSR.
  Variable env : menv.

  (** ** PerCPUCache *)

  (** _PerCPUCache.py:37-51 get() (None: ErrorNotFound) and 25-35 is_cached() *)
  Definition cache_get (s : mstate) (a c : Z) : option Z :=
    if me_cache env then
      match ms_cache s a with Some m => m c | None => None end
    else None.

  (** _PerCPUCache.py:53-77 remove() *)
  Definition cache_remove (a c : Z) (sname : scope) : M mstate unit :=
    if negb (me_cache env) then ret tt
    else match sname with
         | SGlobal =>
             let! m := gets (fun s => ms_cache s a) in
             match m with
             | None => throw EKey
             | Some _ => modify (fun s => set_cache (upd (ms_cache s) a None) s)
             end
         | _ =>
             let! sibs := lift (get_cpu_siblings (me_ci env) c sname) in
             modify (fun s =>
               match ms_cache s a with
               | None => s
               | Some m => set_cache (upd (ms_cache s) a
                                        (Some (fun x => if inb x sibs then None else m x))) s
               end)
         end.

  (** _PerCPUCache.py:79-101 add() *)
  Definition cache_add (a c v : Z) (sname : scope) : M mstate unit :=
    if negb (me_cache env) then ret tt
    else
      let! sibs := lift (get_cpu_siblings (me_ci env) c sname) in
      modify (fun s =>
        let m := match ms_cache s a with None => fun _ => None | Some m => m end in
        set_cache (upd (ms_cache s) a (Some (fun x => if inb x sibs then Some v else m x))) s).

  (** ** Hardware access *)

  (** One I/O operation that may fail with 'Error'. *)
  Definition io : M mstate unit := fun s =>
    match ms_faults s with
    | true :: f => (Exn EError, set_faults f s)
    | false :: f => (Ok tt, set_faults f s)
    | [] => (Ok tt, s)
    end.

  (** MSR.py:270-285 _read_cpu_nocache() *)
  Definition hw_read (a c : Z) : M mstate Z :=
    io ;; gets (fun s => ms_hw s a (me_dom env a c)).

  (** The effect of storing a value: MSR.py:471-486 _write_cpu_nocache() and the body of the inner
      loop of _transaction_write() (118-127). Opening, seeking and writing are one operation. *)
  Definition hw_write (a c v : Z) : M mstate unit :=
    io ;;
    modify (fun s =>
      let d := me_dom env a c in
      set_log (ms_log s ++ [(c, a, v)])
        (set_hw (upd (ms_hw s) a (upd (ms_hw s a) d (me_accept env a (ms_hw s a d) v))) s)).

  (** ** Reading *)

  (** The loop body of MSR.py:368-384 _read(), local case *)
  Definition read_one (a : Z) (sname : scope) (c : Z) : M mstate (Z * Z) :=
    let! cached := gets (fun s => cache_get s a c) in
    match cached with
    | Some v => ret (c, v)
    | None => let! v := hw_read a c in cache_add a c v sname ;; ret (c, v)
    end.

  (** MSR.py:368-384 _read(); generators are modelled by their complete consumption *)
  Definition read_cpus (a : Z) (cpus : list Z) (sname : scope) : M mstate (list (Z * Z)) :=
    mmap cpus (read_one a sname).

  (** MSR.py:386-399 read() *)
  Definition read (a : Z) (cpus : nums_t) (sname : scope) : M mstate (list (Z * Z)) :=
    let! l := lift (normalize_cpus (me_ci env) cpus false) in read_cpus a l sname.

  (** MSR.py:401-412 read_cpu() *)
  Definition read_cpu (a c : Z) (sname : scope) : M mstate Z :=
    let! l := read a (Some [c]) sname in
    match l with (_, v) :: _ => ret v | [] => throw EError end.

  (** MSR.py:414-429 read_bits() *)
  Definition read_bits (a : Z) (b : bits_t) (cpus : nums_t) (sname : scope)
    : M mstate (list (Z * Z)) :=
    let! l := lift (normalize_cpus (me_ci env) cpus false) in
    mmap l (fun c => let! (c', v) := read_one a sname c in
                     let! x := lift (get_bits v b) in ret (c', x)).

  (** ** Writing *)

  (** MSR.py:100-110 _verify(); the read generator stops at the first mismatch *)
  Definition verify (a v : Z) (cpus : list Z) (sname : scope) : M mstate unit :=
    mfor cpus (fun c => cache_remove a c sname) ;;
    mfor cpus (fun c => let! (_, x) := read_one a sname c in
                        if x =? v then ret tt else throw EVerify).

  (** MSR.py:54-78 _add_for_transation(); the new dictionary replaces the old one before the
      consistency checks, so they never fire *)
  Definition add_for_transaction (a v c : Z) (vf : bool) (sname : scope) : M mstate unit :=
    if negb (me_cache env) then throw EError
    else modify (fun s =>
           let m := match dget Z.eqb (ms_tbuf s) c with Some m => m | None => [] end in
           set_tbuf (dset Z.eqb (ms_tbuf s) c (dset Z.eqb m a (TI v vf sname))) s).

  (** The loop body of MSR.py:508-523 *)
  Definition write_one (a v : Z) (sname : scope) (vf : bool) (c : Z) : M mstate unit :=
    let! cached := gets (fun s => cache_get s a c) in
    match cached with
    | Some _ => ret tt
    | None =>
        let! intr := gets ms_intr in
        (if negb intr then
           if to_bytes_ok v then hw_write a c v else throw EOverflow
         else add_for_transaction a v c vf sname) ;;
        cache_add a c v sname
    end.

  (** MSR.py:488-528 write() *)
  Definition write (a v : Z) (cpus : nums_t) (sname : scope) (vf : bool) : M mstate unit :=
    let! l := lift (normalize_cpus (me_ci env) cpus false) in
    mfor l (fun c => cache_remove a c sname) ;;
    mfor l (write_one a v sname vf) ;;
    let! intr := gets ms_intr in
    if vf && negb intr then verify a v l sname else ret tt.

  (** MSR.py:556-563: the dictionary new value -> CPUs *)
  Fixpoint group_writes (a : Z) (b : bits_t) (val : option Z) (sname : scope) (cpus : list Z)
      (acc : list (Z * list Z)) : M mstate (list (Z * list Z)) :=
    match cpus with
    | [] => ret acc
    | c :: rest =>
        let! (_, old) := read_one a sname c in
        let! new := lift (set_bits old b val) in
        if old =? new then group_writes a b val sname rest acc
        else
          let l := match dget Z.eqb acc new with Some l => l | None => [] end in
          group_writes a b val sname rest (dset Z.eqb acc new (l ++ [c]))
    end.

  (** MSR.py:542-566 write_bits() *)
  Definition write_bits (a : Z) (b : bits_t) (val : option Z) (cpus : nums_t) (sname : scope)
      (vf : bool) : M mstate unit :=
    let! l := lift (normalize_cpus (me_ci env) cpus false) in
    let! groups := group_writes a b val sname l [] in
    mfor groups (fun g => write a (fst g) (Some (snd g)) sname vf).

  (** ** Transactions *)

  (** MSR.py:80-98 start_transaction() *)
  Definition start_transaction : M mstate unit :=
    if negb (me_cache env) then ret tt
    else
      let! intr := gets ms_intr in
      if intr then throw EError else modify (set_intr true).

  (** MSR.py:112-131 _transaction_write() *)
  Definition transaction_write (buf : list (Z * list (Z * tinfo))) : M mstate unit :=
    mfor buf (fun e => mfor (snd e) (fun r =>
      if to_bytes_ok (ti_val (snd r)) then hw_write (fst r) (fst e) (ti_val (snd r))
      else throw EOverflow)).

  (** MSR.py:190-204: the dictionary regval -> regaddr -> (iosname, cpus) *)
  Definition verify_info_add (acc : list (Z * list (Z * (scope * list Z)))) (c a : Z) (t : tinfo) :=
    if negb (ti_verify t) then acc
    else
      let d := match dget Z.eqb acc (ti_val t) with Some d => d | None => [] end in
      let l := match dget Z.eqb d a with Some (_, l) => l | None => [] end in
      dset Z.eqb acc (ti_val t) (dset Z.eqb d a (ti_ios t, l ++ [c])).

  Definition verify_info (buf : list (Z * list (Z * tinfo)))
    : list (Z * list (Z * (scope * list Z))) :=
    fold_left (fun acc e =>
      fold_left (fun acc r => verify_info_add acc (fst e) (fst r) (snd r)) (snd e) acc) buf [].

  (** MSR.py:169-213 flush_transaction(). Only local hosts: _transaction_write_remote_optimized()
      runs the same loops on the remote host. *)
  Definition flush_transaction : M mstate bool :=
    let! intr := gets ms_intr in
    let! buf := gets ms_tbuf in
    if negb (me_cache env) || negb intr then ret false
    else match buf with
         | [] => ret false
         | _ =>
             transaction_write buf ;;
             modify (set_tbuf []) ;;
             mfor (verify_info buf) (fun vi => mfor (snd vi) (fun ai =>
               verify (fst ai) (fst vi) (snd (snd ai)) (fst (snd ai)))) ;;
             ret true
         end.

  (** MSR.py:215-230 commit_transaction() *)
  Definition commit_transaction : M mstate unit :=
    let! intr := gets ms_intr in
    if negb intr then throw EError
    else flush_transaction ;; modify (set_intr false).

  (** ** Histories of calls *)

  Inductive mop :=
  | ORead (a : Z) (cpus : nums_t) (sname : scope)
  | OWrite (a v : Z) (cpus : nums_t) (sname : scope) (vf : bool)
  | OWriteBits (a : Z) (b : bits_t) (val : option Z) (cpus : nums_t) (sname : scope) (vf : bool)
  | OStart
  | OFlush
  | OCommit.

  Definition mstep (o : mop) : M mstate (list (Z * Z)) :=
    match o with
    | ORead a cpus sn => read a cpus sn
    | OWrite a v cpus sn vf => write a v cpus sn vf ;; ret []
    | OWriteBits a b val cpus sn vf => write_bits a b val cpus sn vf ;; ret []
    | OStart => start_transaction ;; ret []
    | OFlush => flush_transaction ;; ret []
    | OCommit => commit_transaction ;; ret []
    end.

  (** Any sequence of calls; the caller may go on after an exception. *)
  Definition mrun (ops : list mop) (s : mstate) : mstate :=
    fold_left (fun s o => snd (mstep o s)) ops s.

  (** A sequence in which every call returned normally. *)
  Fixpoint mrun_ok (ops : list mop) (s : mstate) : option mstate :=
    match ops with
    | [] => Some s
    | o :: t => match mstep o s with
                | (Ok _, s') => mrun_ok t s'
                | (Exn _, _) => None
                end
    end.
End MSR.
