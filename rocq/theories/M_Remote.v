(** Model of MSR access on a remote host: the parts of pepclibs/msr/MSR.py that are used when the process manager says
    that the host is remote. Everything else is as in M_MSR.v. *)
From Verif Require Import Base M_Text M_CPUInfo M_MSR.

Definition nl : ascii := "010"%char.

(** str.splitlines(). Simplification: only newline characters end a line. *)
Definition splitlines (t : str) : list str :=
  let l := split_on nl t in
  match rev l with
  | [] :: r => rev r
  | _ => l
  end.

Section Remote.
  Variable env : menv.

  (** MSR.py:300-330: the CPUs the register is read on ('do_read'); [dont] is 'dont_read'. *)
  Fixpoint plan (s : mstate) (a : Z) (sname : scope) (cpus dont : list Z) : res (list Z) :=
    match cpus with
    | [] => Ok []
    | c :: t =>
        if inb c dont then plan s a sname t dont
        else match cache_get env s a c with
             | Some _ => plan s a sname t dont
             | None =>
                 if me_cache env then
                   let? sibs := get_cpu_siblings (me_ci env) c sname in
                   let? r := plan s a sname t (filter (fun x => negb (x =? c)) sibs ++ dont) in
                   Ok (filter (fun x => x =? c) sibs ++ r)
                 else
                   let? r := plan s a sname t dont in Ok (c :: r)
             end
    end.

  (** MSR.py:337-348: running the script on the remote host: what it prints. Starting it and every access may fail. *)
  Definition read_script (a : Z) (cpus : list Z) : M mstate str :=
    io ;;
    let! l := mmap cpus (fun c => let! v := hw_read env a c in ret (dec c ++ ","%char :: dec v ++ [nl])) in
    ret (concat l).

  (** MSR.py:351-360: reading what the script printed: the dictionary 'regvals'; the values are put to the cache. *)
  Fixpoint take_lines (a : Z) (sname : scope) (ls : list str) (regvals : list (Z * Z)) : M mstate (list (Z * Z)) :=
    match ls with
    | [] => ret regvals
    | line :: t =>
        match split_csv_line "," false false (strip line) with
        | [w0; w1] =>
            let! c := lift (str_to_int w0) in
            let! v := lift (str_to_int w1) in
            cache_add env a c v sname ;;
            take_lines a sname t (dset Z.eqb regvals c v)
        | _ => throw EError
        end
    end.

  (** self._cache.get(), with ErrorNotFound *)
  Definition from_cache (a c : Z) : M mstate Z :=
    let! v := gets (fun s => cache_get env s a c) in
    match v with Some v => ret v | None => throw ENotFound end.

  (** MSR.py:287-366 _read_remote_optimized() *)
  Definition read_remote (a : Z) (cpus : list Z) (sname : scope) : M mstate (list (Z * Z)) :=
    let! p := gets (fun s => plan s a sname cpus []) in
    let! do_read := lift p in
    match do_read with
    | [] => mmap cpus (fun c => let! v := from_cache a c in ret (c, v))
    | _ =>
        let! out := read_script a do_read in
        let! regvals := take_lines a sname (splitlines out) [] in
        mmap cpus (fun c => match dget Z.eqb regvals c with
                            | Some v => ret (c, v)
                            | None => let! v := from_cache a c in ret (c, v)
                            end)
    end.

  (** MSR.py:368-384 _read() *)
  Definition r_read_cpus (a : Z) (cpus : list Z) (sname : scope) : M mstate (list (Z * Z)) :=
    if (1 <? length cpus)%nat then read_remote a cpus sname else read_cpus env a cpus sname.

  (** MSR.py:386-399 read() *)
  Definition r_read (a : Z) (cpus : nums_t) (sname : scope) : M mstate (list (Z * Z)) :=
    let! l := lift (normalize_cpus (me_ci env) cpus false) in r_read_cpus a l sname.

  (** MSR.py:100-110 _verify() *)
  Definition r_verify (a v : Z) (cpus : list Z) (sname : scope) : M mstate unit :=
    mfor cpus (fun c => cache_remove env a c sname) ;;
    let! l := r_read_cpus a cpus sname in
    mfor l (fun x => if snd x =? v then ret tt else throw EVerify).

  (** MSR.py:488-528 write(): the values are written one by one on remote hosts, too. *)
  Definition r_write (a v : Z) (cpus : nums_t) (sname : scope) (vf : bool) : M mstate unit :=
    let! l := lift (normalize_cpus (me_ci env) cpus false) in
    mfor l (fun c => cache_remove env a c sname) ;;
    mfor l (write_one env a v sname vf) ;;
    let! intr := gets ms_intr in
    if vf && negb intr then r_verify a v l sname else ret tt.

  (** MSR.py:556-563 *)
  Fixpoint group (b : bits_t) (val : option Z) (l : list (Z * Z)) (acc : list (Z * list Z)) : res (list (Z * list Z)) :=
    match l with
    | [] => Ok acc
    | (c, old) :: t =>
        let? new := set_bits old b val in
        if old =? new then group b val t acc
        else
          let cs := match dget Z.eqb acc new with Some cs => cs | None => [] end in
          group b val t (dset Z.eqb acc new (cs ++ [c]))
    end.

  (** MSR.py:542-566 write_bits() *)
  Definition r_write_bits (a : Z) (b : bits_t) (val : option Z) (cpus : nums_t) (sname : scope) (vf : bool)
    : M mstate unit :=
    let! l := lift (normalize_cpus (me_ci env) cpus false) in
    let! vals := r_read_cpus a l sname in
    let! groups := lift (group b val vals []) in
    mfor groups (fun g => r_write a (fst g) (Some (snd g)) sname vf).

  (** MSR.py:133-167 _transaction_write_remote_optimized(): the script has the loops of _transaction_write(); any error
      in it is an 'Error' of the command. *)
  Definition write_script (buf : list (Z * list (Z * tinfo))) : M mstate unit :=
    fun s => match (io ;; transaction_write env buf) s with
             | (Exn _, s') => (Exn EError, s')
             | r => r
             end.

  (** MSR.py:169-213 flush_transaction() *)
  Definition r_flush : M mstate bool :=
    let! intr := gets ms_intr in
    let! buf := gets ms_tbuf in
    if negb (me_cache env) || negb intr then ret false
    else match buf with
         | [] => ret false
         | _ =>
             (if (1 <? length buf)%nat then write_script buf else transaction_write env buf) ;;
             modify (set_tbuf []) ;;
             mfor (verify_info buf) (fun vi => mfor (snd vi) (fun ai =>
               r_verify (fst ai) (fst vi) (snd (snd ai)) (fst (snd ai)))) ;;
             ret true
         end.

  (** MSR.py:215-230 commit_transaction() *)
  Definition r_commit : M mstate unit :=
    let! intr := gets ms_intr in
    if negb intr then throw EError
    else r_flush ;; modify (set_intr false).

  (** A call. *)
  Definition rstep (o : mop) : M mstate (list (Z * Z)) :=
    match o with
    | ORead a cpus sn => r_read a cpus sn
    | OWrite a v cpus sn vf => r_write a v cpus sn vf ;; ret []
    | OWriteBits a b val cpus sn vf => r_write_bits a b val cpus sn vf ;; ret []
    | OStart => start_transaction env ;; ret []
    | OFlush => r_flush ;; ret []
    | OCommit => r_commit ;; ret []
    end.
End Remote.
