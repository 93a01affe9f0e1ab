(** The 'pepc tpmi read' and 'pepc tpmi write' commands: pepctool/_PepcTpmi.py.
    Names of features, registers and bit fields and device addresses are numbers, as in M_Tpmi; their
    comma-separated lists are given split and without repetitions, package and instance numbers as the
    texts typed. *)
From Verif Require Import Base M_Text M_CPUInfo M_MSR M_Tpmi.

Section Cmd.
  Variable env : tenv.

  (** Tpmi.py:915-923 of iter_feature(), with the body of the caller's 'for' loop run at every 'yield':
      the function is a generator, so that what the body does to one device comes before the
      instances of the next device are checked *)
  Definition do_device {A} (fname addr package : Z) (body : A -> Z -> Z -> Z -> M tstate A)
      (st : option (list Z) * A) : M tstate (option (list Z) * A) :=
    let! insts := (match fst st with
                   | Some l => mfor l (fun i => validate_instance fname addr i) ;; ret l
                   | None => let! md := t_get_mdmap fname addr in ret (map fst md)
                   end) in
    let! acc := mfold (fun acc i => body acc addr package i) insts (snd st) in
    ret (Some insts, acc).

  (** "for addr, package, instance in tpmi.iter_feature(...): body", Tpmi.py:885-923.  Simplification:
      an unknown feature is always reported before a bad package. *)
  Definition iter_do {A} (fname : Z) (addrs packages instances : option (list Z))
      (body : A -> Z -> Z -> Z -> M tstate A) (acc : A) : M tstate A :=
    let! fmap := lift (match dget Z.eqb (te_fmaps env) fname with Some m => Ok m | None => Exn EKey end) in
    lift (rmap (or_none addrs) (fun a => rmap (or_none packages) (fun p => validate_addr env fmap a p))) ;;
    let alist := match addrs with Some l => l | None => map fst fmap end in
    let plist := match packages with Some l => l | None => te_packages env end in
    let! st := mfold (fun st a =>
                 match dget Z.eqb fmap a with
                 | None => ret st
                 | Some pkg => mfold (fun st p => if pkg =? p then do_device fname a p body st else ret st) plist st
                 end) alist (instances, acc) in
    ret (snd st).

  (** _PepcTpmi.py:130-137, 210-217: "if args.packages: packages = split_csv_line_int(..., dedup=True)",
      the same for instances *)
  Definition num_list (text : option str) : res (option (list Z)) :=
    match text with
    | None | Some [] => Ok None
    | Some t => let? l := split_csv_line_int ","%char true t in Ok (Some l)
    end.

  (** What 'tpmi write' is told *)
  Record wargs := WA {
    wa_fname : Z; wa_reg : Z; wa_bf : option Z; wa_value : str;
    wa_addrs : option (list Z); wa_packages : option str; wa_instances : option str
  }.

  (** _PepcTpmi.py:197-235 tpmi_write_command().  The messages are returned as the tuples of
      (device, package, instance) they name. *)
  Definition tpmi_write (x : wargs) : M tstate (list (Z * Z * Z)) :=
    let! packages := lift (num_list (wa_packages x)) in
    let! instances := lift (num_list (wa_instances x)) in
    let! value := lift (str_to_int (wa_value x)) in
    iter_do (wa_fname x) (wa_addrs x) packages instances
      (fun out addr package inst =>
         t_write_register env value (wa_fname x) addr inst (wa_reg x) (wa_bf x) ;;
         ret (out ++ [(addr, package, inst)])) [].

  (** The 'info' dictionary: feature -> address -> package and instance -> register -> value and bit
      fields.  A register without bit fields to show has the empty list. *)
  Definition reginfo := (Z * list (Z * Z))%type.
  Definition addrinfo := (Z * list (Z * list (Z * reginfo)))%type.
  Definition rinfo := list (Z * list (Z * addrinfo)).

  (** What 'tpmi read' is told; 'reserved' are the names starting with "RESERVED" *)
  Record rargs := RA {
    ra_fnames : option (list Z); ra_regs : option (list Z); ra_bfs : option (list Z);
    ra_addrs : option (list Z); ra_packages : option str; ra_instances : option str;
    ra_reserved : Z -> bool
  }.

  (** _PepcTpmi.py:174-182: the bit fields of one register.  Tpmi.py:943-954 get_bitfield() *)
  Definition read_fields (x : rargs) (fname reg regval : Z) : res (list (Z * Z)) :=
    let? rd := get_regdict env fname reg in
    let bfs := match ra_bfs x with Some l => l | None => map fst (rd_fields rd) end in
    fold_left (fun acc b =>
      let? l := acc in
      if ra_reserved x b then Ok l
      else let? sm := get_bfdict env fname reg b in Ok (dset Z.eqb l b (get_bitfield regval sm))) bfs (Ok []).

  (** _PepcTpmi.py:166-187: one register of one instance *)
  Definition read_reg (x : rargs) (fname addr inst : Z) (regs : list (Z * reginfo)) (reg : Z)
    : M tstate (list (Z * reginfo)) :=
    let! regval := t_read_register env fname addr inst reg None in
    match dget Z.eqb regs reg with
    | Some _ => throw EValue (* AssertionError *)
    | None =>
        let! fields := lift (read_fields x fname reg regval) in
        ret (dset Z.eqb regs reg (regval, fields))
    end.

  (** _PepcTpmi.py:158-187: the body of the loop over devices and instances *)
  Definition read_instance (x : rargs) (fname : Z) (regnames : list Z) (finfo : list (Z * addrinfo))
      (addr package inst : Z) : M tstate (list (Z * addrinfo)) :=
    let ai := match dget Z.eqb finfo addr with Some ai => ai | None => (package, []) end in
    match dget Z.eqb (snd ai) inst with
    | Some _ => throw EValue (* AssertionError *)
    | None =>
        let! regs := mfold (read_reg x fname addr inst) regnames [] in
        ret (dset Z.eqb finfo addr (fst ai, dset Z.eqb (snd ai) inst regs))
    end.

  (** _PepcTpmi.py:149-187: one feature *)
  Definition read_feature (x : rargs) (packages instances : option (list Z)) (info : rinfo) (fname : Z)
    : M tstate rinfo :=
    let! fdict := lift (match dget Z.eqb (te_fdicts env) fname with Some fd => Ok fd | None => Exn ENotSupported end) in
    let regnames := match ra_regs x with
                    | Some l => l
                    | None => filter (fun r => negb (ra_reserved x r)) (map fst fdict)
                    end in
    let! finfo := iter_do fname (ra_addrs x) packages instances (read_instance x fname regnames) [] in
    ret (dset Z.eqb info fname finfo).

  (** _PepcTpmi.py:108-190 tpmi_read_command() up to the printing.  An empty list of features cannot be
      typed; with no feature at all the constructor of 'Tpmi' fails. *)
  Definition tpmi_read (x : rargs) : M tstate rinfo :=
    match ra_regs x, ra_bfs x with
    | None, Some _ => throw EError
    | _, _ =>
        let fnames := match ra_fnames x with Some l => l | None => map fst (te_fmaps env) end in
        let! packages := lift (num_list (ra_packages x)) in
        let! instances := lift (num_list (ra_instances x)) in
        let! info := mfold (read_feature x packages instances) fnames [] in
        match info with [] => throw EError | _ => ret info end
    end.
End Cmd.
