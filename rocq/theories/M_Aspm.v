(** Model of PCI ASPM: pepclibs/ASPM.py and pepctool/_PepcASPM.py. *)
From Verif Require Import Base M_Text M_Kver M_Osa.

(** ASPM.py:165-166, 83, 121, 145.  Simplification: pathlib joins the parts with a slash - a device address is not empty,
    not an absolute path and has no "." parts. *)
Definition policy_path : str := s2l "/sys/module/pcie_aspm/parameters/policy".
Definition dev_path (addr : str) : str := s2l "/sys/bus/pci/devices/" ++ addr.
Definition link_path (addr : str) : str := dev_path addr ++ s2l "/link".
Definition l1_path (addr : str) : str := link_path addr ++ s2l "/l1_aspm".

(** The host: which existing files cannot be read, what a file contains after a text was written to it (no result: the
    kernel refuses it), which directories exist, and what "uname -r" prints.  Simplification: a file is written with
    one system call, and "permission denied" is an error like any other. *)
Record aenv := AENV {
  ae_unreadable : str -> bool;
  ae_write : str -> str -> str -> option str;
  ae_dir : str -> bool;
  ae_uname : res str }.

(** _PepcASPM.py: the printed messages. *)
Inductive msg :=
| MPolicy (p : str)                (* 47, 75 *)
| MPolicies (ps : list str)        (* 51 *)
| ML1 (on : bool) (addr : str)     (* 24-25 *)
| MChanged (old new : str)         (* 71 *)
| MAgain (p : str)                 (* 73 *)
| MToggled (state addr : str).     (* 96 *)

(** The files, what was written to them, the kernel version the object remembers (ASPM.py:168), and the output. *)
Record astate := AST {
  a_fs : str -> option str;
  a_log : list (str * str);
  a_kver : option str;
  a_out : list msg }.

Definition a_init (fs : str -> option str) : astate := AST fs [] None [].

Definition say (m : msg) : M astate unit := modify (fun s => AST (a_fs s) (a_log s) (a_kver s) (a_out s ++ [m])).

(** str.startswith(), str.endswith() of one character *)
Definition starts (c : ascii) (s : str) : bool := match s with d :: _ => Ascii.eqb c d | [] => false end.
Definition ends (c : ascii) (s : str) : bool := starts c (rev s).
(** str.strip("[]") *)
Definition unbracket (s : str) : str := strip_by (fun c => Ascii.eqb "["%char c || Ascii.eqb "]"%char c) s.

Section Aspm.
  Variable env : aenv.

  (** LocalProcessManager.py:294-330 open() with the mode "r", and read() *)
  Definition read_file (p : str) : M astate str :=
    let! fs := gets a_fs in
    match fs p with
    | None => throw ENotFound
    | Some t => if ae_unreadable env p then throw EError else ret t
    end.

  (** The file is opened and the text is written. *)
  Definition store (p old v : str) : M astate unit :=
    match ae_write env p old v with
    | None => throw EError
    | Some new => modify (fun s => AST (fun q => if str_eqb q p then Some new else a_fs s q) (a_log s ++ [(p, v)]) (a_kver s) (a_out s))
    end.

  (** ASPM.py:21-38 _get_policies() *)
  Definition get_policies_raw (do_strip : bool) : M astate (list str) := fun s =>
    match read_file policy_path s with
    | (Exn _, s') => (Exn EError, s')
    | (Ok t, s') =>
        let ps := split_csv_line " " false false (strip t) in
        (Ok (if do_strip then map unbracket ps else ps), s')
    end.

  (** ASPM.py:40-61 set_policy(); the mode "r+" does not create the file *)
  Definition set_policy (policy : str) : M astate unit :=
    let! policies := get_policies_raw true in
    if negb (existsb (str_eqb policy) policies) then throw EError
    else
      let! fs := gets a_fs in
      match fs policy_path with
      | None => throw EError
      | Some old => store policy_path old policy
      end.

  (** ASPM.py:63-69 get_policy() *)
  Definition get_policy : M astate str :=
    let! policies := get_policies_raw false in
    match filter (fun p => starts "["%char p && ends "]"%char p) policies with
    | [] => throw EIndex
    | p :: _ => ret (unbracket p)
    end.

  (** ASPM.py:71-75 get_policies() *)
  Definition get_policies : M astate (list str) := get_policies_raw true.

  (** ASPM.py:77-109 _l1_file_not_found().  An empty version text counts as none (88, 96). *)
  Definition l1_not_found {A} (addr : str) : M astate A :=
    if negb (ae_dir env (dev_path addr)) then throw EError
    else
      (let! kv := gets a_kver in
       match kv with
       | Some (_ :: _) => ret tt
       | _ => match ae_uname env with
              | Ok v => modify (fun s => AST (a_fs s) (a_log s) (Some v) (a_out s))
              | Exn _ => ret tt
              end
       end) ;;
      let! kv := gets a_kver in
      match kv with
      | Some (c :: v) =>
          let! old := lift (kver_lt (c :: v) (s2l "5.5")) in
          if old then throw ENotSupported else throw ENotSupported
      | _ => throw ENotSupported
      end.

  (** ASPM.py:111-132 is_l1_enabled() *)
  Definition is_l1_enabled (addr : str) : M astate bool := fun s =>
    match read_file (l1_path addr) s with
    | (Exn ENotFound, s') => l1_not_found addr s'
    | (Exn _, s') => (Exn EError, s')
    | (Ok t, s') =>
        match str_to_int t with
        | Ok n => (Ok (negb (n =? 0)), s')
        | Exn e => (Exn e, s')
        end
    end.

  (** ASPM.py:134-154 toggle_l1_state().  The mode "w" would create the file: without the directory that is "not found",
      in the directory the kernel does not permit it. *)
  Definition toggle_l1_state (addr : str) (enable : bool) : M astate unit :=
    let val := if enable then s2l "1" else s2l "0" in
    let! fs := gets a_fs in
    match fs (l1_path addr) with
    | None => if ae_dir env (link_path addr) then throw EError else l1_not_found addr
    | Some old => store (l1_path addr) old val
    end.

  (** _PepcASPM.py:19-25 _print_l1_state() *)
  Definition print_l1 (addr : str) : M astate unit :=
    let! on := is_l1_enabled addr in say (ML1 on addr).

  (** The device option; an empty text counts as none. *)
  Definition device (d : option str) : option str := match d with Some (_ :: _) => d | _ => None end.

  (** _PepcASPM.py:27-51 aspm_info_command().  [policy], [policies], [l1]: the option is given. *)
  Definition info (policy policies l1 : bool) (dev : option str) : M astate unit :=
    let none := negb (policy || policies || l1) in
    match device dev with
    | Some addr => print_l1 addr
    | None => if l1 then throw EError else ret tt
    end ;;
    (if policy || none then let! p := get_policy in say (MPolicy p) else ret tt) ;;
    (if policies || none then let! ps := get_policies in say (MPolicies ps) else ret tt).

  (** _PepcASPM.py:53-75 _handle_policy_option().  [others]: another option is given. *)
  Definition handle_policy (others : bool) (dev : option str) (name : option str) : M astate unit :=
    match device dev, others with
    | Some _, false => throw EError
    | _, _ =>
        let! cur := get_policy in
        match name with
        | Some (c :: n) =>
            let name := c :: n in
            set_policy name ;;
            let! new := get_policy in
            if negb (str_eqb name new) then throw EError
            else if negb (str_eqb name cur) then say (MChanged cur name)
            else say (MAgain name)
        | _ => say (MPolicy cur)
        end
    end.

  (** _PepcASPM.py:89, 94 *)
  Definition valid_vals : list str := map s2l ["false"; "true"; "off"; "on"; "disable"; "enable"]%string.
  Definition enable_vals : list str := map s2l ["true"; "on"; "enable"]%string.

  (** _PepcASPM.py:77-96 _handle_1l_aspm_options() *)
  Definition handle_l1 (dev : option str) (state : option str) : M astate unit :=
    match device dev with
    | None => throw EError
    | Some addr =>
        match state with
        | Some (c :: st) =>
            let state := lower (c :: st) in
            if negb (existsb (str_eqb state) valid_vals) then throw EError
            else
              toggle_l1_state addr (existsb (str_eqb state) enable_vals) ;;
              say (MToggled state addr)
        | _ => print_l1 addr
        end
    end.

  (** _PepcASPM.py:98-113 aspm_config_command().  The options are absent, given without a value, or given with one. *)
  Definition config (policy : option (option str)) (l1 : option (option str)) (dev : option str) : M astate unit :=
    match policy, l1 with
    | None, None => throw EError
    | _, _ =>
        (match policy with
         | Some name => handle_policy (match l1 with Some _ => true | None => false end) dev name
         | None => ret tt
         end) ;;
        (match l1 with
         | Some state => handle_l1 dev state
         | None => ret tt
         end)
    end.
End Aspm.
