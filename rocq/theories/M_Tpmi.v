(** Model of TPMI register access: pepclibs/Tpmi.py.

    Feature, register and bit field names and PCI addresses are represented by numbers.  Not modelled:
    the search for spec files and debugfs, the checks of key names and letter case in
    '_format_fdict()', 'addr=None' (only 'iter_feature()' accepts it). *)
From Verif Require Import Base M_Text M_Kver M_Osa.

(** ** The environment: the 'mem_dump' and 'mem_write' files of the kernel *)

(** What the kernel prints for one instance: a header with the instance number and an address, and rows
    of 32-bit words.  A row has the offset of its first word; older kernels put it in brackets.
    Offsets and words are kept as the hexadecimal text printed. *)
Record drow := DR { dr_old : bool; dr_at : str; dr_words : list str }.
Record dsection := DS { ds_inst : Z; ds_where : str; ds_rows : list drow }.
Definition dump := list dsection.

Definition show_head (s : dsection) : str :=
  s2l "TPMI Instance:" ++ dec (ds_inst s) ++ s2l " offset:0x" ++ ds_where s.
Definition show_row (r : drow) : str :=
  (if dr_old r then "["%char else " "%char) :: dr_at r ++
  (if dr_old r then "]"%char else ":"%char) :: " "%char :: join " " (dr_words r).
Definition newline : ascii := "010"%char.
Definition show_section (s : dsection) : str :=
  show_head s ++ newline :: flat_map (fun r => show_row r ++ [newline]) (ds_rows s).

(** The text of 'mem_dump'. *)
Definition show (d : dump) : str := flat_map show_section d.

(** The value of hexadecimal digits. *)
Definition hexval (s : str) : Z :=
  fold_left (fun v c => 16 * v + match digit_val c with Some x => x | None => 0 end) s 0.

(** printf("%08x") *)
Definition hex_char (d : Z) : ascii :=
  ascii_of_nat (Z.to_nat (if d <? 10 then 48 + d else 97 + (d - 10))).
Fixpoint hex_digits (n : nat) (v : Z) : str :=
  match n with
  | O => []
  | S n' => hex_digits n' (v / 16) ++ [hex_char (v mod 16)]
  end.
Definition hex8 (v : Z) : str := hex_digits 8 v.

(** Writing "instance,offset,value" to 'mem_write' changes the addressed word; an instance or an offset
    that does not exist is refused. *)
Fixpoint poke_words (at_ : Z) (ws : list str) (o : Z) (w : str) : list str :=
  match ws with
  | [] => []
  | x :: t => (if at_ =? o then w else x) :: poke_words (at_ + 4) t o w
  end.
Definition poke_row (r : drow) (o : Z) (w : str) : drow :=
  DR (dr_old r) (dr_at r) (poke_words (hexval (dr_at r)) (dr_words r) o w).
Definition poke (d : dump) (i o : Z) (w : str) : dump :=
  map (fun s => if ds_inst s =? i then DS (ds_inst s) (ds_where s) (map (fun r => poke_row r o w) (ds_rows s))
                else s) d.
Definition word_exists (d : dump) (i o : Z) : bool :=
  existsb (fun s => (ds_inst s =? i) &&
                    existsb (fun r => existsb (fun k => hexval (dr_at r) + 4 * Z.of_nat k =? o)
                                              (seq 0 (length (dr_words r)))) (ds_rows s)) d.

(** ** The code *)

(** int(s, 16) *)
Definition int_base16 (l : str) : option Z :=
  match l with
  | c :: x :: t' =>
      if (Ascii.eqb c "0" && (Ascii.eqb x "x" || Ascii.eqb x "X"))%bool then int_digits 16 (skip_us t')
      else int_digits 16 l
  | _ => int_digits 16 l
  end.
Definition py_int16 (s : str) : option Z :=
  match lstrip_by is_cspace s with
  | c :: t =>
      if Ascii.eqb c "+" then int_base16 t
      else if Ascii.eqb c "-" then option_map Z.opp (int_base16 t)
      else int_base16 (c :: t)
  | [] => None
  end.

(** pepclibs/helperlibs/Trivial.py:89-127 'str_to_int()' with base=16 *)
Definition str_to_int16 (s : str) : res Z :=
  match py_int16 s with Some v => Ok v | None => Exn EBadFormat end.

(** [0-9a-f], and the greedy [0-9a-f]+ *)
Definition lhexb (c : ascii) : bool :=
  let n := Z.of_nat (nat_of_ascii c) in ((48 <=? n) && (n <=? 57)) || ((97 <=? n) && (n <=? 102)).
Fixpoint span_hex (l : str) : str * str :=
  match l with
  | [] => ([], [])
  | c :: t => if lhexb c then let (d, r) := span_hex t in (c :: d, r) else ([], l)
  end.
Definition hex1 (l : str) : option (str * str) :=
  match span_hex l with ([], _) => None | (d, r) => Some (d, r) end.

(** str.rstrip() *)
Definition rstrip (l : str) : str := rev (lstrip_by is_space (rev l)).

(** Tpmi.py:553 the regular expression of a header line: the instance number *)
Definition match_head (line : str) : option str :=
  match lit (s2l "TPMI Instance:") line with
  | Some l =>
      match digits1 l with
      | Some (num, l1) =>
          match lit (s2l " offset:0x") l1 with
          | Some l2 => match hex1 l2 with Some _ => Some num | None => None end
          | None => None
          end
      | None => None
      end
  | None => None
  end.

(** Tpmi.py:562 the regular expression of a row: the offset and the rest.  The line has no newline,
    so the final dot-star takes all. *)
Definition match_row (line : str) : option (str * str) :=
  match line with
  | c :: l =>
      if (Ascii.eqb c " " || Ascii.eqb c "[")%bool then
        match hex1 l with
        | Some (offs, c1 :: c2 :: rest) =>
            if ((Ascii.eqb c1 ":" || Ascii.eqb c1 "]") && Ascii.eqb c2 " ")%bool then Some (offs, rest)
            else None
        | _ => None
        end
      else None
  | [] => None
  end.

(** instance -> register offset -> position in the file *)
Definition mdmap := list (Z * list (Z * Z)).
(** The loop variables: mdmap, pos, and 'instance' (unbound at first) *)
Definition mdstate := (mdmap * Z * option Z)%type.

(** Tpmi.py:567-572 the loop over the values of a row; carries (mdmap, line_pos, offs) *)
Definition md_value (pos : Z) (inst : option Z) (st : mdmap * Z * Z) (regval : str)
  : res (mdmap * Z * Z) :=
  let '(md, line_pos, offs) := st in
  let? _ := str_to_int16 regval in
  match inst with
  | None => Exn EUnbound
  | Some i =>
      match dget Z.eqb md i with
      | None => Exn EKey
      | Some od => Ok (dset Z.eqb md i (dset Z.eqb od offs (pos + line_pos)), line_pos + 9, offs + 4)
      end
  end.

(** Tpmi.py:548-576 the loop over the lines *)
Definition md_line (st : mdstate) (line0 : str) : res mdstate :=
  let '(md, pos, inst) := st in
  let line := rstrip line0 in
  let next := pos + Z.of_nat (length line) + 1 in
  match match_head line with
  | Some num =>
      let? i := str_to_int num in
      Ok (dset Z.eqb md i [], next, Some i)
  | None =>
      match match_row line with
      | Some (otext, rest) =>
          let? offs := str_to_int16 otext in
          let? st' := rfold (md_value pos inst) (split_csv_line " " false false rest)
                            (md, 3 + Z.of_nat (length otext), offs) in
          Ok (fst (fst st'), next, inst)
      | None => Exn EError
      end
  end.

(** "for line in fobj": the last piece after the final newline is no line *)
Definition file_lines (text : str) : list str :=
  match rev (split_on newline text) with
  | [] :: t => rev t
  | l => rev l
  end.

(** Tpmi.py:524-578 _build_mdmap(), of the text of the file *)
Definition build_mdmap (text : str) : res mdmap :=
  let? st := rfold md_line (file_lines text) ([], 0, None) in Ok (fst (fst st)).

(** Tpmi.py:591-603 _validate_instance_offset(): the message takes max() of the offsets, which fails
    when there are none *)
Definition validate_instance_offset (md : mdmap) (inst offs : Z) : res Z :=
  match dget Z.eqb md inst with
  | None => Exn EError
  | Some od =>
      match dget Z.eqb od offs with
      | Some p => if (offs <? 0) || negb (offs mod 4 =? 0) then Exn EError else Ok p
      | None => match od with [] => Exn EValue | _ => Exn EError end
      end
  end.

(** Tpmi.py:605-618 _read(), of the text of the file *)
Definition read_text (md : mdmap) (text : str) (inst offs : Z) : res Z :=
  let? p := validate_instance_offset md inst offs in
  str_to_int16 (firstn 8 (skipn (Z.to_nat p) text)).

(** ** Register definitions *)
(** A register of a spec file: offset, width, bit fields with their "high:low" text. *)
Record rspec := RS { rs_offset : Z; rs_width : Z; rs_fields : list (Z * str) }.
(** The same after '_format_fdict()': bit fields have a shift and a mask. *)
Record rdict := RD { rd_offset : Z; rd_width : Z; rd_fields : list (Z * (Z * Z)) }.

(** Tpmi.py:320-339 *)
Definition format_bits (bits : str) : res (Z * Z) :=
  match split_csv_line ":" false false bits with
  | [h; l] =>
      let? high := str_to_int h in
      let? low := str_to_int l in
      if high <? low then Exn EError
      else if (high + 1 <? 0) || (low <? 0) then Exn EValue (* negative shift count *)
      else Ok (low, (Z.shiftl 1 (high + 1) - 1) - (Z.shiftl 1 low - 1))
  | _ => Exn EError
  end.

(** Tpmi.py:277-339 one register *)
Definition format_reg (r : rspec) : res rdict :=
  if negb (rs_offset r mod 4 =? 0) then Exn EError
  else if negb ((rs_width r =? 32) || (rs_width r =? 64)) then Exn EError
  else
    let? fs := rmap (rs_fields r) (fun f => let? sm := format_bits (snd f) in Ok (fst f, sm)) in
    Ok (RD (rs_offset r) (rs_width r) fs).

(** Tpmi.py:234-341 _format_fdict() *)
Definition format_fdict (spec : list (Z * rspec)) : res (list (Z * rdict)) :=
  rmap spec (fun r => let? rd := format_reg (snd r) in Ok (fst r, rd)).

(** Tpmi.py:638-650 _get_bitfield() and 652-666 _set_bitfield(), of the shift and the mask *)
Definition get_bitfield (regval : Z) (bf : Z * Z) : Z := Z.shiftr (Z.land regval (snd bf)) (fst bf).
Definition set_bitfield (regval bitval : Z) (bf : Z * Z) : Z :=
  Z.lor (Z.lxor regval (Z.land regval (snd bf))) (Z.shiftl bitval (fst bf)).

(** ** The object *)
(** Register tables of the features; 'fmaps': feature -> device address -> package; the keys of
    'pkg2addrs'. *)
Record tenv := TE {
  te_fdicts : list (Z * list (Z * rdict));
  te_fmaps : list (Z * list (Z * Z));
  te_packages : list Z
}.

(** The files of the devices, by (address, feature), and the cached mdmaps of the fmaps. *)
Record tstate := TS { t_devs : list ((Z * Z) * dump); t_mds : list ((Z * Z) * mdmap) }.

Definition pair_eqb (a b : Z * Z) : bool := (fst a =? fst b) && (snd a =? snd b).

(** open("mem_dump") *)
Definition t_text (addr fname : Z) : M tstate str :=
  fun s => match dget pair_eqb (t_devs s) (addr, fname) with
           | Some d => (Ok (show d), s)
           | None => (Exn ENotFound, s)
           end.

(** The kernel side of 'mem_write' *)
Definition t_poke (addr fname inst offs v : Z) : M tstate unit :=
  fun s => match dget pair_eqb (t_devs s) (addr, fname) with
           | Some d =>
               if word_exists d inst offs
               then (Ok tt, TS (dset pair_eqb (t_devs s) (addr, fname) (poke d inst offs (hex8 v))) (t_mds s))
               else (Exn EError, s)
           | None => (Exn ENotFound, s)
           end.

(** Tpmi.py:524-578 _build_mdmap() *)
Definition t_build (addr fname : Z) : M tstate mdmap :=
  let! text := t_text addr fname in lift (build_mdmap text).

(** Tpmi.py:748-755 _get_mdmap(): an empty mdmap counts as absent *)
Definition t_get_mdmap (fname addr : Z) : M tstate mdmap :=
  fun s => match dget pair_eqb (t_mds s) (addr, fname) with
           | Some (e :: md) => (Ok (e :: md), s)
           | _ => (let! md := t_build addr fname in
                   modify (fun s => TS (t_devs s) (dset pair_eqb (t_mds s) (addr, fname) md)) ;; ret md) s
           end.

(** Tpmi.py:605-618 _read() *)
Definition t_read (addr fname inst offs : Z) (md : mdmap) : M tstate Z :=
  let! _ := lift (validate_instance_offset md inst offs) in
  let! text := t_text addr fname in
  lift (read_text md text inst offs).

Section Env.
  Variable env : tenv.

  (** Tpmi.py:580-589 _get_regdict() *)
  Definition get_regdict (fname reg : Z) : res rdict :=
    match dget Z.eqb (te_fdicts env) fname with
    | None => Exn ENotSupported
    | Some fd => match dget Z.eqb fd reg with Some r => Ok r | None => Exn EError end
    end.

  (** Tpmi.py:620-636 _get_bfdict() *)
  Definition get_bfdict (fname reg bf : Z) : res (Z * Z) :=
    let? rd := get_regdict fname reg in
    match dget Z.eqb (rd_fields rd) bf with Some b => Ok b | None => Exn EError end.

  (** Tpmi.py:668-694 _read_register() with 'mdmap=None' *)
  Definition t_read_register0 (fname addr inst reg : Z) (bf : option Z) : M tstate Z :=
    let! rd := lift (get_regdict fname reg) in
    let! md := t_build addr fname in
    let! v0 := t_read addr fname inst (rd_offset rd) md in
    let! v := (if 32 <? rd_width rd then
                 let! v1 := t_read addr fname inst (rd_offset rd + 4) md in
                 ret (v0 + Z.shiftl v1 32)
               else ret v0) in
    match bf with
    | None => ret v
    | Some b => let! sm := lift (get_bfdict fname reg b) in ret (get_bitfield v sm)
    end.

  (** Tpmi.py:735-746: the words are written from the lowest; 'n' bounds the number of turns by the
      width *)
  Fixpoint t_write_words (n : nat) (addr fname inst offs width value : Z) : M tstate unit :=
    match n with
    | O => ret tt
    | S n' =>
        if 0 <? width then
          t_poke addr fname inst offs (Z.land value 0xffffffff) ;;
          t_write_words n' addr fname inst (offs + 4) (width - 32) (Z.shiftr value 32)
        else ret tt
    end.

  (** Tpmi.py:696-746 _write_register() *)
  Definition t_write_register0 (value fname addr inst reg : Z) (bf : option Z) : M tstate unit :=
    let! rd := lift (get_regdict fname reg) in
    if value <? 0 then throw EError
    else if Z.shiftl 1 (rd_width rd) - 1 <? value then throw EError
    else
      let! md := t_get_mdmap fname addr in
      let! _ := lift (validate_instance_offset md inst (rd_offset rd)) in
      let! v := (match bf with
                 | None => ret value
                 | Some b =>
                     let! regval := t_read_register0 fname addr inst reg None in
                     let! sm := lift (get_bfdict fname reg b) in
                     ret (set_bitfield regval value sm)
                 end) in
      t_write_words (Z.to_nat (rd_width rd)) addr fname inst (rd_offset rd) (rd_width rd) v.

  (** Tpmi.py:767-773 _validate_fname(), 792-795 of _validate_addr(), 820-831 _validate_regname() *)
  Definition validate_names (fname addr reg : Z) (bf : option Z) : res unit :=
    match dget Z.eqb (te_fmaps env) fname with
    | None => Exn EError
    | Some fmap =>
        match dget Z.eqb fmap addr with
        | None => Exn EError
        | Some _ =>
            let? rd := get_regdict fname reg in
            match bf with
            | None => Ok tt
            | Some b => match dget Z.eqb (rd_fields rd) b with Some _ => Ok tt | None => Exn EError end
            end
        end
    end.

  (** Tpmi.py:833-842 _validate_instance() *)
  Definition validate_instance (fname addr inst : Z) : M tstate unit :=
    let! md := t_get_mdmap fname addr in
    match dget Z.eqb md inst with Some _ => ret tt | None => throw EError end.

  (** Tpmi.py:925-941 read_register() *)
  Definition t_read_register (fname addr inst reg : Z) (bf : option Z) : M tstate Z :=
    lift (validate_names fname addr reg bf) ;;
    validate_instance fname addr inst ;;
    t_read_register0 fname addr inst reg bf.

  (** Tpmi.py:956-973 write_register() *)
  Definition t_write_register (value fname addr inst reg : Z) (bf : option Z) : M tstate unit :=
    lift (validate_names fname addr reg bf) ;;
    validate_instance fname addr inst ;;
    t_write_register0 value fname addr inst reg bf.

  (** Tpmi.py:775-801 _validate_addr() *)
  Definition validate_addr (fmap : list (Z * Z)) (addr package : option Z) : res unit :=
    match addr with
    | None =>
        match package with
        | None => Ok tt
        | Some p => if inb p (te_packages env) then Ok tt else Exn EError
        end
    | Some a =>
        match dget Z.eqb fmap a with
        | None => Exn EError
        | Some correct =>
            match package with
            | None => Ok tt
            | Some p => if p =? correct then Ok tt else Exn EError
            end
        end
    end.

  (** "(None,)" for an absent collection *)
  Definition or_none (l : option (list Z)) : list (option Z) :=
    match l with None => [None] | Some l => map Some l end.

  (** Tpmi.py:915-923: the tuples of one device and package; 'instances' survives to the next turn *)
  Definition iter_device (fname addr package : Z) (st : option (list Z) * list (Z * Z * Z))
    : M tstate (option (list Z) * list (Z * Z * Z)) :=
    let (instances, out) := st in
    let! insts := (match instances with
                   | Some l => mfor l (fun i => validate_instance fname addr i) ;; ret l
                   | None => let! md := t_get_mdmap fname addr in ret (map fst md)
                   end) in
    ret (Some insts, out ++ map (fun i => (addr, package, i)) insts).

  (** "for x in l: a = f(a, x)" *)
  Fixpoint mfold {S A B} (f : A -> B -> M S A) (l : list B) (a : A) : M S A :=
    match l with
    | [] => ret a
    | x :: t => let! a' := f a x in mfold f t a'
    end.

  (** Tpmi.py:885-923 iter_feature(), run to its end: the list of tuples.  Simplification: an unknown
      feature is always reported before a bad package. *)
  Definition iter_feature (fname : Z) (addrs packages instances : option (list Z))
    : M tstate (list (Z * Z * Z)) :=
    let! fmap := lift (match dget Z.eqb (te_fmaps env) fname with Some m => Ok m | None => Exn EKey end) in
    lift (rmap (or_none addrs) (fun a => rmap (or_none packages) (fun p => validate_addr fmap a p))) ;;
    let alist := match addrs with Some l => l | None => map fst fmap end in
    let plist := match packages with Some l => l | None => te_packages env end in
    let! st := mfold (fun st a =>
                 match dget Z.eqb fmap a with
                 | None => ret st
                 | Some pkg => mfold (fun st p => if pkg =? p then iter_device fname a p st else ret st) plist st
                 end) alist (instances, []) in
    ret (snd st).
End Env.

(** ** The constructor *)
(** The names of the 'tpmi_info' feature, of its TPMI_BUS_INFO register and PACKAGE_ID bit field. *)
Record tnames := TN { n_info : Z; n_bus : Z; n_pkgid : Z }.

Section Init.
  Variables (nm : tnames) (fdicts : list (Z * list (Z * rdict))).
  Variable fid2fname : list (Z * Z).

  (** Tpmi.py:452-469 one directory of a device: 'fname2addrs' *)
  Definition add_dir (addr : Z) (acc : list (Z * list Z)) (fid : Z) : list (Z * list Z) :=
    match dget Z.eqb fid2fname fid with
    | None => acc
    | Some f =>
        match dget Z.eqb acc f with
        | None => dset Z.eqb acc f [addr]
        | Some l => dset Z.eqb acc f (l ++ [addr])
        end
    end.

  (** Tpmi.py:451-469: 'paths' lists the devices with the feature IDs of their directories *)
  Definition fname2addrs (paths : list (Z * list Z)) : list (Z * list Z) :=
    fold_left (fun acc p => fold_left (add_dir (fst p)) (snd p) acc) paths [].

  (** Tpmi.py:460-462 'unknown_fids' *)
  Definition unknown_fids (paths : list (Z * list Z)) : list Z :=
    flat_map (fun p => filter (fun fid => match dget Z.eqb fid2fname fid with None => true | Some _ => false end)
                              (snd p)) paths.

  (** fmaps[fname], and 'fmaps[fname][addr] = ...': the entry of 'fname' exists, see 483-485 *)
  Definition fm_get (fmaps : list (Z * list (Z * Z))) (f : Z) : list (Z * Z) :=
    match dget Z.eqb fmaps f with Some m => m | None => [] end.
  Definition fm_add (fmaps : list (Z * list (Z * Z))) (f addr pkg : Z) : list (Z * list (Z * Z)) :=
    dset Z.eqb fmaps f (dset Z.eqb (fm_get fmaps f) addr pkg).

  (** Tpmi.py:487-508 one address; carries 'fmaps' and the keys of 'pkg2addrs'.  Simplification: the
      register is read with an mdmap built again instead of the one just built. *)
  Definition build_addr (f : Z) (st : list (Z * list (Z * Z)) * list Z) (addr : Z)
    : M tstate (list (Z * list (Z * Z)) * list Z) :=
    let (fmaps, pkgs) := st in
    match dget Z.eqb (fm_get fmaps f) addr with
    | Some _ => ret st
    | None =>
        let! st1 := (match dget Z.eqb (fm_get fmaps (n_info nm)) addr with
                     | Some _ => ret st
                     | None =>
                         let! md := t_build addr (n_info nm) in
                         let! pkg := t_read_register0 (TE fdicts [] []) (n_info nm) addr 0 (n_bus nm)
                                                      (Some (n_pkgid nm)) in
                         modify (fun s => TS (t_devs s) (dset pair_eqb (t_mds s) (addr, n_info nm) md)) ;;
                         ret (fm_add fmaps (n_info nm) addr pkg, if inb pkg pkgs then pkgs else pkgs ++ [pkg])
                     end) in
        if f =? n_info nm then ret st1
        else match dget Z.eqb (fm_get (fst st1) (n_info nm)) addr with
             | Some pkg => ret (fm_add (fst st1) f addr pkg, snd st1)
             | None => throw EKey
             end
    end.

  (** Tpmi.py:483-485 a feature without devices so far has an empty map *)
  Definition fm_init (fmaps : list (Z * list (Z * Z))) (f : Z) : list (Z * list (Z * Z)) :=
    match dget Z.eqb fmaps f with Some _ => fmaps | None => dset Z.eqb fmaps f [] end.

  (** Tpmi.py:442-511 _build_fmaps(), run by the constructor *)
  Definition tpmi_init (paths : list (Z * list Z)) : M tstate tenv :=
    let fa := fname2addrs paths in
    match fa with
    | [] => throw ENotSupported
    | _ :: _ =>
        match dget Z.eqb fa (n_info nm) with
        | None => throw EError
        | Some _ =>
            let! st := mfold (fun st e => mfold (build_addr (fst e)) (snd e) (fm_init (fst st) (fst e), snd st))
                             fa ([(n_info nm, [])], []) in
            ret (TE fdicts (fst st) (snd st))
        end
    end.
End Init.
