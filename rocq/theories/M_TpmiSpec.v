(** Model of the TPMI spec files and of the features found on a host: pepclibs/Tpmi.py and the 'tpmi ls' command of
    pepctool/_PepcTpmi.py.

    Feature names are texts here; register names and PCI addresses are numbers as in M_Tpmi (addresses in the order of their
    texts).  A device directory "tpmi-id-<hex>" is represented by its number. *)
From Verif Require Import Base M_Text M_Tpmi.

(** What a spec file may contain.  Simplifications: of the YAML values only texts and register tables are told apart; keys
    are texts. *)
Inductive yval := YScalar (t : str) | YRegs (l : list (Z * rspec)).
Inductive content :=
| CBad                              (* cannot be opened, is no regular file, is too large, or is empty *)
| CBroken                           (* not YAML *)
| CMap (kvs : list (str * yval)).   (* keys and values in the order of the file *)

(** The files of a spec directory in the order os.listdir() gives them. *)
Definition specdir := list (str * content).

Definition k_name : str := s2l "name".
Definition k_desc : str := s2l "desc".
Definition k_fid : str := s2l "feature-id".
Definition k_regs : str := s2l "registers".

(** pepclibs/Tpmi.py:122-141 _find_spec_dirs(): the directory of the user, if there is one, comes first *)
Definition find_spec_dirs (user : option specdir) (standard : specdir) : list specdir :=
  match user with Some d => [d; standard] | None => [standard] end.

(** The 'sdict' dictionary of _load_sdict() while it is filled. *)
Record header := HD { h_name : option str; h_desc : option str; h_fid : option Z }.
(** The 'sdict' dictionary; the path is the number of the directory and the file name. *)
Record sdict := SD { sd_name : str; sd_desc : str; sd_fid : Z; sd_path : Z * str }.

(** Tpmi.py:183-211 the loop of _load_sdict().  A table where a text is expected, or the end of the mapping where a key is
    expected, is an event without the 'value' attribute: an AttributeError, which is EIndex here. *)
Fixpoint head_loop (h : header) (kvs : list (str * yval)) : res (str * str * Z) :=
  match h with
  | HD (Some n) (Some d) (Some i) => Ok (n, d, i)
  | _ =>
      match kvs with
      | [] => Exn EIndex
      | (key, v) :: t =>
          if str_eqb key k_name then
            match h_name h, v with
            | Some _, _ => Exn EError
            | None, YRegs _ => Exn EIndex
            | None, YScalar x => head_loop (HD (Some x) (h_desc h) (h_fid h)) t
            end
          else if str_eqb key k_desc then
            match h_desc h, v with
            | Some _, _ => Exn EError
            | None, YRegs _ => Exn EIndex
            | None, YScalar x => head_loop (HD (h_name h) (Some x) (h_fid h)) t
            end
          else if str_eqb key k_fid then
            match h_fid h, v with
            | Some _, _ => Exn EError
            | None, YRegs _ => Exn EIndex
            | None, YScalar x => let? i := str_to_int x in head_loop (HD (h_name h) (h_desc h) (Some i)) t
            end
          else Exn EError
      end
  end.

(** Tpmi.py:143-217 _load_sdict().  An error of the YAML parser is not an Error; it is EValue here. *)
Definition load_sdict (path : Z * str) (c : content) : res sdict :=
  match c with
  | CBad | CMap [] => Exn EError
  | CBroken => Exn EValue
  | CMap kvs => let? x := head_loop (HD None None None) kvs in
                let '(n, d, i) := x in Ok (SD n d i path)
  end.

(** str.endswith() *)
Definition ends_with (sfx s : str) : bool := str_eqb (skipn (length s - length sfx) s) sfx.
Definition is_yaml (fn : str) : bool := ends_with (s2l ".yml") fn || ends_with (s2l ".yaml") fn.

(** "except Error": the exceptions of the project, not those of Python *)
Definition is_Error (e : exc) : bool :=
  match e with EKey | EValue | EIndex | EUnbound | EOverflow => false | _ => true end.

(** Tpmi.py:407-430 the loop over the files of a directory with its three counters *)
Fixpoint scan_files (dir : Z) (files : specdir) (cnt non errs : Z) (sd : list (str * sdict)) : res (list (str * sdict)) :=
  match files with
  | [] => Ok sd
  | (fn, c) :: t =>
      if negb (is_yaml fn) then
        if 32 <? non + 1 then Exn EError else scan_files dir t cnt (non + 1) errs sd
      else
        match load_sdict (dir, fn) c with
        | Exn e => if is_Error e then
                     if 4 <? errs + 1 then Exn EError else scan_files dir t cnt non (errs + 1) sd
                   else Exn e
        | Ok x => if 256 <? cnt + 1 then Exn EError
                  else scan_files dir t (cnt + 1) non errs (dset str_eqb sd (sd_name x) x)
        end
  end.

(** Tpmi.py:398-432 the loop over the directories, numbered from 'k' *)
Fixpoint scan_dirs (k : Z) (dirs : list specdir) (sd : list (str * sdict)) : res (list (str * sdict)) :=
  match dirs with
  | [] => Ok sd
  | d :: t => let? sd' := scan_files k d 0 0 0 sd in scan_dirs (k + 1) t sd'
  end.

(** Tpmi.py:398-436 _build_sdicts() *)
Definition build_sdicts (dirs : list specdir) : res (list (str * sdict)) :=
  let? sd := scan_dirs 0 dirs [] in
  match sd with [] => Exn ENotSupported | _ => Ok sd end.

(** Tpmi.py:438-440 self._fid2fname *)
Definition fid2fname (sd : list (str * sdict)) : list (Z * str) :=
  fold_left (fun acc e => dset Z.eqb acc (sd_fid (snd e)) (fst e)) sd [].

(** Tpmi.py:257-276 the keys at the top of the file *)
Definition top_keys : list str := [k_name; k_desc; k_fid; k_regs].

(** YAML.load() and Tpmi.py:234-341 _format_fdict(): of a repeated key the last value counts.  A text in place of the
    registers is an AttributeError. *)
Definition load_fdict (c : content) : res (list (Z * rdict)) :=
  match c with
  | CBad | CBroken => Exn EError
  | CMap kvs =>
      let d := fold_left (fun d kv => dset str_eqb d (fst kv) (snd kv)) kvs [] in
      match dget str_eqb d k_regs with
      | None => Exn EError
      | Some v =>
          if negb (forallb (fun kv => existsb (str_eqb (fst kv)) top_keys) d) then Exn EError
          else if negb (forallb (fun k => match dget str_eqb d k with Some _ => true | None => false end) top_keys) then Exn EError
          else match v with YScalar _ => Exn EIndex | YRegs l => format_fdict l end
      end
  end.

(** Tpmi.py:343-362 _get_fdict(): the first directory with the file "<fname>.yml" *)
Fixpoint get_fdict (dirs : list specdir) (fname : str) : res (list (Z * rdict)) :=
  match dirs with
  | [] => Exn ENotSupported
  | d :: t => match dget str_eqb d (fname ++ s2l ".yml") with
              | Some c => load_fdict c
              | None => get_fdict t fname
              end
  end.

(** Tpmi.py:442-475 the device directories: the features with the addresses of their devices, and the unknown IDs *)
Definition add_fid (f2n : list (Z * str)) (addr : Z) (st : list (str * list Z) * list Z) (fid : Z)
  : list (str * list Z) * list Z :=
  let '(fa, un) := st in
  match dget Z.eqb f2n fid with
  | None | Some [] => (fa, un ++ [fid])
  | Some fname =>
      match dget str_eqb fa fname with
      | None => (dset str_eqb fa fname [addr], un)
      | Some l => (dset str_eqb fa fname (l ++ [addr]), un)
      end
  end.
Definition scan_devices (f2n : list (Z * str)) (paths : list (Z * list Z)) : list (str * list Z) * list Z :=
  fold_left (fun st p => fold_left (add_fid f2n (fst p)) (snd p) st) paths ([], []).

Definition n_tpmi_info : str := s2l "tpmi_info".

(** What Tpmi.Tpmi() holds: self._sdicts, the names of self._fmaps with the addresses of their devices, and
    self._unknown_fids *)
Record found := FD { f_sdicts : list (str * sdict); f_fmaps : list (str * list Z); f_unknown : list Z }.

(** fmaps[fname]: each address once *)
Definition once (l : list Z) : list Z := dedup l.

(** Tpmi.py:442-510 _build_fmaps() and 398-440 _build_sdicts().  'tpmi_info' is the first in 'fmaps'.  Reading the package
    number of a device is modelled in M_Tpmi; here it is the function 'package'. *)
Definition discover (dirs : list specdir) (paths : list (Z * list Z)) (package : list (Z * rdict) -> Z -> res Z) : res found :=
  let? sd := build_sdicts dirs in
  let '(fa, un) := scan_devices (fid2fname sd) paths in
  match fa with
  | [] => Exn ENotSupported
  | _ =>
      match dget str_eqb fa n_tpmi_info with
      | None => Exn EError
      | Some ia =>
          let? fd := get_fdict dirs n_tpmi_info in
          let all := dedup (flat_map snd fa) in
          let? _ := rmap all (package fd) in
          Ok (FD sd ((n_tpmi_info, all) ::
                     flat_map (fun e => if str_eqb (fst e) n_tpmi_info then [] else [(fst e, once (snd e))]) fa) un)
      end
  end.

(** Tpmi.py:850-867 get_known_features(), 869-875 get_unknown_features() *)
Definition get_known_features (f : found) : res (list sdict) :=
  rmap (f_fmaps f) (fun e => match dget str_eqb (f_sdicts f) (fst e) with Some x => Ok x | None => Exn EKey end).
Definition get_unknown_features (f : found) : list Z := f_unknown f.

(** hex() of a number which is not negative *)
Fixpoint hex_loop (fuel : nat) (n : Z) (acc : str) : str :=
  match fuel with
  | O => acc
  | S f => let acc' := hex_char (n mod 16) :: acc in if n / 16 =? 0 then acc' else hex_loop f (n / 16) acc'
  end.
Definition py_hex (n : Z) : str := s2l "0x" ++ hex_loop (S (Z.to_nat (Z.log2 n))) n [].

(** ", ".join() *)
Fixpoint comma_join (l : list str) : str :=
  match l with [] => [] | [x] => x | x :: t => x ++ s2l ", " ++ comma_join t end.

(** pepctool/_PepcTpmi.py:21-37 the dictionary of _ls_long(): package -> address -> instances, of what iter_feature()
    yields *)
Definition ls_add (info : list (Z * list (Z * list Z))) (t : Z * Z * Z) : list (Z * list (Z * list Z)) :=
  let '(addr, package, inst) := t in
  let m := match dget Z.eqb info package with Some m => m | None => [] end in
  let l := match dget Z.eqb m addr with Some l => l | None => [] end in
  dset Z.eqb info package (dset Z.eqb m addr (if inb inst l then l else l ++ [inst])).
Definition ls_info (its : list (Z * Z * Z)) : list (Z * list (Z * list Z)) := fold_left ls_add its [].

Section Long.
  Variable addr_text : Z -> str.

  (** _PepcTpmi.py:39-53 the addresses of one package: the prefixes are not set back *)
  Fixpoint ls_addrs (pfx1 pfx2 : str) (package : Z) (l : list (Z * list Z)) : list str :=
    match l with
    | [] => []
    | (addr, insts) :: t =>
        let pfx1' := pfx2 ++ s2l "- " in
        let pfx2' := pfx2 ++ s2l "  " in
        (pfx1 ++ s2l "PCI address: " ++ addr_text addr) ::
        (pfx2' ++ s2l "Package: " ++ dec package) ::
        (pfx2' ++ s2l "Instances: " ++ rangify insts) :: ls_addrs pfx1' pfx2' package t
    end.

  (** sorted() of a dictionary's keys, with the values *)
  Definition by_key {A} (l : list (Z * A)) : list (Z * A) := sort_by (fun a b => fst a <=? fst b) l.

  (** _PepcTpmi.py:20-53 _ls_long() *)
  Definition ls_long (prefix : str) (its : list (Z * Z * Z)) : list str :=
    flat_map (fun p => ls_addrs (prefix ++ s2l "- ") (prefix ++ s2l "  ") (fst p) (by_key (snd p))) (by_key (ls_info its)).

  (** _PepcTpmi.py:55-80 tpmi_ls_command().  'iter' is iter_feature() of M_Tpmi;
      'host' is the host message. *)
  Definition tpmi_ls (f : found) (iter : str -> res (list (Z * Z * Z))) (long all : bool) (host : str) : res (list str) :=
    let? sds := get_known_features f in
    let? body := rmap sds (fun x =>
        let? more := (if long then let? its := iter (sd_name x) in Ok (ls_long (s2l "   ") its) else Ok []) in
        Ok ((s2l " - " ++ sd_name x ++ s2l ": " ++ strip (sd_desc x)) :: more)) in
    let head := match sds with
                | [] => [s2l "Not supported TPMI features found"]
                | _ => s2l "Supported TPMI features" :: concat body
                end in
    let tail := match get_unknown_features f with
                | [] => []
                | un => if all then [s2l "Unknown TPMI features (available" ++ host ++ s2l ", but no spec file found)";
                                     s2l " - " ++ comma_join (map py_hex un)] else []
                end in
    Ok (head ++ tail).
End Long.
