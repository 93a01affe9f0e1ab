(** Model of the emulated files (pepclibs/helperlibs/emul/_RWFile.py, _ROFile.py, _EmulDevMSR.py), with which pepc runs on the recorded
    files of another system. Texts are ASCII, so that a character is a byte; what is written is in the file at once (Python keeps it in
    a buffer until the next truncate(), seek() or close()). *)
From Coq Require Import Ascii String.
From Verif Require Import Base M_Text M_Human M_TpmiSpec M_Route.
Open Scope list_scope.

(** The operating system's truncate(n), and write(x) at the offset p: what is not there yet reads as zero bytes. *)
Definition nul : ascii := Ascii.zero.
Definition truncate (n : nat) (d : str) : str := firstn n d ++ repeat nul (n - length d).
Definition write_at (p : nat) (x d : str) : str :=
  match x with
  | [] => d
  | _ => firstn p d ++ repeat nul (p - length d) ++ x ++ skipn (p + length x) d
  end.
Definition read_at (p n : nat) (d : str) : str := firstn n (skipn p d).

(** The emulated files by path *)
Definition fs := list (str * str).

(** The modes used, and what write() of an open file does: _RWFile.py:109-173 _set_write_method() *)
Inductive fmode := MRead | MUpdate | MWrite.
Inductive how := HNone | HPlain | HEpb | HAspm (policies : str).

(** _RWFile.py:121-122 policies *)
Definition epb_policies : list (str * str) :=
  [(s2l "performance", s2l "0"); (s2l "balance-performance", s2l "4"); (s2l "normal", s2l "6"); (s2l "balance-power", s2l "8"); (s2l "power", s2l "15")].
Definition newline : str := [ascii_of_nat 10].

(** _RWFile.py:144-154 _truncate_write() *)
Definition truncate_write (x d : str) : str := write_at 0 x (truncate (length x) d).
(** _RWFile.py:115-129 _epb_write() *)
Definition epb_write (x d : str) : str :=
  match dget str_eqb epb_policies (strip x) with
  | Some n => let x' := n ++ newline in write_at 0 x' (truncate (length x') d)
  | None => write_at 0 x (truncate (length x) d)
  end.
(** _RWFile.py:131-142 _aspm_write(). str.replace() with an empty text to look for is not modelled: the text is not empty where this is used. *)
Definition aspm_write (policies x d : str) : str :=
  let line := replace policies x (s2l "[" ++ x ++ s2l "]") in write_at 0 line (truncate (length x) d).

(** _RWFile.py:165-172: the special files are told by the ends of their paths. *)
Definition file_how (path d : str) : how :=
  if ends_with (s2l "pcie_aspm/parameters/policy") path then
    HAspm (replace (replace (strip d) (s2l "[") []) (s2l "]") [])
  else if ends_with (s2l "/energy_perf_bias") path then HEpb
  else HPlain.

(** _RWFile.py:35-69 open_rw(), 156-163 and 175-180 RWSysinfoFile.open(): open() is called first, and with "w" it empties or creates the file. *)
Definition sysfs_open (path : str) (m : fmode) : M fs how := fun s =>
  match m, dget str_eqb s path with
  | MWrite, _ => (Exn EError, dset str_eqb s path [])
  | _, None => (Exn ENotFound, s)
  | MRead, Some _ => (Ok HNone, s)
  | MUpdate, Some d => (Ok (file_how path d), s)
  end.

(** write() of the open file: the one of a file open for reading raises io.UnsupportedOperation, which WrapExceptions makes an Error *)
Definition sysfs_write (path : str) (h : how) (x : str) : M fs unit := fun s =>
  match dget str_eqb s path with
  | None => (Exn EError, s)
  | Some d => match h with
              | HNone => (Exn EError, s)
              | HPlain => (Ok tt, dset str_eqb s path (truncate_write x d))
              | HEpb => (Ok tt, dset str_eqb s path (epb_write x d))
              | HAspm pol => (Ok tt, dset str_eqb s path (aspm_write pol x d))
              end
  end.

(** with pman.open(path, mode) as fobj: fobj.write(x) for each of the texts *)
Definition sysfs_session (path : str) (m : fmode) (xs : list str) : M fs unit :=
  let! h := sysfs_open path m in mfor xs (sysfs_write path h).

(** _ROFile.py:74-107 _online_read(): [names] are the names in the directory of the CPUs. *)
Definition cpu_base : str := s2l "/sys/devices/system/cpu/".
Fixpoint online_cpus (s : fs) (names : list str) : list str :=
  match names with
  | [] => []
  | name :: t =>
      if negb (begins name (s2l "cpu")) then online_cpus s t
      else
        let cpu := skipn 3 name in
        if negb (is_int cpu) then online_cpus s t
        else match dget str_eqb s (cpu_base ++ name ++ s2l "/online") with
             | None => cpu :: online_cpus s t
             | Some d => if str_eqb (strip d) (s2l "1") then cpu :: online_cpus s t else online_cpus s t
             end
  end.
(** pepclibs/helperlibs/Trivial.py:399-409 rangify() of texts: a text that int() does not take is an Error *)
Definition online_read (s : fs) (names : list str) : res str :=
  let? ns := rmap (online_cpus s names) (fun c => match py_int c with Some n => Ok n | None => Exn EError end) in
  Ok (rangify ns).

(** _ROFile.py:18-31 open_ro(): _ro_write() has one argument, and is called with two, the object and the data, which is a TypeError, an
    exception that is not an 'Error', like EValue. *)
Definition ro_read (data : str) : res str := Ok data.
Definition ro_write (data x : str) : res unit := Exn EValue.

(** _EmulDevMSR.py:40-45 _seek_offset(), then read(8) or write(x) *)
Definition msr_read (a : nat) (d : str) : str := read_at (a * 8) 8 d.
Definition msr_write (a : nat) (x d : str) : str := write_at (a * 8) x d.

(** _EmulDevMSR.py:16-30 _populate_sparse_file() *)
Definition populate (data : list (nat * str)) : str := fold_left (fun d ov => write_at (fst ov) (snd ov) d) data [].
(** pepclibs/helperlibs/EmulProcessManager.py:257-274 _init_msrs(): the addresses and the values (8 bytes each) of one line of the data.
    Reading the line is not modelled. *)
Definition init_msrs (pairs : list (nat * str)) : str :=
  populate (fold_left (fun data av => dset Nat.eqb data (fst av * 8)%nat (snd av)) pairs []).
