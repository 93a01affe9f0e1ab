(** Model of how the operating system is identified and tools are looked for (pepclibs/helperlibs/ToolChecker.py). *)
From Coq Require Import Ascii String.
From Verif Require Import Base M_Text M_Osa M_CPUIdle.
Open Scope list_scope.

(** The target system during a call: the lines that could be read of the two files (none if a file cannot be opened, those before the error if
    reading fails: ToolChecker.py:100 suppresses the errors), and what which() finds. *)
Record env := Env { e_usr : list str; e_etc : list str; e_which : str -> res (option str) }.

(** The object: _osinfo, _cache (ToolChecker.py:211-220), and how often which() was called. *)
Record tools := TL { t_os : list (str * str); t_cache : list (str * str); t_searches : nat }.
Definition tools_init : tools := TL [] [] 0.

Definition dquote : ascii := ascii_of_nat 34.

(** ToolChecker.py:103-115: one line of an os-release file *)
Definition parse_line (line : str) : option (str * str) :=
  let l := strip line in
  match l with
  | [] => None
  | c :: _ =>
      if Ascii.eqb c "#" then None
      else match split_on "=" l with
           | [k; w] => Some (k, strip_char dquote w)
           | _ => None
           end
  end.
Definition add_line (d : list (str * str)) (line : str) : list (str * str) :=
  match parse_line line with Some (k, v) => dset str_eqb d k v | None => d end.

(** ToolChecker.py:90-124 _read_os_release() *)
Definition read_os_release (e : env) : res (list (str * str)) :=
  match fold_left add_line (e_usr e) [] with
  | [] => match fold_left add_line (e_etc e) [] with
          | [] => Exn ENotFound
          | d => Ok d
          end
  | d => Ok d
  end.

(** ToolChecker.py:126-131 _get_osinfo() *)
Definition get_osinfo (e : env) : M tools (list (str * str)) := fun s =>
  match t_os s with
  | [] => match read_os_release e with
          | Ok d => (Ok d, TL d (t_cache s) (t_searches s))
          | Exn x => (Exn x, s)
          end
  | d => (Ok d, s)
  end.

(** str.capitalize(), ASCII letters only *)
Definition capitalize (s : str) : str := match s with [] => [] | c :: t => upper_char c :: M_Osa.lower t end.

Definition unknown_name : str := s2l "<unknown_OS_NAME>".
Definition unknown_id : str := s2l "<unknown_OS_ID>".

(** ToolChecker.py:133-149 get_osname() *)
Definition get_osname (e : env) : M tools str := fun s =>
  match get_osinfo e s with
  | (Ok d, s') =>
      (Ok match dget str_eqb d (s2l "NAME") with
          | Some v => v
          | None => match dget str_eqb d (s2l "ID") with
                    | Some v => capitalize v
                    | None => unknown_name
                    end
          end, s')
  | (Exn ENotFound, s') => (Ok unknown_name, s')
  | (Exn x, s') => (Exn x, s')
  end.

(** ToolChecker.py:151-166 get_osid() *)
Definition get_osid (e : env) : M tools str := fun s =>
  match get_osinfo e s with
  | (Ok d, s') => (Ok match dget str_eqb d (s2l "ID") with Some v => v | None => unknown_id end, s')
  | (Exn ENotFound, s') => (Ok unknown_id, s')
  | (Exn x, s') => (Exn x, s')
  end.

(** ToolChecker.py:26-82 the tables *)
Definition table (l : list (string * string)) : list (str * str) := map (fun kv => (s2l (fst kv), s2l (snd kv))) l.
Definition common_pkginfo : list (str * str) := table
  [("cat", "coreutils"); ("cc", "gcc"); ("clang", "clang"); ("find", "findutils"); ("depmod", "kmod"); ("dmesg", "util-linux"); ("gcc", "gcc");
   ("libelf", "elfutils-libelf-devel"); ("lscpu", "util-linux"); ("lspci", "pciutils"); ("make", "make"); ("modprobe", "kmod");
   ("phc2sys", "linuxptp"); ("rmmod", "kmod"); ("rsync", "rsync"); ("sync", "coreutils"); ("systemctl", "systemd"); ("xargs", "findutils")]%string.
Definition fedora_pkginfo : list (str * str) := table
  [("tc", "iproute-tc"); ("bpftool", "bpftool"); ("libbpf", "libbpf-devel"); ("sch_etf.ko", "kernel-modules-extra")]%string ++ common_pkginfo.
Definition ubuntu_pkginfo : list (str * str) := table
  [("tc", "iproute2"); ("bpftool", "linux-tools-common"); ("libbpf", "libbpf-dev"); ("sch_etf.ko", "linux-modules")]%string ++ common_pkginfo.
Definition debian_pkginfo : list (str * str) := table
  [("tc", "iproute2"); ("bpftool", "bpftool"); ("libbpf", "libbpf-dev"); ("sch_etf.ko", "linux-modules")]%string ++ common_pkginfo.
Definition pkginfo : list (str * list (str * str)) :=
  [(s2l "fedora", fedora_pkginfo); (s2l "centos", fedora_pkginfo); (s2l "rhel", fedora_pkginfo); (s2l "ubuntu", ubuntu_pkginfo); (s2l "debian", debian_pkginfo)].

(** ToolChecker.py:168-184 tool_to_pkg(), with an OS ID *)
Definition tool_to_pkg (tool osid : str) : option str :=
  match dget str_eqb pkginfo osid with
  | None => None
  | Some t => dget str_eqb t tool
  end.

(** Path(tool).name. Simplification: the path does not end with a slash or a dot. *)
Definition base_name (p : str) : str := last (split_on "/" p) [].

(** What check_tool() gives: the path, or ErrorNotFound with the name of the operating system and the package that are suggested, if any. *)
Inductive outcome := Found (path : str) | Missing (suggestion : option (str * str)).

(** ToolChecker.py:186-209 check_tool(). "tool is self._cache" is never true. *)
Definition check_tool (e : env) (tool : str) : M tools outcome :=
  modify (fun s => TL (t_os s) (t_cache s) (S (t_searches s))) ;;
  let! path := lift (e_which e tool) in
  match path with
  | Some p => modify (fun s => TL (t_os s) (dset str_eqb (t_cache s) tool p) (t_searches s)) ;; ret (Found p)
  | None =>
      let! osid := get_osid e in
      match tool_to_pkg (base_name tool) osid with
      | Some pkg => let! osname := get_osname e in ret (Missing (Some (osname, pkg)))
      | None => ret (Missing None)
      end
  end.

(** The calls a user can make, and a history of them on a changing system. *)
Inductive top := TId (e : env) | TName (e : env) | TCheck (e : env) (tool : str).
Definition tstep (s : tools) (o : top) : tools :=
  match o with
  | TId e => snd (get_osid e s)
  | TName e => snd (get_osname e s)
  | TCheck e t => snd (check_tool e t s)
  end.
Definition trun (ops : list top) (s : tools) : tools := fold_left tstep ops s.
