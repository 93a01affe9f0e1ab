(** Model of how the processor is identified: the parsed output of 'lscpu', the description, the E-core and P-core CPUs, the caches
    (pepclibs/_CPUInfoBase.py, pepclibs/CPUInfo.py), and of the warning about the bug of old kernels (pepclibs/_CPUFreq.py). *)
From Coq Require Import Ascii String.
From Verif Require Import Base M_Text M_Human M_Osa M_Topo M_TpmiSpec M_Kver M_CFreq M_Route.
Open Scope list_scope.
Open Scope Z_scope.

(** A value of the 'info' dictionary: a number, a text, the flags of each CPU (a set of words, here a list), True or False *)
Inductive ival := IInt (n : Z) | IText (s : str) | IFlags (f : list (Z * list str)) | IBool (b : bool).
Definition info := list (string * ival).

(** A regular expression of _CPUInfoBase.py:346-355: a label, white space and the value up to the end of the line; or that of the base
    frequency: what is between the last at sign and a final GHz in the line of the model name. *)
Inductive pat := PLabel (l : string) | PFreq.

(** _CPUInfoBase.py:346-355 patterns *)
Definition patterns : list (pat * string) :=
  [(PLabel "Architecture:", "arch"); (PLabel "Byte Order:", "byteorder"); (PLabel "Vendor ID:", "vendor");
   (PLabel "Socket(s):", "packages"); (PLabel "CPU family:", "family"); (PLabel "Model:", "model");
   (PLabel "Model name:", "modelname"); (PFreq, "basefreq"); (PLabel "Stepping:", "stepping"); (PLabel "Flags:", "flags")]%string.

(** The rest of a text after a prefix *)
Fixpoint after_prefix (p l : str) : option str :=
  match p, l with
  | [], _ => Some l
  | c :: p', d :: l' => if Ascii.eqb c d then after_prefix p' l' else None
  | _ :: _, [] => None
  end.

(** What is behind the last such character: the expression is greedy *)
Fixpoint after_last (c : ascii) (l : str) : option str :=
  match l with
  | [] => None
  | d :: t => match after_last c t with
              | Some r => Some r
              | None => if Ascii.eqb c d then Some t else None
              end
  end.

(** A text without its ending *)
Definition before_suffix (s l : str) : option str := option_map (@rev ascii) (after_prefix (rev s) (rev l)).

(** _CPUInfoBase.py:359, 363 re.match(), match.group(1). Simplification: a line has no line break in it. *)
Definition match_pat (p : pat) (line : str) : option str :=
  match p with
  | PLabel l => option_map (lstrip_by is_space) (after_prefix (s2l l) line)
  | PFreq => match after_prefix (s2l "Model name:") line with
             | None => None
             | Some r => match after_last "@" r with
                         | None => None
                         | Some t => option_map (lstrip_by is_space) (before_suffix (s2l "GHz") t)
                         end
             end
  end.

(** _CPUInfoBase.py:364-367: is_int() knows prefixes such as "0x", int() does not. *)
Definition convert (v : str) : res ival :=
  if is_int v then match py_int v with Some n => Ok (IInt n) | None => Exn EValue end
  else Ok (IText v).

(** _CPUInfoBase.py:358-367: the patterns for one line *)
Fixpoint match_pats (ps : list (pat * string)) (line : str) (d : info) : res info :=
  match ps with
  | [] => Ok d
  | (p, key) :: ps' =>
      match match_pat p (strip line) with
      | None => match_pats ps' line d
      | Some v => let? x := convert v in match_pats ps' line (dset String.eqb d key x)
      end
  end.

(** _CPUInfoBase.py:357-367: the lines *)
Fixpoint parse_lines (lines : list str) (d : info) : res info :=
  match lines with
  | [] => Ok d
  | line :: t => let? d' := match_pats patterns line d in parse_lines t d'
  end.

(** _CPUInfoBase.py:369-375: the flags of every online CPU. A number has no split(). *)
Definition spread_flags (online : res (list Z)) (d : info) : res info :=
  match dget String.eqb d "flags"%string with
  | Some (IText (c :: s)) =>
      let? cpus := online in
      Ok (dset String.eqb d "flags"%string (IFlags (map (fun cpu => (cpu, words (c :: s))) cpus)))
  | Some (IInt n) => if n =? 0 then Ok d else Exn EIndex
  | _ => Ok d
  end.

(** _CPUInfoBase.py:339-387 _get_cpu_info(). [lscpu]: the lines of 'lscpu'; [online]: the online CPUs; [atom]: is there
    '/sys/devices/cpu_atom/cpus'? The kernel version (381-385) only goes to a debug message, and is left out. *)
Definition get_cpu_info (lscpu : res (list str)) (online : res (list Z)) (atom : res bool) : res info :=
  let? lines := lscpu in
  let? d := parse_lines lines [] in
  let? d := spread_flags online d in
  let? h := atom in
  Ok (dset String.eqb d "hybrid"%string (IBool h)).

(** _CPUInfoBase.py:389-404 _get_cpu_description(). [models]: "model" and "codename" of CPUModels.MODELS, in order. Lower case is that
    of ASCII letters. *)
Definition get_cpu_description (models : list (Z * str)) (d : info) : res str :=
  match dget String.eqb d "modelname"%string with
  | None => Exn EKey
  | Some (IText name) =>
      if has_sub (M_Osa.lower name) (s2l "genuine intel") then
        match dget String.eqb d "model"%string with
        | None => Exn EKey
        | Some (IInt n) =>
            let descr := s2l "Intel processor model " ++ (if n <? 0 then s2l "-" ++ py_hex (- n) else py_hex n) in
            match find (fun m => fst m =? n) models with
            | Some m => Ok (descr ++ s2l " (codename: " ++ snd m ++ s2l ")")
            | None => Ok descr
            end
        | Some _ => Exn EValue
        end
      else Ok name
  | Some _ => Exn EIndex
  end.

(** CPUInfo.py:1048-1062 get_hybrid_cpus() with _CPUInfoBase.py:406-412 _get_hybrid_cpus(). [atom], [core]: the contents of
    '/sys/devices/cpu_atom/cpus' and '/sys/devices/cpu_core/cpus'. *)
Definition get_hybrid_cpus (d : info) (atom core : res str) : res (list Z * list Z) :=
  match dget String.eqb d "hybrid"%string with
  | None => Exn EKey
  | Some (IBool false) => Exn ENotSupported
  | Some _ => let? e := read_range atom in let? p := read_range core in Ok (e, p)
  end.

(** _CPUFreq.py:592-595: '_kver', '_check_no_ecores_bug', and the warnings printed so far: the kernel version could not be found,
    or the kernel has the bug *)
Inductive warning := WNoKver | WBug (kver : str).
Record fstate := FState { f_check : bool; f_kver : str; f_warn : list warning }.
Definition f_init : fstate := FState true [] [].

Definition set_check (b : bool) (s : fstate) : fstate := FState b (f_kver s) (f_warn s).
Definition set_kver (v : str) (s : fstate) : fstate := FState (f_check s) v (f_warn s).
Definition warn (w : warning) (s : fstate) : fstate := FState (f_check s) (f_kver s) (f_warn s ++ [w]).

(** _CPUFreq.py:83-90: the version, from the cache or from 'uname -r'; None: not found *)
Definition warn_kver (uname : res str) : M fstate (option str) :=
  fun s => match f_kver s with
           | _ :: _ => (Ok (Some (f_kver s)), s)
           | [] => match uname with
                   | Ok v => (Ok (Some v), set_kver v s)
                   | Exn e => if catches_error e then (Ok None, set_check false (warn WNoKver s)) else (Exn e, s)
                   end
           end.

(** _CPUFreq.py:63-106 _warn_no_ecores_bug(). [offline]: the offline CPUs *)
Definition warn_no_ecores_bug (d : info) (atom core uname : res str) (offline : res (list Z)) : M fstate unit :=
  let! check := gets f_check in
  if negb check then ret tt
  else match dget String.eqb d "hybrid"%string with
       | None => throw EKey
       | Some (IBool false) => ret tt
       | Some _ =>
           let! ep := lift (get_hybrid_cpus d atom core) in
           match ep with
           | (_ :: _, _) | (_, _ :: _) => ret tt
           | ([], []) =>
               let! k := warn_kver uname in
               match k with
               | None => ret tt
               | Some v =>
                   let! new := lift (kver_ge v (s2l "6.5")) in
                   if new then modify (set_check false)
                   else
                     let! off := lift offline in
                     match off with
                     | _ :: _ => ret tt
                     | [] => modify (set_check false) ;; modify (warn (WBug v))
                     end
               end
           end
       end.

(** A value in the output of 'lscpu --json': a text, a number or null *)
Inductive jval := JStr (s : str) | JInt (n : Z) | JNull.

Definition jval_eqb (a b : jval) : bool :=
  match a, b with
  | JStr x, JStr y => str_eqb x y
  | JInt x, JInt y => x =? y
  | JNull, JNull => true
  | _, _ => false
  end.

(** An element of "caches", a dictionary *)
Definition jcache := list (str * jval).
Definition caches := list (jval * jcache).

(** CPUInfo.py:1092-1095: int() of a text, when it looks like a number; None is not a number *)
Definition jconvert (v : jval) : res jval :=
  match v with
  | JStr s => if is_int s then match py_int s with Some n => Ok (JInt n) | None => Exn EValue end else Ok v
  | _ => Ok v
  end.

(** self._cacheinfo[name][key] = v *)
Definition put_value (name : jval) (key : str) (v : jval) (c : caches) : caches :=
  dset jval_eqb c name (dset str_eqb (match dget jval_eqb c name with Some i => i | None => [] end) key v).

(** CPUInfo.py:1083-1095: one cache. The state is '_cacheinfo'. *)
Definition add_cache (i : jcache) : M caches unit :=
  match dget str_eqb i (s2l "name") with
  | None => throw EKey
  | Some name =>
      let! dup := gets (fun c => match dget jval_eqb c name with Some _ => true | None => false end) in
      if dup then throw EError
      else
        modify (fun c => dset jval_eqb c name []) ;;
        mfor i (fun kv => let! v := lift (jconvert (snd kv)) in modify (put_value name (fst kv) v))
  end.

(** CPUInfo.py:1064-1097 get_cache_info(). [lscpu]: what 'lscpu --caches --json --bytes' gives; a command that fails and an output that
    is no JSON are exceptions; None: there is no "caches" in it. An empty '_cacheinfo' stands for None too: both are false. *)
Definition get_cache_info (lscpu : res (option (list jcache))) : M caches caches :=
  let! c := gets (fun c => c) in
  match c with
  | _ :: _ => ret c
  | [] =>
      let! out := lift lscpu in
      match out with
      | None => throw EKey
      | Some l => mfor l add_cache ;; gets (fun c => c)
      end
  end.

(** CPUInfo.py:1110-1116: one package *)
Definition dies_piece (pd : Z * list Z) : res str :=
  match snd pd with
  | [] => Exn EIndex
  | [d] => Ok (s2l "package " ++ dec (fst pd) ++ s2l " die " ++ dec d)
  | _ => Ok (s2l "package " ++ dec (fst pd) ++ s2l " dies " ++ rangify (snd pd))
  end.

(** sep.join() *)
Fixpoint join_with (sep : str) (l : list str) : str :=
  match l with
  | [] => []
  | [x] => x
  | x :: t => x ++ sep ++ join_with sep t
  end.

(** CPUInfo.py:1099-1125 dies_to_str() *)
Definition dies_to_str (dies : list (Z * list Z)) : res str :=
  let? ps := rmap dies dies_piece in
  match ps with
  | [] => Exn EIndex
  | [p] => Ok p
  | _ => Ok (join_with (s2l ", ") (removelast ps) ++ s2l ", and " ++ last ps [])
  end.
