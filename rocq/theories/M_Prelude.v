(** Model of what the commands do before and after their work: '--list-mechanisms', the modules of an emulated system,
    '--override-cpu-model' and the check for the 'tuned' service (pepctool/_Pepc.py, pepctool/_PepcCommon.py). *)
From Coq Require Import Ascii String.
From Verif Require Import Base M_Text M_Human M_CFreq M_Route.
Open Scope list_scope.
Open Scope Z_scope.

(** _PropsClassBase.py:44-70 MECHANISMS: name, "long", "writable" *)
Definition mechanisms : list (string * (string * bool)) :=
  [("sysfs", ("Linux sysfs file-system", true));
   ("cdev", ("Linux character device node", true));
   ("msr", ("Model Specific Register (MSR)", true));
   ("cppc", ("ACPI Collaborative Processor Performance Control (CPPC)", false));
   ("doc", ("Hardware documentation", false))]%string.

(** _Pepc.py:1090-1098: the properties of a command *)
Definition props_of_command (fname : str) : res ptable :=
  if begins fname (s2l "_pstates_") then Ok pstates_table
  else if begins fname (s2l "_cstates_") then Ok cstates_table
  else if begins fname (s2l "_power_") then Ok power_table
  else Exn EError.

(** _Pepc.py:1100-1104: the set, here a list *)
Definition mnames_used (t : ptable) : list string := flat_map (fun p => fst (snd p)) t.

(** _Pepc.py:1087-1112 _list_mechanisms(): the name and the description of each line *)
Definition list_mechanisms (fname : str) : res (list (string * string)) :=
  let? t := props_of_command fname in
  Ok (map (fun m => (fst m, fst (snd m))) (filter (fun m => existsb (String.eqb (fst m)) (mnames_used t)) mechanisms)).

(** _Pepc.py:1059-1067 required_cmd_modules *)
Definition required_cmd_modules : list (string * list string) :=
  [("aspm", ["ASPM"; "Systemctl"]); ("cstates", ["CPUInfo"; "CStates"; "Systemctl"]);
   ("pstates", ["CPUInfo"; "PStates"; "Systemctl"]); ("power", ["CPUInfo"; "Power"]);
   ("topology", ["CPUInfo"]); ("cpu_hotplug", ["CPUInfo"; "CPUOnline"; "Systemctl"]); ("tpmi", ["TPMI"])]%string.

(** _Pepc.py:1069-1074: the modules of a command *)
Definition emul_modules (fname : str) : res (list string) :=
  match find (fun m => has_sub fname (s2l (fst m))) required_cmd_modules with
  | Some m => Ok (snd m)
  | None => Exn EError
  end.

(** _Pepc.py:1076-1085: init_module() of each; the object is closed if one of them fails with an 'Error'. The result, the
    modules that were initialized and whether the object is open. *)
Fixpoint init_modules (init : string -> res unit) (modules : list string) (done : list string) : res unit * list string * bool :=
  match modules with
  | [] => (Ok tt, done, true)
  | m :: t =>
      match init m with
      | Ok _ => init_modules init t (done ++ [m])
      | Exn e => (Exn e, done, negb (catches_error e))
      end
  end.
Definition get_emul_pman (init : string -> res unit) (fname : str) : res unit * list string * bool :=
  match emul_modules fname with Exn e => (Exn e, [], false) | Ok l => init_modules init l [] end.

(** int(s, 16) after the sign: "0x" is skipped, and one "_" after it. *)
Definition int_base16 (l : str) : option Z :=
  match l with
  | c :: x :: t =>
      if Ascii.eqb c "0" && (Ascii.eqb x "x" || Ascii.eqb x "X")%bool then int_digits 16 (skip_us t) else int_digits 16 l
  | _ => int_digits 16 l
  end.

(** int(s, 16) *)
Definition py_int16 (s : str) : option Z :=
  match lstrip_by is_cspace s with
  | c :: t =>
      if Ascii.eqb c "+" then int_base16 t
      else if Ascii.eqb c "-" then option_map Z.opp (int_base16 t)
      else int_base16 (c :: t)
  | [] => None
  end.

(** _PepcCommon.py:48-65 override_cpu_model(): the new model number; the old one stays if it fails *)
Definition override_cpu_model (model : str) : M Z unit :=
  match py_int model with
  | Some n => modify (fun _ => n)
  | None => match py_int16 model with Some n => modify (fun _ => n) | None => throw EError end
  end.

Inductive tuned_msg := TunedActive | TunedCheckFailed.

(** _PepcCommon.py:19-35 check_tuned_presence(): "active" is what Systemctl() and is_active("tuned") give. The messages. *)
Definition check_tuned (active : res bool) : res unit * list tuned_msg :=
  match active with
  | Ok true => (Ok tt, [TunedActive])
  | Ok false => (Ok tt, [])
  | Exn ENotFound => (Ok tt, [])
  | Exn e => if catches_error e then (Ok tt, [TunedCheckFailed]) else (Exn e, [])
  end.
