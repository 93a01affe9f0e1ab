(** Vocabulary for C31, C32 and C49: idle states (C-states) of CPUs. *)
From Coq Require Import Ascii String.
From Verif Require Import Base M_CPUInfo S_CPUInfo M_Text M_Human M_CPUIdle.

(** The CPUs an operation is about. *)
Definition cs_targets (mc : machine) (cpus : nums_t) : list Z :=
  match cpus with None => ci_online (mc_ci mc) | Some l => l end.

(** One line of text. *)
Definition one_line (t : str) : Prop := exists x, t = x ++ ["010"%char] /\ ~ In "010"%char x.

(** What a C-state file that contains [t] says: a number, or a text. *)
Definition says (t : str) : cval :=
  match py_int (strip t) with Some n => CInt n | None => CStr (strip t) end.

(** The name of a C-state: the text in its file "name", in capitals. *)
Definition cs_name (mc : machine) (c i : Z) : str := normalize_csname (strip (mc_text mc c i (s2l "name"%string) 0)).

(** What the file "disable" contains when the C-state is off (disabled) and on. *)
Definition flag_text (off : bool) : str := (if off then s2l "1"%string else s2l "0"%string) ++ ["010"%char].

(** An ordinary system: CPU 0 is online, there is a C-state driver, and every online CPU [c] has the C-states
    0, ..., [nst c] - 1, at least two, with all the files, one line each, and different names; the kernel stores
    0 and 1 as it is told, or leaves things as they are. There may be more files, of any CPU. *)
Definition idle_ok (mc : machine) (nst : Z -> Z) : Prop :=
  wf_ci (mc_ci mc) /\ mc_cache mc = true /\ In 0 (ci_online (mc_ci mc)) /\
  (exists d, mc_driver mc = Some d /\ strip d <> []) /\
  NoDup (mc_files mc) /\
  (forall c i f, In (c, i, f) (mc_files mc) -> 0 <= c /\ 0 <= i /\ f <> [] /\ ~ In "/"%char f /\ Forall (fun x => is_space x = false) f) /\
  (forall c, In c (ci_online (mc_ci mc)) -> 2 <= nst c /\
     (forall i f, In f cst_fnames -> (In (c, i, f) (mc_files mc) <-> 0 <= i < nst c)) /\
     (forall i f t, 0 <= i < nst c -> In f cst_fnames ->
        one_line (mc_text mc c i f t) /\ (is_int (strip (mc_text mc c i f t)) = true -> py_int (strip (mc_text mc c i f t)) <> None)) /\
     (forall i t, 0 <= i < nst c ->
        mc_text mc c i (s2l "name"%string) t = mc_text mc c i (s2l "name"%string) 0 /\
        py_int (strip (mc_text mc c i (s2l "name"%string) 0)) = None) /\
     (forall i j, 0 <= i < nst c -> 0 <= j < nst c -> cs_name mc c i = cs_name mc c j -> i = j) /\
     (forall i old off new, 0 <= i < nst c ->
        mc_store mc c i old (flag_text off) = Some new -> new = flag_text off \/ new = old)).

(** The contents of the "disable" files at the beginning. *)
Definition flags_ok (mc : machine) (nst : Z -> Z) (flags : Z -> Z -> str) : Prop :=
  forall c i, In c (ci_online (mc_ci mc)) -> 0 <= i < nst c -> exists off, flags c i = flag_text off.

(** The names a 'csnames' argument asks for on a CPU that has the names [own]: all of them, or the ones in the
    list, in whatever case they are written. *)
Definition asked (csnames : csarg) (own : list str) (n : str) : Prop :=
  match csnames with
  | CsText s => if str_eqb s (s2l "all"%string) then In n own
                else exists w, In w (split_csv_line "," false false s) /\ n = normalize_csname w
  | CsList l => exists w, In w l /\ n = normalize_csname w
  end.

Definition is_all (csnames : csarg) : Prop := csnames = CsText (s2l "all"%string).

(** The names of the C-states of a CPU. *)
Definition own_names (mc : machine) (nst : Z -> Z) (c : Z) : list str :=
  map (fun k => cs_name mc c (Z.of_nat k)) (seq 0 (Z.to_nat (nst c))).

(** All the CPUs have the same C-state names. *)
Definition same_names (mc : machine) (nst : Z -> Z) (cpus : list Z) : Prop :=
  forall c c' n, In c cpus -> In c' cpus -> In n (own_names mc nst c) -> In n (own_names mc nst c').

(** The dictionary of a C-state: what is fixed, and whether it is off. No key is there twice. *)
Definition describes (mc : machine) (c i : Z) (cs : cstate) : Prop :=
  NoDup (map fst cs) /\
  dget str_eqb cs (s2l "index"%string) = Some (CInt i) /\
  dget str_eqb cs (s2l "name"%string) = Some (says (mc_text mc c i (s2l "name"%string) 0)) /\
  forall f, In f (map s2l ["desc"; "latency"; "residency"; "time"; "usage"]%string) ->
    exists t, dget str_eqb cs f = Some (says (mc_text mc c i f t)).

Definition shows_off (cs : cstate) (off : bool) : Prop :=
  dget str_eqb cs (s2l "disable"%string) = Some (CInt (if off then 1 else 0)).

(** [info] is about exactly the C-states of [c] whose names are in [want], each of them once, and says of each what
    is in the files. *)
Definition tells (mc : machine) (nst : Z -> Z) (flags : Z -> Z -> str) (c : Z) (want : str -> Prop) (info : csinfo) : Prop :=
  NoDup (map fst info) /\
  (forall i, 0 <= i < nst c -> want (cs_name mc c i) -> exists cs, In (cs_name mc c i, cs) info) /\
  (forall n cs, In (n, cs) info -> exists i off, 0 <= i < nst c /\ n = cs_name mc c i /\ want n /\
     describes mc c i cs /\ shows_off cs off /\ flags c i = flag_text off).

(** An operation may change the flag of C-state [i] of CPU [c]. *)
Definition toggles (mc : machine) (nst : Z -> Z) (csnames : csarg) (cpus : nums_t) (c i : Z) : Prop :=
  In c (cs_targets mc cpus) /\ 0 <= i < nst c /\ exists c0, In c0 (cs_targets mc cpus) /\ asked csnames (own_names mc nst c0) (cs_name mc c i).

(** The kernel obeys: what is written is what the file then contains. *)
Definition obeys (mc : machine) (nst : Z -> Z) : Prop :=
  forall c i old off, In c (ci_online (mc_ci mc)) -> 0 <= i < nst c ->
    mc_store mc c i old (flag_text off) = Some (flag_text off).

(** The governors there are; what is stored as the governor is what was written; writing never fails. *)
Definition offered (mc : machine) (g : str) : Prop := exists t, mc_avail mc = Some t /\ In g (words (strip t)).
Definition gov_stores (mc : machine) : Prop := forall old g new, mc_gstore mc old g = Some new -> strip new = g.
Definition gov_accepts (mc : machine) : Prop :=
  mc_hasgov mc = true /\ forall old g, offered mc g -> exists new, mc_gstore mc old g = Some new.
