(** Vocabulary for C32 and C33 (C-states): saved and printed C-state settings. *)
From Coq Require Import Ascii String.
From Verif Require Import Base M_CPUInfo S_CPUInfo M_Text M_Human M_CPUIdle S_CPUIdle M_CSave.

(** Names that can be told apart in a list separated by commas, and from the names of properties. *)
Definition plain_names (mc : machine) (nst : Z -> Z) (pnames : list str) : Prop :=
  forall c i, In c (ci_online (mc_ci mc)) -> 0 <= i < nst c ->
    cs_name mc c i <> [] /\ ~ In ","%char (cs_name mc c i) /\ ~ In (cs_name mc c i) pnames.

(** A C-state has the same setting on all the CPUs. *)
Definition uniform (mc : machine) (nst : Z -> Z) (flags : Z -> Z -> str) (cpus : list Z) : Prop :=
  forall c c' i i', In c cpus -> In c' cpus -> 0 <= i < nst c -> 0 <= i' < nst c' ->
    cs_name mc c i = cs_name mc c' i' -> flags c i = flags c' i'.

(** What is printed: C-state [n] has [key] = [val] on [cpus]. *)
Definition says_cs (a : rcsinfo) (n key : str) (val : cval) (cpus : list Z) : Prop :=
  exists d k, In (n, d) a /\ In (key, k) d /\ In (val, cpus) k.

(** What is known of a CPU: its C-state [n] has [key] = [val]. *)
Definition known_cs (items : list (Z * csinfo)) (cpu : Z) (n key : str) (val : cval) : Prop :=
  exists info cs, In (cpu, info) items /\ In (n, cs) info /\ In (key, val) cs.

(** Dictionaries: no CPU, no C-state of a CPU, and no key of a C-state twice. *)
Definition dict_items (items : list (Z * csinfo)) : Prop :=
  NoDup (map fst items) /\
  forall c info, In (c, info) items -> NoDup (map fst info) /\ forall n cs, In (n, cs) info -> NoDup (map fst cs).
