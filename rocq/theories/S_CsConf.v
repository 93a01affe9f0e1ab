(** What the options of 'cstates config' ask for, for C66. *)
From Coq Require Import Ascii String.
From Verif Require Import Base M_CPUInfo S_CPUInfo M_Text M_Human M_CPUIdle S_CPUIdle M_CsConf.

(** An option as typed, with its value if it has one. *)
Definition opt := (str * option str)%type.

Definition str_dec : forall a b : str, {a = b} + {a <> b} := list_eq_dec ascii_dec.

(** The options that count: each one once, with the value that was typed last, in the order in which they were
    first typed. *)
Definition kept (typed l : list opt) : Prop :=
  map fst l = rev (nodup str_dec (rev (map fst typed))) /\
  forall o v, In (o, v) l <-> exists a b, typed = a ++ (o, v) :: b /\ ~ In o (map fst b).

(** '--enable [text]', '--disable [text]', with a text that is not empty. *)
Definition toggle_opt (x : opt) (en : bool) (t : str) : Prop :=
  t <> [] /\ x = (if en then s2l "enable"%string else s2l "disable"%string, Some t).

(** The option [x] asks to enable or disable C-state [i] of CPU [c]. *)
Definition asks (mc : machine) (nst : Z -> Z) (cpus : list Z) (x : opt) (c i : Z) (en : bool) : Prop :=
  exists t, toggle_opt x en t /\ In c cpus /\ 0 <= i < nst c /\ asked (CsText t) (own_names mc nst c) (cs_name mc c i).

(** The last option in [l] that asks something of this C-state asks for [en]. *)
Definition decided (mc : machine) (nst : Z -> Z) (cpus : list Z) (l : list opt) (c i : Z) (en : bool) : Prop :=
  exists a x b, l = a ++ x :: b /\ asks mc nst cpus x c i en /\ forall y en', In y b -> ~ asks mc nst cpus y c i en'.

(** The other options: with a value they are settings, without one they are only printed. *)
Definition other (x : opt) : Prop := fst x <> s2l "enable"%string /\ fst x <> s2l "disable"%string.

(** [s] is a subsequence of [l] that consists of what is selected. *)
Inductive picks {A B} (sel : A -> B -> Prop) : list A -> list B -> Prop :=
| picks_nil : picks sel [] []
| picks_take x y l m : sel x y -> picks sel l m -> picks sel (x :: l) (y :: m)
| picks_skip x l m : (forall y, ~ sel x y) -> picks sel l m -> picks sel (x :: l) m.

Definition setting (x : opt) (y : str * str) : Prop := other x /\ x = (fst y, Some (snd y)).
Definition question (x : opt) (y : str) : Prop := other x /\ x = (y, None).

(** Whatever is named with "all" is the same on all CPUs. *)
Definition all_same (mc : machine) (nst : Z -> Z) (cpus : list Z) (l : list opt) : Prop :=
  (exists o, In (o, Some (s2l "all"%string)) l) -> same_names mc nst cpus.
