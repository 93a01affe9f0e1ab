(** Model of setting several properties in one transaction: 'set_props()' of pepctool/_PepcSetter.py, as it is used by
    'pstates_config_command()' (pepctool/_PepcPStates.py), 'cstates_config_command()' (pepctool/_PepcCStates.py) and
    'power_config_command()' (pepctool/_PepcPower.py). *)
From Verif Require Import Base M_Text M_Sysfs M_CPUInfo M_MSR.

(** The code between 'start_transaction()' and 'commit_transaction()' reads and writes registers and files only through
    the two I/O objects.  Simplification: that code - PStates.py, CStates.py, Power.py and everything below them - is
    any program that makes calls on the two objects: what it does next, including the handling of an exception and
    falling back to another mechanism, may depend in any way on the answers it got.  The files that are not accessed
    through the sysfs object (the C-state "disable" files) are not part of this model, see M_CPUIdle.v. *)
Inductive prog :=
| PEnd (r : res unit)
| PMsr (o : mop) (k : res (list (Z * Z)) -> prog)
| PSys (o : sop) (k : res str -> prog).

(** A call on one of the objects and its answer. *)
Inductive event :=
| EMsr (o : mop) (a : res (list (Z * Z)))
| ESys (o : sop) (a : res str).

(** The two objects, and - only to speak about them - the calls made on them so far with their answers. *)
Record world := W {
  w_m : mstate;
  w_s : sstate;
  w_ev : list event }.

(** _PepcPStates.py:95-99: new objects. *)
Definition w_init (hw : Z -> Z -> Z) (faults : list bool) (fs : str -> option str) : world :=
  W (msr_init hw faults) (s_init fs) [].

Section Setter.
  Variable env : menv.
  Variable k : senv.

  (** A method call on the MSR object (MSR.py). *)
  Definition msr_call (o : mop) : M world (list (Z * Z)) := fun w =>
    let (r, m) := mstep env o (w_m w) in (r, W m (w_s w) (w_ev w ++ [EMsr o r])).

  (** _SysfsIO.py:234-283 read(), read_int(), and the other methods, which return nothing.  The integer is given in
      decimal form. *)
  Definition sys_answer (o : sop) : M sstate str :=
    match o with
    | SRead p => s_read k p
    | SReadInt p => let! n := s_read_int k p in ret (dec n)
    | _ => sstep k o ;; ret []
    end.

  (** A method call on the sysfs object (_SysfsIO.py). *)
  Definition sys_call (o : sop) : M world str := fun w =>
    let (r, s) := sys_answer o (w_s w) in (r, W (w_m w) s (w_ev w ++ [ESys o r])).

  (** Running the code of a property. *)
  Fixpoint perform (p : prog) : M world unit :=
    match p with
    | PEnd r => lift r
    | PMsr o c => fun w => let (r, w1) := msr_call o w in perform (c r) w1
    | PSys o c => fun w => let (r, w1) := sys_call o w in perform (c r) w1
    end.

  (** _PepcSetter.py:65-71: the transactions are started and every property is set, in order.  [both]: the setter has
      a sysfs object - the one that the properties use - and not only an MSR object ('sysfs_io=None': 'cstates config'
      and 'power config').  [before] is what was done with the objects earlier (_PepcPStates.py:117-118: printing). *)
  Definition prepare (both : bool) (before : prog) (props : list prog) : M world unit :=
    perform before ;;
    (if both then sys_call SStart ;; ret tt else ret tt) ;;
    msr_call OStart ;;
    mfor props perform.

  (** _PepcSetter.py:73-76 *)
  Definition finish (both : bool) : M world unit :=
    msr_call OCommit ;;
    (if both then sys_call SCommit ;; ret tt else ret tt).

  (** _PepcSetter.py:35-82 set_props().  Not modelled: the units (M_PStates.v) and the final printing (78-82,
      M_Print.v). *)
  Definition config (both : bool) (before : prog) (props : list prog) : M world unit :=
    prepare both before props ;; finish both.
End Setter.
