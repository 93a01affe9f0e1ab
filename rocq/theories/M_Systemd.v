(** Model of starting, stopping and restoring systemd units: pepclibs/helperlibs/Systemctl.py. *)
From Coq Require Import Ascii String.
From Verif Require Import Base M_Text M_CFreq M_TpmiSpec.
Open Scope list_scope.
Open Scope Z_scope.

(** What the "systemctl" tool does: an action on a unit (the command fails or not, the unit may change or not), the output of
    "is-active" and the like, the output of "list-timers". Simplification: asking does not change anything. *)
Record sysd (W : Type) := SYSD {
  sd_run : str -> str -> M W unit;
  sd_is : str -> str -> W -> res str;
  sd_timers : W -> res str }.
Arguments SYSD {W}.
Arguments sd_run {W} _.
Arguments sd_is {W} _.
Arguments sd_timers {W} _.

(** The object: the system, and _saved_units, _saved_ntp_services, _saved_timers (Systemctl.py:157-174). *)
Record svc (W : Type) := SVC {
  v_w : W;
  v_units : list (str * str);
  v_ntp : option (list str);
  v_timers : option (list str) }.
Arguments SVC {W}.
Arguments v_w {W} _.
Arguments v_units {W} _.
Arguments v_ntp {W} _.
Arguments v_timers {W} _.

(** Systemctl.py:157-174 __init__() *)
Definition svc_new {W} (w : W) : svc W := SVC w [] None None.

Section Systemd.
  Context {W : Type}.
  Variable sd : sysd W.

  Definition on_system (m : M W unit) : M (svc W) unit :=
    fun s => let (r, w) := m (v_w s) in (r, SVC w (v_units s) (v_ntp s) (v_timers s)).

  (** Systemctl.py:53-58 _is_smth() *)
  Definition is_smth (u what : str) : M (svc W) bool :=
    fun s => (let? out := sd_is sd what u (v_w s) in Ok (str_eqb (strip out) what), s).

  (** Systemctl.py:78-84 is_active(), is_failed() *)
  Definition is_active (u : str) : M (svc W) bool := is_smth u (s2l "active").
  Definition is_failed (u : str) : M (svc W) bool := is_smth u (s2l "failed").

  (** Systemctl.py:33-38: the action is remembered unless one was remembered already *)
  Definition save_unit (u action : str) : M (svc W) unit :=
    modify (fun s => match dget str_eqb (v_units s) u with
                     | None => SVC (v_w s) (dset str_eqb (v_units s) u action) (v_ntp s) (v_timers s)
                     | Some _ => s
                     end).

  (** Systemctl.py:21-51 _run_action(). The output of "status" is only in the message. *)
  Definition run_action (units : list str) (action : str) (save : bool) : M (svc W) unit :=
    mfor units (fun u =>
      on_system (sd_run sd action u) ;;
      let started := str_eqb action (s2l "start") || str_eqb action (s2l "restart") in
      let! active := is_active u in
      if Bool.eqb active started then (if save then save_unit u action else ret tt)
      else throw EError).

  (** Systemctl.py:60-84 start(), stop(), restart() *)
  Definition start (units : list str) (save : bool) : M (svc W) unit := run_action units (s2l "start") save.
  Definition stop (units : list str) (save : bool) : M (svc W) unit := run_action units (s2l "stop") save.
  Definition restart (units : list str) : M (svc W) unit := run_action units (s2l "restart") false.

  (** Systemctl.py:86-97 restore() *)
  Definition restore_units : M (svc W) unit :=
    let! l := gets v_units in
    mfor l (fun ua => if str_eqb (snd ua) (s2l "stop") then start [fst ua] false else stop [fst ua] false).

  Definition set_ntp (x : option (list str)) : M (svc W) unit := modify (fun s => SVC (v_w s) (v_units s) x (v_timers s)).
  Definition set_timers (x : option (list str)) : M (svc W) unit := modify (fun s => SVC (v_w s) (v_units s) (v_ntp s) x).

  (** Systemctl.py:107-121 stop_ntp() *)
  Definition ntp_services : list str := map s2l ["ntpd"; "ntpdate"; "sntp"; "systemd-timesyncd"; "chronyd"]%string.
  Definition stop_ntp : M (svc W) (list str) :=
    set_ntp (Some []) ;;
    mfor ntp_services (fun service =>
      let! active := is_active service in
      if active then
        stop [service] false ;;
        modify (fun s => SVC (v_w s) (v_units s) (Some (match v_ntp s with Some l => l | None => [] end ++ [service])) (v_timers s))
      else ret tt) ;;
    let! l := gets v_ntp in
    ret (match l with Some l => l | None => [] end).

  (** Systemctl.py:123-134 restore_ntp() *)
  Definition restore_ntp : M (svc W) (option (list str)) :=
    let! l := gets v_ntp in
    match l with
    | Some (u :: t) => start (u :: t) false
    | _ => ret tt
    end ;;
    set_ntp None ;;
    ret l.

  (** Systemctl.py:136-148 stop_timers() *)
  Definition stop_timers : M (svc W) (list str) :=
    let! out := fun s => (sd_timers sd (v_w s), s) in
    let timers := filter (ends_with (s2l ".timer")) (words out) in
    match timers with [] => ret tt | _ => stop timers false end ;;
    set_timers (Some timers) ;;
    ret timers.

  (** Systemctl.py:150-155 restore_timers() *)
  Definition restore_timers : M (svc W) unit :=
    let! l := gets v_timers in
    match l with
    | Some (u :: t) => start (u :: t) false
    | _ => ret tt
    end ;;
    set_timers None.
End Systemd.
