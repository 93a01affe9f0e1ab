(** Model of Linux PM QoS latency limits: pepclibs/_LinuxPMQoS.py and pepclibs/PMQoS.py. *)
From Coq Require Import QArith.
From Verif Require Import Base M_Text M_Sysfs M_Human.

(** pepclibs/_LinuxPMQoS.py:28-31 _get_latency_limit_sysfs_path() *)
Definition pmqos_path (cpu : Z) : str :=
  s2l "/sys/devices/system/cpu/cpu" ++ dec cpu ++ s2l "/power/pm_qos_resume_latency_us".

(** The same text for every CPU (_LinuxPMQoS.py:44,82: the "f" of the format string is missing). *)
Definition pmqos_what : str := s2l "CPU{cpu} PM QoS latency limit".

Section PMQoS.
  (** The kernel and the cache; the 'verify' argument of the constructor (_LinuxPMQoS.py:94-106); the bytes
      /dev/cpu_dma_latency gives (None: there is no such device). *)
  Variable k : senv.
  Variable verify : bool.
  Variable cdev : option (list Z).

  (** pepclibs/_LinuxPMQoS.py:33-48 get_latency_limit(). Simplification: all the values at once instead of a
      generator. Division is exact instead of floating point. *)
  Definition get_latency_limit (cpus : list Z) : M sstate (list (Z * Q)) :=
    mmap cpus (fun cpu =>
      let! v := s_read_int k (pmqos_path cpu) in
      ret (cpu, inject_Z v / inject_Z 1000000)%Q).

  (** int.from_bytes(b, byteorder="little") *)
  Definition from_bytes_little (b : list Z) : Z := fold_right (fun x acc => x + 256 * acc) 0 b.

  (** pepclibs/_LinuxPMQoS.py:50-68 get_global_latency_limit() *)
  Definition get_global_latency_limit : res Q :=
    match cdev with
    | None => Exn ENotSupported
    | Some bytes => Ok (inject_Z (from_bytes_little (firstn 4 bytes)) / inject_Z 1000000)%Q
    end.

  (** pepclibs/_LinuxPMQoS.py:70-92 set_latency_limit(). Simplification: the multiplication is exact instead
      of floating point; the attributes added to the exception are not modelled. *)
  Definition set_latency_limit (lim : Q) (cpus : list Z) : M sstate unit :=
    let limit_us := qround (lim * inject_Z 1000000) in
    mfor cpus (fun cpu =>
      if negb verify then s_write_int k (pmqos_path cpu) (dec limit_us) (Some pmqos_what)
      else s_write_verify_int k (pmqos_path cpu) (dec limit_us) (Some pmqos_what) 0 0).

  (** pepclibs/PMQoS.py:25-44 PROPS *)
  Inductive pmqos_prop := LatencyLimit | GlobalLatencyLimit.

  (** pepclibs/PMQoS.py:63-78 _get_prop_cpus() *)
  Definition pmqos_get (p : pmqos_prop) (cpus : list Z) : M sstate (list (Z * Q)) :=
    match p with
    | LatencyLimit => get_latency_limit cpus
    | GlobalLatencyLimit =>
        let! lim := lift get_global_latency_limit in
        ret (map (fun cpu => (cpu, lim)) cpus)
    end.

  (** pepclibs/PMQoS.py:80-88 _set_prop_cpus() *)
  Definition pmqos_set (p : pmqos_prop) (val : Q) (cpus : list Z) : M sstate unit :=
    match p with
    | LatencyLimit => set_latency_limit val cpus
    | GlobalLatencyLimit => throw EError
    end.
End PMQoS.
