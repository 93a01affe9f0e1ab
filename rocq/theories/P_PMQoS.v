(** C45: PM QoS latency limits. *)
From Coq Require Import QArith Qabs.
From Verif Require Import Base M_Text M_Sysfs S_Sysfs S_SysView M_Human M_PMQoS S_PMQoS L_PMQoS X_PMQoS.

(** After a limit has been set, reading it for the same CPUs gives one value for every one of them, in
    order, equal to the one set to microsecond resolution, and equal to it if it is a whole number of
    microseconds. Without verification and without a cache this needs a kernel that stores what is written. *)
Theorem C45_roundtrip : forall k verify lim cpus s s',
  (0 <= lim)%Q -> Forall (fun c => 0 <= c) cpus ->
  (verify = true \/ se_cache k = true \/
   ss_intr s = false /\ forall c us, In c cpus -> nearest_us lim us ->
     stores k (limit_file c) (dec us) /\ k_unreadable k (limit_file c) = false) ->
  set_latency_limit k verify lim cpus s = (Ok tt, s') ->
  exists vals s'', get_latency_limit k cpus s' = (Ok vals, s'') /\ map fst vals = cpus /\
    (forall c v, In (c, v) vals -> to_the_microsecond lim v) /\
    (whole_us lim -> forall c v, In (c, v) vals -> (v == lim)%Q).
Proof. exact set_limit_roundtrip. Qed.
Print Assumptions C45_roundtrip.

(** The kernel's files of these CPUs then hold the limit in microseconds, outside a transaction. *)
Theorem C45_kernel : forall k lim cpus s s',
  (0 <= lim)%Q -> Forall (fun c => 0 <= c) cpus -> ss_intr s = false ->
  set_latency_limit k true lim cpus s = (Ok tt, s') ->
  forall c, In c cpus -> exists us, nearest_us lim us /\ on_disk k s' (limit_file c) = Ok (dec us).
Proof. exact set_limit_kernel. Qed.
Print Assumptions C45_kernel.

(** The limits of other CPUs stay, whatever happens. *)
Theorem C45_other_cpus : forall k verify lim cpus s r s' c,
  (0 <= lim)%Q -> Forall (fun c => 0 <= c) cpus -> 0 <= c -> ~ In c cpus ->
  set_latency_limit k verify lim cpus s = (r, s') -> untouched k s s' (limit_file c).
Proof. exact set_limit_other_cpu. Qed.
Print Assumptions C45_other_cpus.

(** So do all other files. *)
Theorem C45_frame : forall k verify lim cpus s r s',
  (0 <= lim)%Q -> Forall (fun c => 0 <= c) cpus ->
  set_latency_limit k verify lim cpus s = (r, s') ->
  forall p, (forall c, In c cpus -> p <> limit_file c) -> untouched k s s' p.
Proof. exact set_limit_frame. Qed.
Print Assumptions C45_frame.

(** Setting succeeds if the kernel takes the value for all the CPUs. *)
Theorem C45_succeeds : forall k verify lim cpus s,
  (0 <= lim)%Q -> Forall (fun c => 0 <= c) cpus -> ss_intr s = false ->
  (forall c us, In c cpus -> nearest_us lim us -> takes k s (limit_file c) (dec us)) ->
  exists s', set_latency_limit k verify lim cpus s = (Ok tt, s').
Proof. exact set_limit_succeeds. Qed.
Print Assumptions C45_succeeds.

(** The four bytes of the global limit decode to the number of microseconds they encode; more bytes do not
    matter. *)
Theorem C45_global : forall n rest, 0 <= n < 2 ^ 32 ->
  get_global_latency_limit (Some (four_bytes n ++ rest)) = Ok (inject_Z n / inject_Z 1000000)%Q.
Proof. exact global_decodes. Qed.
Print Assumptions C45_global.

(** The global limit is the same for every CPU, and cannot be set. *)
Theorem C45_global_prop : forall k verify n rest cpus s, 0 <= n < 2 ^ 32 ->
  pmqos_get k (Some (four_bytes n ++ rest)) GlobalLatencyLimit cpus s =
    (Ok (map (fun c => (c, inject_Z n / inject_Z 1000000)%Q) cpus), s) /\
  forall v, pmqos_set k verify GlobalLatencyLimit v cpus s = (Exn EError, s).
Proof. exact global_prop. Qed.
Print Assumptions C45_global_prop.

(** Where there is no file or no device the limit is not supported. *)
Theorem C45_not_supported : forall k cpus c s, In c cpus ->
  (forall x, In x cpus -> seen k s (limit_file x) = Exn ENotSupported \/
    exists n, seen k s (limit_file x) = Ok (dec n) /\ 0 <= n) ->
  seen k s (limit_file c) = Exn ENotSupported ->
  (exists s', get_latency_limit k cpus s = (Exn ENotSupported, s')) /\
  get_global_latency_limit None = Exn ENotSupported.
Proof. exact not_supported. Qed.
Print Assumptions C45_not_supported.

(** A limit of 12.5 us for CPUs 0 and 10: the kernel gets 12 (ties go to the even number). CPU 1 keeps
    its limit. *)
Example C45_case : exists s',
  set_latency_limit xk true (125 # 10000000) [0; 10] (s_init xfs) = (Ok tt, s') /\
  ss_fs s' (limit_file 0) = Some (s2l "12" ++ ["010"%char]) /\
  ss_fs s' (limit_file 10) = Some (s2l "12" ++ ["010"%char]) /\
  ss_fs s' (limit_file 1) = Some (s2l "0" ++ ["010"%char]) /\
  fst (get_latency_limit xk [10; 1] s') = Ok [(10, (12 # 1000000)%Q); (1, (0 # 1000000)%Q)].
Proof. exact case_l. Qed.
Example C45_global_case : get_global_latency_limit (Some [0x10; 0x27; 0; 0]) = Ok (10000 # 1000000)%Q.
Proof. reflexivity. Qed.
