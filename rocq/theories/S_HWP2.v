(** Specification of when settings in the HWP request registers can be read and made. *)
From Coq Require Import Ascii String.
From Verif Require Import Base M_CPUInfo S_CPUInfo M_Text M_MSR S_MSR M_FMSR S_FMSR M_HWP S_HWP M_FRead S_FRead.

(** It is known of every CPU whether it has the feature (_FeaturedMSR.py: the constructor goes over all the features and
    CPUs). *)
Definition told (env : menv) (fr : freg) (n : str) : Prop :=
  forall c, In c (ci_online (me_ci env)) -> exists d b, dget str_eqb (fr_supp fr) n = Some d /\ dget Z.eqb d c = Some b.

(** The CPUs are online and have the setting. *)
Definition can_request (env : menv) (x : hwp) (k : hset) (cpus : list Z) : Prop :=
  exists fr, hw_req x = Ok fr /\ told env fr (s2l "pkg_control"%string) /\
    forall c, In c cpus -> In c (ci_online (me_ci env)) /\ has fr (hname k) c = true.

(** The CPUs have the setting in the package's request, if it decides about one of them. *)
Definition can_ask_package (env : menv) (x : hwp) (L : Z -> Z -> Z) (k : hset) (cpus : list Z) : Prop :=
  (forall c, In c cpus -> pkg_decides env x L k c = false) \/
  exists pkg, hw_pkg x = Ok pkg /\ forall c, In c cpus -> has pkg (hname k) c = true.

(** The registers have 64 bits. *)
Definition registers_64 (env : menv) (s : mstate) (a : Z) : Prop := forall d, 0 <= view env s a d < 2 ^ 64.
