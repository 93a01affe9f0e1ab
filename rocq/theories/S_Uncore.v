(** Specification of uncore frequency access. *)
From Verif Require Import Base M_Text M_Sysfs S_Sysfs S_SysView M_Uncore.

(** ** Directories *)

(** The driver shows die 'd' of package 'p' as directory 'dir': with the new interface the files in the
    directory say so, with the legacy interface the name says so. *)
Definition shows (e : uenv) (dir : str) (p d : Z) : Prop :=
  In dir (ue_ls e) /\
  if use_new_api e
  then is_uncore_name dir = true /\
       exists a b, ue_package_id e dir = Ok a /\ str_to_int a = Ok p /\
                   ue_domain_id e dir = Ok b /\ str_to_int b = Ok d
  else dir = legacy_dir p d /\ 0 <= p /\ 0 <= d.

(** Every directory of the driver shows a die, the numbers are not negative, and no two directories show the
    same die. Other names are allowed, unless they look like those of the driver. *)
Definition well_shown (e : uenv) : Prop :=
  NoDup (ue_ls e) /\
  (forall dir, In dir (ue_ls e) ->
     (if use_new_api e then is_uncore_name dir = true else parse_legacy dir <> None) ->
     exists p d, shows e dir p d) /\
  (forall dir p d, shows e dir p d -> 0 <= p /\ 0 <= d) /\
  (forall dir dir' p d, shows e dir p d -> shows e dir' p d -> dir = dir').

(** Die 'd' of package 'p' is in the dictionary. *)
Definition has_die (dies : dies_t) (p d : Z) : Prop := exists l, In (p, l) dies /\ In d l.

(** A dictionary without repetitions. *)
Definition dies_nodup (dies : dies_t) : Prop :=
  NoDup (map fst dies) /\ forall p l, In (p, l) dies -> NoDup l.

(** Nothing was looked up yet, or what was found is remembered. *)
Definition known {W} (e : uenv) (s : ust W) : Prop :=
  us_built s = None \/ us_built s = Some (snd (found_dies e)).

(** ** What the files hold *)

(** [view w p] is what file 'p' holds, [fresh w p] tells that nothing outdated about it is cached. Reading
    changes nothing of this, and gives what the file holds if nothing outdated is cached. A write that
    succeeds stores the value, and may change other files only if they are related to the written one; a
    write that fails may change only the written one. *)
Definition behaves {W} (io : uio W) (view : W -> str -> res Z) (fresh : W -> str -> Prop)
  (related : str -> str -> Prop) : Prop :=
  (forall p w, exists r w', u_rd io p w = (r, w') /\ (fresh w p -> r = view w p) /\
     forall q, view w' q = view w q /\ (fresh w q -> fresh w' q)) /\
  (forall p v w w', u_wr io p v w = (Ok tt, w') ->
     view w' p = Ok v /\ fresh w' p /\
     forall q, q <> p -> ~ related p q -> view w' q = view w q /\ (fresh w q -> fresh w' q)) /\
  (forall p v w w' x, u_wr io p v w = (Exn x, w') ->
     forall q, q <> p -> view w' q = view w q /\ (fresh w q -> fresh w' q)).

(** The files of a die: the one with the frequency and the one with its limit. *)
Definition die_file (e : uenv) (p d : Z) (key : ukey) (limit : bool) (f : str) : Prop :=
  exists dir, shows e dir p d /\ f = uncore_path dir key limit.

(** What the "intel_uncore_frequency_tpmi" driver relates: the legacy file of a package (for its die 0) with
    the files of all the dies of the package, for the same key. *)
Definition tpmi_related (e : uenv) (f g : str) : Prop :=
  use_new_api e = true /\
  exists p d key, (f = legacy_path key p 0 false /\ die_file e p d key false g) \/
                  (g = legacy_path key p 0 false /\ die_file e p d key false f).

(** The files of the legacy interface that control whole packages. *)
Definition package_file (e : uenv) (p : Z) (key : ukey) (f : str) : Prop :=
  use_new_api e = true /\ (exists dir d, shows e dir p d) /\ f = legacy_path key p 0 false.

(** All the files of the driver: those of the dies, and with the new interface also those of the packages. *)
Definition driver_file (e : uenv) (f : str) : Prop :=
  (exists p d key limit, die_file e p d key limit f) \/
  (exists dir p d key limit, use_new_api e = true /\ shows e dir p d /\ f = legacy_path key p 0 limit).

(** The states that occur: nothing outdated is cached about the files of the dies, and, until the new interface
    is unlocked, about the other files of the driver. *)
Definition start_ok {W} (fresh : W -> str -> Prop) (e : uenv) (s : ust W) : Prop :=
  known e s /\ (forall p d key lim f, die_file e p d key lim f -> fresh (us_w s) f) /\
  (us_unlocked s = false -> forall f, driver_file e f -> fresh (us_w s) f).

(** As long as [J] holds, the files of the driver can be read and written. *)
Definition always_works {W} (io : uio W) (e : uenv) (J : W -> Prop) : Prop :=
  forall f, driver_file e f -> forall w, J w ->
    (exists n w', u_rd io f w = (Ok n, w') /\ J w') /\
    forall v, exists w', u_wr io f v w = (Ok tt, w') /\ J w'.

(** The truth for the kernel with side effects: what is in the files, and what is cached about them. *)
Definition kview (w : kstate) (p : str) : res Z :=
  match ks_files w p with Some v => Ok v | None => Exn ENotSupported end.

Definition kfresh (w : kstate) (p : str) : Prop :=
  match dget str_eqb (ks_cache w) p with Some v => ks_files w p = Some v | None => True end.

(** A kernel that stores what it takes, and changes only related files besides. *)
Definition kernel_ok (eff : str -> Z -> (str -> option Z) -> option (str -> option Z))
  (related : str -> str -> Prop) : Prop :=
  forall p v f f', eff p v f = Some f' ->
    f' p = Some v /\ forall q, q <> p -> ~ related p q -> f' q = f q.
