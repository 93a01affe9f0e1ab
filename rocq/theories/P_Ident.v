(** C80: how the processor is identified. *)
From Coq Require Import Ascii String.
From Verif Require Import Base M_Text S_Text S_Human M_Topo S_Topo S_TpmiCmd S_Systemd M_Ident S_Ident L_Ident2 L_Ident3 L_Ident4 X_Ident.
Open Scope list_scope.
Open Scope Z_scope.

(** A field is what the last line with its label says, and is missing if no line has the label (case: x_info, x_says). *)
Theorem C80_field : forall lines online atom d key label, get_cpu_info (Ok lines) online atom = Ok d -> In (key, label) labels -> key <> "flags"%string ->
  (forall v x, last_says (line_says label) lines v -> stands_for v x -> value_at d key = Some x) /\
  (none_says (line_says label) lines -> value_at d key = None).
Proof. exact field_l. Qed.
Print Assumptions C80_field.

(** The base frequency is the one in the model name (case: x_info, x_says). *)
Theorem C80_base_freq : forall lines online atom d, get_cpu_info (Ok lines) online atom = Ok d ->
  (forall v x, last_says freq_says lines v -> stands_for v x -> value_at d "basefreq" = Some x) /\
  (none_says freq_says lines -> value_at d "basefreq" = None).
Proof. exact base_freq_l. Qed.
Print Assumptions C80_base_freq.

(** Every online CPU, and no other, has the flags of the 'Flags:' line (case: x_info). *)
Theorem C80_flags : forall lines cpus atom d ws, get_cpu_info (Ok lines) (Ok cpus) atom = Ok d ->
  last_says (line_says "Flags:") lines (join " " ws) -> ws <> [] -> Forall a_word ws -> stands_for (join " " ws) (IText (join " " ws)) ->
  exists f, value_at d "flags" = Some (IFlags f) /\ forall cpu, (In cpu cpus -> dget Z.eqb f cpu = Some ws) /\ (~ In cpu cpus -> dget Z.eqb f cpu = None).
Proof. exact flags_l. Qed.
Print Assumptions C80_flags.

(** The processor is hybrid exactly when there is the file of the E-cores (case: x_info). *)
Theorem C80_hybrid : forall lines online atom d, get_cpu_info (Ok lines) online atom = Ok d -> exists h, atom = Ok h /\ value_at d "hybrid" = Some (IBool h).
Proof. exact hybrid_l. Qed.
Print Assumptions C80_hybrid.

(** Plain output is always understood (case: x_plain). *)
Theorem C80_identifies : forall lines cpus h, plain lines -> exists d, get_cpu_info (Ok lines) (Ok cpus) (Ok h) = Ok d.
Proof. exact identifies_l. Qed.
Print Assumptions C80_identifies.

(** A number written as "0x1", which 'lscpu' prints as the stepping on some machines, ends in a ValueError. *)
Theorem C80_hex_refuted : exists line v n, line_says "Stepping:" line v /\ typed_value v n /\
  forall l1 l2 cpus h, plain l1 -> plain l2 -> get_cpu_info (Ok (l1 ++ line :: l2)) (Ok cpus) (Ok h) = Exn EValue.
Proof. exact hex_refuted_l. Qed.
Print Assumptions C80_hex_refuted.

(** The description is the model name (case: x_not_genuine) ... *)
Theorem C80_name : forall models d name, value_at d "modelname" = Some (IText name) -> ~ genuine name -> get_cpu_description models d = Ok name.
Proof. exact name_l. Qed.
Print Assumptions C80_name.

(** ... or, for a "Genuine Intel" one, the model number with the code name if it is known (case: x_descr, x_genuine). *)
Theorem C80_codename : forall models d name n, value_at d "modelname" = Some (IText name) -> genuine name -> value_at d "model" = Some (IInt n) -> 0 <= n ->
  exists h, typed_value (s2l "0x" ++ h) n /\
    (forall l1 code l2, models = l1 ++ (n, code) :: l2 -> (forall m, In m l1 -> fst m <> n) ->
       get_cpu_description models d = Ok (s2l "Intel processor model 0x" ++ h ++ s2l " (codename: " ++ code ++ s2l ")")) /\
    ((forall m, In m models -> fst m <> n) -> get_cpu_description models d = Ok (s2l "Intel processor model 0x" ++ h)).
Proof. exact codename_l. Qed.
Print Assumptions C80_codename.

(** E-core CPUs and P-core CPUs are those of the two files, in this order (case: x_lists). *)
Theorem C80_hybrid_cpus : forall d ta tc e p, hybrid d -> list_file ta e -> list_file tc p -> get_hybrid_cpus d (Ok ta) (Ok tc) = Ok (e, p).
Proof. exact hybrid_cpus_l. Qed.
Print Assumptions C80_hybrid_cpus.

Theorem C80_not_hybrid : forall d atom core, value_at d "hybrid" = Some (IBool false) -> get_hybrid_cpus d atom core = Exn ENotSupported.
Proof. exact hybrid_cpus_fails. Qed.
Print Assumptions C80_not_hybrid.

(** However often the frequencies are read, there is at most one warning (case: x_warned) ... *)
Theorem C80_warned_once : forall d ms, (length (f_warn (after_all d ms)) <= 1)%nat.
Proof. exact warned_once_l. Qed.
Print Assumptions C80_warned_once.

(** ... and it is given only for an old kernel, no CPU of either kind and no offline CPU (case: x_warned) ... *)
Theorem C80_warned_for : forall d ms v, In (WBug v) (f_warn (after_all d ms)) ->
  value_at d "hybrid" <> Some (IBool false) /\ old_kernel v /\ (exists m, In m ms /\ m_uname m = Ok v) /\
  exists m, In m ms /\ no_cpus (m_atom m) /\ no_cpus (m_core m) /\ m_offline m = Ok [].
Proof. exact warned_for_l. Qed.
Print Assumptions C80_warned_for.

(** ... and then it is given (case: x_warned, x_old). *)
Theorem C80_warns : forall d m v, hybrid d -> no_cpus (m_atom m) -> no_cpus (m_core m) -> m_uname m = Ok v -> old_kernel v -> m_offline m = Ok [] ->
  f_warn (after_all d [m]) = [WBug v].
Proof. exact warns_l. Qed.
Print Assumptions C80_warns.

(** But a hybrid processor without E-cores has P-cores, and for it there is no warning. *)
Theorem C80_warning_refuted : exists d m v, hybrid d /\ no_cpus (m_atom m) /\ read_range (m_core m) = Ok [0; 1; 2; 3; 4; 5; 6; 7] /\
  m_uname m = Ok v /\ old_kernel v /\ m_offline m = Ok [] /\ forall n, f_warn (after_all d (repeat m n)) = [].
Proof. exact warning_refuted_l. Qed.
Print Assumptions C80_warning_refuted.

(** All the caches with all their values, the numbers as numbers (case: x_caches, x_cache_reads) ... *)
Theorem C80_caches : forall l cs, Forall2 cache_reads l cs -> NoDup (map fst cs) -> get_cache_info (Ok (Some l)) [] = (Ok cs, cs).
Proof. exact caches_l. Qed.
Print Assumptions C80_caches.

(** ... which are then kept (case: x_caches). *)
Theorem C80_caches_kept : forall cs out, cs <> [] -> get_cache_info out cs = (Ok cs, cs).
Proof. exact caches_kept_l. Qed.
Print Assumptions C80_caches_kept.

(** After a call that failed, the next call returns the part that had been read as if it were all. *)
Theorem C80_caches_refuted : exists l part, fst (get_cache_info (Ok (Some l)) []) = Exn EError /\
  (forall out, fst (get_cache_info out (snd (get_cache_info (Ok (Some l)) []))) = Ok part) /\
  (length part < length l)%nat.
Proof. exact caches_refuted_l. Qed.
Print Assumptions C80_caches_refuted.

(** Each package and its dies are told (case: x_dies) ... *)
Theorem C80_dies : forall dies, dies <> [] -> Forall (fun x => snd x <> []) dies -> exists t, dies_to_str dies = Ok t /\ tells dies t.
Proof. exact dies_l. Qed.
Print Assumptions C80_dies.

(** ... no package, and a package without dies, being an IndexError. *)
Theorem C80_dies_none : forall dies, dies = [] \/ Exists (fun x => snd x = []) dies -> dies_to_str dies = Exn EIndex.
Proof. exact dies_fails. Qed.
Print Assumptions C80_dies_none.
