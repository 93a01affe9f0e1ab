(** C64: 'tpmi write' writes, and 'tpmi read' tells, exactly the registers asked for. *)
From Verif Require Import Base L_Base M_Text S_Text M_CPUInfo M_MSR S_MSR M_Tpmi S_Tpmi L_Tpmi4 M_TpmiCmd S_TpmiCmd L_TpmiCmd4 L_TpmiCmd5 X_Tpmi X_TpmiCmd.

Lemma C64_write_l nm env created s x pk ins v rd out s' :
  reached nm env created s -> typed (wa_packages x) pk -> typed (wa_instances x) ins -> typed_value (wa_value x) v ->
  reg_def env (wa_fname x) (wa_reg x) rd -> fits_in rd (wa_bf x) v -> tpmi_write env x s = (Ok out, s') ->
  (forall a p i, In (a, p, i) out -> asked_for nm env created s (wa_fname x) (wa_addrs x) pk ins a p i) /\
  only_words (wa_fname x) (fun a i o => (exists p, In (a, p, i) out) /\ reg_word rd o) s s' /\
  all_written (wa_fname x) rd (wa_bf x) v (fun a i => exists p, In (a, p, i) out) s s'.
Proof. intros H H1 H2 H3 H4 H5 E. destruct (cmd_write nm env created s H x pk ins v rd out s' H1 H2 H3 H4 H5 E) as (K1 & _ & K2). auto. Qed.

Lemma C64_write_all_l nm env created s x pk ins v rd out s' :
  reached nm env created s -> typed (wa_packages x) pk -> typed (wa_instances x) ins -> typed_value (wa_value x) v ->
  reg_def env (wa_fname x) (wa_reg x) rd -> fits_in rd (wa_bf x) v ->
  (ins = None -> uniform nm env created s (wa_fname x) (wa_addrs x) pk) -> tpmi_write env x s = (Ok out, s') ->
  forall a p i, asked_for nm env created s (wa_fname x) (wa_addrs x) pk ins a p i -> In (a, p, i) out.
Proof. intros H H1 H2 H3 H4 H5 HU E. destruct (cmd_write nm env created s H x pk ins v rd out s' H1 H2 H3 H4 H5 E) as (_ & K & _). auto. Qed.

Lemma C64_read_l nm env created s x pk ins out s' :
  reached nm env created s -> typed (ra_packages x) pk -> typed (ra_instances x) ins -> tpmi_read env x s = (Ok out, s') ->
  forall f a p i r v fields, tells_reg out f a p i r v fields ->
    feature_asked env s x f /\ asked_for nm env created s f (ra_addrs x) pk ins a p i /\ reg_asked env x f r /\
    exists d rd, dget pair_eqb (t_devs s) (a, f) = Some d /\ reg_def env f r rd /\ reg_value d i rd v /\ fields_told x rd v fields.
Proof. intros H H1 H2 E. exact (proj1 (cmd_read nm env created s H x pk ins out s' H1 H2 E)). Qed.

Lemma C64_read_all_l nm env created s x pk ins out s' :
  reached nm env created s -> typed (ra_packages x) pk -> typed (ra_instances x) ins -> tpmi_read env x s = (Ok out, s') ->
  forall f a p i r, feature_asked env s x f -> (ins = None -> uniform nm env created s f (ra_addrs x) pk) ->
    asked_for nm env created s f (ra_addrs x) pk ins a p i -> reg_asked env x f r ->
    exists v fields, tells_reg out f a p i r v fields.
Proof. intros H H1 H2 E. exact (proj2 (cmd_read nm env created s H x pk ins out s' H1 H2 E)). Qed.

Lemma C64_read_only_l nm env created s x : reached nm env created s -> t_devs (snd (tpmi_read env x s)) = t_devs s.
Proof. intros H. exact (proj2 (cmd_read_ro nm env created s H x)). Qed.

(** A write that succeeds: every register it reports was asked for and has the value (or bit field) given,
    and nothing else changed in any device of any feature. *)
Theorem C64_write : forall nm env created s x pk ins v rd out s',
  reached nm env created s -> typed (wa_packages x) pk -> typed (wa_instances x) ins -> typed_value (wa_value x) v ->
  reg_def env (wa_fname x) (wa_reg x) rd -> fits_in rd (wa_bf x) v -> tpmi_write env x s = (Ok out, s') ->
  (forall a p i, In (a, p, i) out -> asked_for nm env created s (wa_fname x) (wa_addrs x) pk ins a p i) /\
  only_words (wa_fname x) (fun a i o => (exists p, In (a, p, i) out) /\ reg_word rd o) s s' /\
  all_written (wa_fname x) rd (wa_bf x) v (fun a i => exists p, In (a, p, i) out) s s'.
Proof. exact C64_write_l. Qed.
Print Assumptions C64_write.

(** Every register asked for is reported.  Missing: devices with different instances when no instances
    are asked for. *)
Theorem C64_write_all_partial : forall nm env created s x pk ins v rd out s',
  reached nm env created s -> typed (wa_packages x) pk -> typed (wa_instances x) ins -> typed_value (wa_value x) v ->
  reg_def env (wa_fname x) (wa_reg x) rd -> fits_in rd (wa_bf x) v ->
  (ins = None -> uniform nm env created s (wa_fname x) (wa_addrs x) pk) -> tpmi_write env x s = (Ok out, s') ->
  forall a p i, asked_for nm env created s (wa_fname x) (wa_addrs x) pk ins a p i -> In (a, p, i) out.
Proof. exact C64_write_all_l. Qed.
Print Assumptions C64_write_all_partial.

(** Whatever the outcome and the value, only words of the register asked for, in instances asked for,
    can change. *)
Theorem C64_write_only : forall nm env created s x pk ins,
  reached nm env created s -> typed (wa_packages x) pk -> typed (wa_instances x) ins ->
  only_words (wa_fname x) (fun a i o => (exists p, asked_for nm env created s (wa_fname x) (wa_addrs x) pk ins a p i) /\
    exists rd, reg_def env (wa_fname x) (wa_reg x) rd /\ reg_word rd o) s (snd (tpmi_write env x s)).
Proof. exact (fun nm env created s x pk ins H => cmd_write_only nm env created s H x pk ins). Qed.
Print Assumptions C64_write_only.

Theorem C64_write_succeeds : forall nm env created s x pk ins v rd,
  reached nm env created s -> typed (wa_packages x) pk -> typed (wa_instances x) ins -> typed_value (wa_value x) v ->
  reg_def env (wa_fname x) (wa_reg x) rd -> fits_in rd (wa_bf x) v ->
  filters_fit nm env created s (wa_fname x) (wa_addrs x) pk ins ->
  (ins = None -> uniform nm env created s (wa_fname x) (wa_addrs x) pk) ->
  (forall a p i d, asked_for nm env created s (wa_fname x) (wa_addrs x) pk ins a p i ->
     dget pair_eqb (t_devs s) (a, wa_fname x) = Some d -> exists old, reg_value d i rd old) ->
  exists out s', tpmi_write env x s = (Ok out, s').
Proof. exact (fun nm env created s x pk ins v rd H => cmd_write_live nm env created s H x pk ins v rd). Qed.
Print Assumptions C64_write_succeeds.

(** A register or bit field that does not exist, or a value the register has no room for: nothing
    changes, and the command fails if there was anything to write. *)
Theorem C64_write_rejected : forall nm env created s x pk ins v,
  reached nm env created s -> typed (wa_packages x) pk -> typed (wa_instances x) ins -> typed_value (wa_value x) v ->
  (forall rd, reg_def env (wa_fname x) (wa_reg x) rd ->
     (v < 0 \/ 2 ^ rd_width rd <= v) \/ exists y, wa_bf x = Some y /\ dget Z.eqb (rd_fields rd) y = None) ->
  (forall out s', tpmi_write env x s = (Ok out, s') -> (ins = None -> uniform nm env created s (wa_fname x) (wa_addrs x) pk) ->
     forall a p i, ~ asked_for nm env created s (wa_fname x) (wa_addrs x) pk ins a p i) /\
  t_devs (snd (tpmi_write env x s)) = t_devs s.
Proof. exact (fun nm env created s x pk ins v H => cmd_rejected nm env created s H x pk ins v). Qed.
Print Assumptions C64_write_rejected.

(** Everything 'tpmi read' tells was asked for and is what the device holds. *)
Theorem C64_read : forall nm env created s x pk ins out s',
  reached nm env created s -> typed (ra_packages x) pk -> typed (ra_instances x) ins -> tpmi_read env x s = (Ok out, s') ->
  forall f a p i r v fields, tells_reg out f a p i r v fields ->
    feature_asked env s x f /\ asked_for nm env created s f (ra_addrs x) pk ins a p i /\ reg_asked env x f r /\
    exists d rd, dget pair_eqb (t_devs s) (a, f) = Some d /\ reg_def env f r rd /\ reg_value d i rd v /\ fields_told x rd v fields.
Proof. exact C64_read_l. Qed.
Print Assumptions C64_read.

(** Everything asked for is told.  Missing: devices with different instances when no instances are
    asked for. *)
Theorem C64_read_all_partial : forall nm env created s x pk ins out s',
  reached nm env created s -> typed (ra_packages x) pk -> typed (ra_instances x) ins -> tpmi_read env x s = (Ok out, s') ->
  forall f a p i r, feature_asked env s x f -> (ins = None -> uniform nm env created s f (ra_addrs x) pk) ->
    asked_for nm env created s f (ra_addrs x) pk ins a p i -> reg_asked env x f r ->
    exists v fields, tells_reg out f a p i r v fields.
Proof. exact C64_read_all_l. Qed.
Print Assumptions C64_read_all_partial.

(** Reading changes nothing, whatever the outcome. *)
Theorem C64_read_only : forall nm env created s x,
  reached nm env created s -> t_devs (snd (tpmi_read env x s)) = t_devs s.
Proof. exact C64_read_only_l. Qed.
Print Assumptions C64_read_only.

(** Missing: reading without naming the features. *)
Theorem C64_read_succeeds_partial : forall nm env created s x pk ins l,
  reached nm env created s -> typed_once (ra_packages x) pk -> typed_once (ra_instances x) ins ->
  ra_fnames x = Some l -> l <> [] -> keys_once env -> read_once x -> (ra_bfs x <> None -> ra_regs x <> None) ->
  (forall f, In f l -> dget Z.eqb (te_fdicts env) f <> None /\ filters_fit nm env created s f (ra_addrs x) pk ins /\
     (ins = None -> uniform nm env created s f (ra_addrs x) pk)) ->
  (forall f a p i d r, In f l -> asked_for nm env created s f (ra_addrs x) pk ins a p i -> dget pair_eqb (t_devs s) (a, f) = Some d ->
     reg_asked env x f r -> exists rd v, reg_def env f r rd /\ reg_value d i rd v /\
       forall bl b, ra_bfs x = Some bl -> In b bl -> ra_reserved x b = false -> dget Z.eqb (rd_fields rd) b <> None) ->
  exists out s', tpmi_read env x s = (Ok out, s').
Proof. exact (fun nm env created s x pk ins l H => cmd_read_live nm env created s H x pk ins l). Qed.
Print Assumptions C64_read_succeeds_partial.

(** The instances "0-1,1" exist and can be read, yet reading them crashes. *)
Theorem C64_read_duplicate_refuted : exists nm env created s x l,
  reached nm env created s /\ typed (ra_instances x) (Some l) /\ ra_fnames x = Some [1] /\ ra_packages x = None /\ ra_bfs x = None /\
  filters_fit nm env created s 1 (ra_addrs x) None (Some l) /\
  (forall a p i d r, asked_for nm env created s 1 (ra_addrs x) None (Some l) a p i -> dget pair_eqb (t_devs s) (a, 1) = Some d ->
     reg_asked env x 1 r -> exists rd v, reg_def env 1 r rd /\ reg_value d i rd v) /\
  fst (tpmi_read env x s) = Exn EValue.
Proof. exact C64_read_duplicate_refuted_l. Qed.
Print Assumptions C64_read_duplicate_refuted.

(** Writing to a package without a device of the feature succeeds and writes nothing. *)
Theorem C64_write_nothing_refuted : exists nm env created s x p a s',
  reached nm env created s /\ typed (wa_packages x) (Some [p]) /\ wa_instances x = None /\ wa_addrs x = None /\
  reports nm (te_fdicts env) created a p /\ tpmi_write env x s = (Ok [], s') /\ t_devs s' = t_devs s.
Proof. exact C64_write_nothing_refuted_l. Qed.
Print Assumptions C64_write_nothing_refuted.

(** Writing everywhere may fail with some devices written. *)
Theorem C64_write_halfway_refuted : exists nm env created s x e s',
  reached nm env created s /\ wa_addrs x = None /\ wa_packages x = None /\ wa_instances x = None /\
  tpmi_write env x s = (Exn e, s') /\ t_devs s' <> t_devs s.
Proof. exact C64_write_halfway_refuted_l. Qed.
Print Assumptions C64_write_halfway_refuted.

(** Writing everywhere may succeed with an instance not written. *)
Theorem C64_write_skipped_refuted : exists nm env created s x out s' a p i,
  reached nm env created s /\ wa_addrs x = None /\ wa_packages x = None /\ wa_instances x = None /\
  tpmi_write env x s = (Ok out, s') /\ asked_for nm env created s (wa_fname x) None None None a p i /\ ~ In (a, p, i) out.
Proof. exact C64_write_skipped_refuted_l. Qed.
Print Assumptions C64_write_skipped_refuted.

(** Writing a value too large for the bit field succeeds and changes another bit field. *)
Theorem C64_write_too_large_refuted : exists nm env created s x v rd b sm hl b2 out s' u w s1 s2,
  reached nm env created s /\ typed_value (wa_value x) v /\ reg_def env (wa_fname x) (wa_reg x) rd /\ wa_bf x = Some b /\
  dget Z.eqb (rd_fields rd) b = Some sm /\ mask_of hl sm /\ ~ fits hl v /\ b2 <> b /\
  tpmi_write env x s = (Ok out, s') /\ In (20, 1, 0) out /\
  t_read_register env (wa_fname x) 20 0 (wa_reg x) (Some b2) s = (Ok u, s1) /\
  t_read_register env (wa_fname x) 20 0 (wa_reg x) (Some b2) s' = (Ok w, s2) /\ u <> w.
Proof. exact C64_write_too_large_refuted_l. Qed.
Print Assumptions C64_write_too_large_refuted.

Example C64_write_applies :
  reached x_nm e_env x_devs e_s /\ typed (wa_packages e_write) (Some [1]) /\ typed (wa_instances e_write) (Some [0]) /\
  typed_value (wa_value e_write) 5 /\ reg_def e_env 1 0 x_rd0 /\ fits_in x_rd0 (Some 1) 5 /\
  filters_fit x_nm e_env x_devs e_s 1 None (Some [1]) (Some [0]) /\
  (forall a p i d, asked_for x_nm e_env x_devs e_s 1 None (Some [1]) (Some [0]) a p i ->
     dget pair_eqb (t_devs e_s) (a, 1) = Some d -> exists old, reg_value d i x_rd0 old) /\
  asked_for x_nm e_env x_devs e_s 1 None (Some [1]) (Some [0]) 20 1 0 /\
  fst (tpmi_write e_env e_write e_s) = Ok [(20, 1, 0)] /\
  fst (t_read_register e_env 1 20 0 0 (Some 1) (snd (tpmi_write e_env e_write e_s))) = Ok 5.
Proof. exact C64_write_applies_l. Qed.

Example C64_read_applies :
  reached x_nm e_env x_devs e_s /\ typed_once (ra_packages e_read) (Some [1]) /\ typed_once (ra_instances e_read) (Some [0]) /\
  keys_once e_env /\ read_once e_read /\
  (forall f, In f [1] -> dget Z.eqb (te_fdicts e_env) f <> None /\ filters_fit x_nm e_env x_devs e_s f None (Some [1]) (Some [0])) /\
  (forall f a p i d r, In f [1] -> asked_for x_nm e_env x_devs e_s f None (Some [1]) (Some [0]) a p i -> dget pair_eqb (t_devs e_s) (a, f) = Some d ->
     reg_asked e_env e_read f r -> exists rd v, reg_def e_env f r rd /\ reg_value d i rd v /\
       forall bl b, ra_bfs e_read = Some bl -> In b bl -> ra_reserved e_read b = false -> dget Z.eqb (rd_fields rd) b <> None) /\
  fst (tpmi_read e_env e_read e_s) = Ok [(1, [(20, (1, [(0, [(0, (0x3c1c00000a5, [(1, 0xf07)]))])]))])].
Proof. exact C64_read_applies_l. Qed.

Example C64_reject_applies :
  reached x_nm e_env x_devs e_s /\ typed_value (s2l "0x10000000000000000") (2 ^ 64) /\
  (forall rd, reg_def e_env 1 0 rd -> 2 ^ 64 < 0 \/ 2 ^ rd_width rd <= 2 ^ 64) /\
  fst (tpmi_write e_env (WA 1 0 None (s2l "0x10000000000000000") None None None) e_s) = Exn EError.
Proof.
  split; [exact x_reached|]. split; [|split].
  - apply (V_hex (s2l "10000000000000000")); [discriminate|]. apply Forall_forall. intros c Hc. apply L_Tpmi.lhexb_spec.
    revert c Hc. apply forallb_forall. reflexivity.
  - intros rd (fd & E1 & E2). vm_compute in E1. injection E1 as <-. vm_compute in E2. injection E2 as <-. cbn. lia.
  - vm_compute. reflexivity.
Qed.
