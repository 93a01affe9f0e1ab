(** Property theorems C34-C36: TPMI registers. *)
From Verif Require Import Base L_Base M_Text S_Text M_Kver M_Osa M_CPUInfo M_MSR S_MSR
  M_Tpmi S_Tpmi L_Tpmi2 L_Tpmi3 L_Tpmi4 L_Tpmi5 L_Tpmi6 X_Tpmi.

(** ** C34: the map of the register dump *)

(** The map built from one dump finds every word in any later dump of the same layout. *)
Theorem C34_read_any_word : forall d d' i o v,
  dump_ok d -> dump_ok d' -> same_layout d d' -> holds d' i o v -> 0 <= o -> o mod 4 = 0 ->
  exists md, build_mdmap (show d) = Ok md /\ read_text md (show d') i o = Ok v.
Proof. exact C34_read_l. Qed.
Print Assumptions C34_read_any_word.

Theorem C34_nothing_else : forall d i o text,
  dump_ok d -> (forall v, ~ holds d i o v) ->
  exists md, build_mdmap (show d) = Ok md /\ read_text md text i o = Exn EError.
Proof. exact C34_only_l. Qed.
Print Assumptions C34_nothing_else.

Theorem C34_instances : forall d,
  dump_ok d -> exists md, build_mdmap (show d) = Ok md /\ map fst md = map ds_inst d.
Proof. exact C34_instances_l. Qed.
Print Assumptions C34_instances.

Example C34_applies : dump_ok x_feat /\ dump_ok (poke x_feat 1 8 (s2l "12345678")) /\
  same_layout x_feat (poke x_feat 1 8 (s2l "12345678")) /\
  holds (poke x_feat 1 8 (s2l "12345678")) 1 8 0x12345678 /\ (forall v, ~ holds x_feat 1 16 v).
Proof.
  split; [apply dump_okb_sound; reflexivity|]. split; [apply dump_okb_sound; reflexivity|]. split; [apply poke_layout|]. split.
  - apply (x_holds _ 1 8 (s2l "12345678")). cbn. tauto.
  - intros v (w & H & _). vm_compute in H. intuition congruence.
Qed.

(** ** C35: registers and bit fields *)

Theorem C35_field_text : forall high low, 0 <= low <= high ->
  exists sm, format_bits (dec high ++ ":"%char :: dec low) = Ok sm /\ mask_of (high, low) sm.
Proof. exact C35_format_l. Qed.
Print Assumptions C35_field_text.

Theorem C35_field_text_rejected : forall high low, 0 <= high < low ->
  format_bits (dec high ++ ":"%char :: dec low) = Exn EError.
Proof. exact C35_format_rejects_l. Qed.
Print Assumptions C35_field_text_rejected.

Theorem C35_tables : forall spec fd, format_fdict spec = Ok fd -> (forall r s, In (r, s) spec -> 0 <= rs_offset s) ->
  forall r rd, dget Z.eqb fd r = Some rd -> reg_ok rd /\
    exists s, In (r, s) spec /\ rd_offset rd = rs_offset s /\ rd_width rd = rs_width s /\
      forall b sm, dget Z.eqb (rd_fields rd) b = Some sm -> exists t, In (b, t) (rs_fields s) /\ format_bits t = Ok sm.
Proof. exact C35_tables_l. Qed.
Print Assumptions C35_tables.

Theorem C35_read : forall nm env created s f a i r rd d v,
  reached nm env created s -> dget pair_eqb (t_devs s) (a, f) = Some d -> reg_def env f r rd -> reg_value d i rd v ->
  exists s', t_read_register env f a i r None s = (Ok v, s') /\ t_devs s' = t_devs s.
Proof. exact C35_read_l. Qed.
Print Assumptions C35_read.

Theorem C35_read_field : forall nm env created s f a i r rd d v b sm hl,
  reached nm env created s -> dget pair_eqb (t_devs s) (a, f) = Some d -> reg_def env f r rd -> reg_value d i rd v ->
  dget Z.eqb (rd_fields rd) b = Some sm -> mask_of hl sm ->
  exists x s', t_read_register env f a i r (Some b) s = (Ok x, s') /\ is_field hl v x /\ t_devs s' = t_devs s.
Proof. exact C35_read_field_l. Qed.
Print Assumptions C35_read_field.

Theorem C35_write : forall nm env created s f a i r rd d v old,
  reached nm env created s -> dget pair_eqb (t_devs s) (a, f) = Some d -> reg_def env f r rd -> reg_value d i rd old ->
  0 <= v < 2 ^ rd_width rd ->
  exists s' d', t_write_register env v f a i r None s = (Ok tt, s') /\
    dget pair_eqb (t_devs s') (a, f) = Some d' /\
    (forall k', k' <> (a, f) -> dget pair_eqb (t_devs s') k' = dget pair_eqb (t_devs s) k') /\
    reg_changed d d' i rd v.
Proof. exact C35_write_l. Qed.
Print Assumptions C35_write.

Theorem C35_write_then_read : forall nm env created s f a i r rd d v old,
  reached nm env created s -> dget pair_eqb (t_devs s) (a, f) = Some d -> reg_def env f r rd -> reg_value d i rd old ->
  0 <= v < 2 ^ rd_width rd ->
  forall s1, t_write_register env v f a i r None s = (Ok tt, s1) ->
  exists s2, t_read_register env f a i r None s1 = (Ok v, s2).
Proof. exact C35_write_read_l. Qed.
Print Assumptions C35_write_then_read.

(** Missing: the code does not check that the value fits into the field (see the refutation below),
    nor that the field is within the register. *)
Theorem C35_write_field_partial : forall nm env created s f a i r rd d v old b sm hl,
  reached nm env created s -> dget pair_eqb (t_devs s) (a, f) = Some d -> reg_def env f r rd -> reg_value d i rd old ->
  dget Z.eqb (rd_fields rd) b = Some sm -> mask_of hl sm -> fst hl < rd_width rd -> fits hl v ->
  exists s' d' new, t_write_register env v f a i r (Some b) s = (Ok tt, s') /\
    dget pair_eqb (t_devs s') (a, f) = Some d' /\
    (forall k', k' <> (a, f) -> dget pair_eqb (t_devs s') k' = dget pair_eqb (t_devs s) k') /\
    reg_changed d d' i rd new /\ is_set hl v old new /\
    exists s2, t_read_register env f a i r (Some b) s' = (Ok v, s2) /\ t_devs s2 = t_devs s'.
Proof. exact C35_write_field_l. Qed.
Print Assumptions C35_write_field_partial.

Theorem C35_value_too_large_for_field_refuted :
  exists nm env created s f a i r rd d old v b sm hl b2 sm2 hl2 s' s1 s2 x y,
  reached nm env created s /\ dget pair_eqb (t_devs s) (a, f) = Some d /\ reg_def env f r rd /\ reg_value d i rd old /\
  dget Z.eqb (rd_fields rd) b = Some sm /\ mask_of hl sm /\ dget Z.eqb (rd_fields rd) b2 = Some sm2 /\ mask_of hl2 sm2 /\
  (forall n, in_field hl n -> ~ in_field hl2 n) /\ 0 <= v /\ ~ fits hl v /\
  t_write_register env v f a i r (Some b) s = (Ok tt, s') /\
  t_read_register env f a i r (Some b2) s = (Ok x, s1) /\
  t_read_register env f a i r (Some b2) s' = (Ok y, s2) /\ x <> y.
Proof. exact C35_too_large_refuted_l. Qed.
Print Assumptions C35_value_too_large_for_field_refuted.

Theorem C35_rejects_value : forall nm env created s f a i r rd b v,
  reached nm env created s -> reg_def env f r rd -> v < 0 \/ 2 ^ rd_width rd <= v ->
  exists e s', t_write_register env v f a i r b s = (Exn e, s') /\ t_devs s' = t_devs s.
Proof. exact C35_rejects_value_l. Qed.
Print Assumptions C35_rejects_value.

Theorem C35_rejects_unknown : forall nm env created s f a i r b v,
  reached nm env created s ->
  (forall d rd, dget pair_eqb (t_devs s) (a, f) = Some d -> reg_def env f r rd ->
     (forall x, b = Some x -> dget Z.eqb (rd_fields rd) x <> None) -> In i (map ds_inst d) -> False) ->
  (exists e s', t_write_register env v f a i r b s = (Exn e, s') /\ t_devs s' = t_devs s) /\
  (exists e s', t_read_register env f a i r b s = (Exn e, s') /\ t_devs s' = t_devs s).
Proof. exact C35_rejects_unknown_l. Qed.
Print Assumptions C35_rejects_unknown.

(** Missing: a 64-bit register of which the device has only the first half. *)
Theorem C35_failed_write_changes_nothing_partial : forall nm env created s f a i r b v e s',
  reached nm env created s ->
  (forall d rd lo, dget pair_eqb (t_devs s) (a, f) = Some d -> reg_def env f r rd -> rd_width rd = 64 ->
     holds d i (rd_offset rd) lo -> exists hi, holds d i (rd_offset rd + 4) hi) ->
  t_write_register env v f a i r b s = (Exn e, s') -> t_devs s' = t_devs s.
Proof. exact C35_failed_unchanged_l. Qed.
Print Assumptions C35_failed_write_changes_nothing_partial.

Theorem C35_failed_write_changes_nothing_refuted : exists nm env created s f a i r v e s',
  reached nm env created s /\ t_write_register env v f a i r None s = (Exn e, s') /\ t_devs s' <> t_devs s.
Proof. exact C35_failed_write_refuted_l. Qed.
Print Assumptions C35_failed_write_changes_nothing_refuted.

Example C35_applies :
  reached x_nm (x_tenv x_devs x_paths) x_devs (x_tstate x_devs x_paths) /\
  dget pair_eqb (t_devs (x_tstate x_devs x_paths)) (10, 1) = Some x_feat /\
  reg_def (x_tenv x_devs x_paths) 1 0 x_rd0 /\ reg_value x_feat 0 x_rd0 0x3c1c00000a5 /\
  dget Z.eqb (rd_fields x_rd0) 1 = Some (30, 2 ^ 42 - 2 ^ 30) /\ mask_of (41, 30) (30, 2 ^ 42 - 2 ^ 30) /\
  fst (41, 30) < rd_width x_rd0 /\ fits (41, 30) 0xabc.
Proof.
  split; [exact x_reached|]. split; [reflexivity|]. split; [exact x_def0|]. split; [exact x_reg0|]. split; [reflexivity|].
  split; [exact x_mask1|]. split; [reflexivity|]. unfold fits. cbn. lia.
Qed.

Example C35_write_example :
  fst (t_read_register (x_tenv x_devs x_paths) 1 10 0 0 None
        (snd (t_write_register (x_tenv x_devs x_paths) 0xabc 1 10 0 0 (Some 1) (x_tstate x_devs x_paths)))) = Ok 0x2af000000a5.
Proof. vm_compute. reflexivity. Qed.

(** ** C36: finding the devices and iterating over them *)

(** The constructor finds every device of a feature, with the package number the device reports. *)
Theorem C36_devices_found : forall nm env created f2n paths s,
  (forall k d, dget pair_eqb created k = Some d -> dump_ok d) -> dirs_match f2n paths created ->
  tables_ok (te_fdicts env) ->
  tpmi_init nm (te_fdicts env) f2n paths (TS created []) = (Ok env, s) ->
  t_devs s = created /\
  (forall f a p, (exists fm, dget Z.eqb (te_fmaps env) f = Some fm /\ dget Z.eqb fm a = Some p) <->
     (exists d, dget pair_eqb created (a, f) = Some d) /\ reports nm (te_fdicts env) created a p) /\
  (forall f a d, dget pair_eqb created (a, f) = Some d -> exists p, reports nm (te_fdicts env) created a p).
Proof. exact C36_devices_found_l. Qed.
Print Assumptions C36_devices_found.

Theorem C36_iter_sound : forall nm env created s s' f addrs packages instances out,
  reached nm env created s -> iter_feature env f addrs packages instances s = (Ok out, s') ->
  forall a p i, In (a, p, i) out ->
    exists d, selected nm env created s f addrs packages a p d /\ In i (map ds_inst d) /\ wanted instances i.
Proof. exact C36_sound_l. Qed.
Print Assumptions C36_iter_sound.

(** Missing: devices with different instances when no instances are asked for. *)
Theorem C36_iter_complete_partial : forall nm env created s s' f addrs packages instances out,
  reached nm env created s -> (instances = None -> uniform nm env created s f addrs packages) ->
  iter_feature env f addrs packages instances s = (Ok out, s') ->
  forall a p i d, selected nm env created s f addrs packages a p d -> In i (map ds_inst d) -> wanted instances i ->
    In (a, p, i) out.
Proof. exact C36_complete_l. Qed.
Print Assumptions C36_iter_complete_partial.

Theorem C36_differing_instances_refuted : exists nm env created s f out s' a p d i,
  reached nm env created s /\ iter_feature env f None None None s = (Ok out, s') /\
  selected nm env created s f None None a p d /\ In i (map ds_inst d) /\ ~ In (a, p, i) out.
Proof. exact C36_differing_instances_refuted_l. Qed.
Print Assumptions C36_differing_instances_refuted.

Theorem C36_iter_once : forall nm env created s s' f addrs packages instances out,
  reached nm env created s ->
  (forall l, addrs = Some l \/ packages = Some l \/ instances = Some l -> NoDup l) ->
  iter_feature env f addrs packages instances s = (Ok out, s') -> NoDup out.
Proof. exact C36_once_l. Qed.
Print Assumptions C36_iter_once.

Theorem C36_iter_all_succeeds : forall nm env created s f a0 d0,
  reached nm env created s -> dget pair_eqb (t_devs s) (a0, f) = Some d0 -> uniform nm env created s f None None ->
  exists out s', iter_feature env f None None None s = (Ok out, s').
Proof. exact C36_all_l. Qed.
Print Assumptions C36_iter_all_succeeds.

Theorem C36_iter_rejects : forall nm env created s f addrs packages instances,
  reached nm env created s ->
  (exists a p d i l, selected nm env created s f addrs packages a p d /\ instances = Some l /\ In i l /\ ~ In i (map ds_inst d)) \/
  (exists a l, addrs = Some l /\ In a l /\ dget pair_eqb (t_devs s) (a, f) = None /\ packages <> Some []) \/
  (exists p l, packages = Some l /\ In p l /\ addrs = None /\ forall a, ~ reports nm (te_fdicts env) created a p) \/
  (exists a p la lp, addrs = Some la /\ In a la /\ packages = Some lp /\ In p lp /\ ~ reports nm (te_fdicts env) created a p) ->
  exists e s', iter_feature env f addrs packages instances s = (Exn e, s').
Proof. exact C36_rejects_l. Qed.
Print Assumptions C36_iter_rejects.

Example C36_applies :
  reached x_nm (x_tenv x_devs x_paths) x_devs (x_tstate x_devs x_paths) /\
  uniform x_nm (x_tenv x_devs x_paths) x_devs (x_tstate x_devs x_paths) 1 None None /\
  fst (iter_feature (x_tenv x_devs x_paths) 1 None None None (x_tstate x_devs x_paths)) =
    Ok [(10, 0, 0); (10, 0, 1); (20, 1, 0); (20, 1, 1)] /\
  fst (iter_feature (x_tenv x_devs x_paths) 1 None (Some [1]) (Some [1]) (x_tstate x_devs x_paths)) = Ok [(20, 1, 1)] /\
  fst (iter_feature (x_tenv x_devs x_paths) 1 None (Some [7]) None (x_tstate x_devs x_paths)) = Exn EError.
Proof.
  split; [exact x_reached|]. split; [exact x_uniform|]. repeat (split; [vm_compute; reflexivity|]). vm_compute; reflexivity.
Qed.
