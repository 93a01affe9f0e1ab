(** Example TPMI devices, and witnesses of what is not true. *)
From Verif Require Import Base L_Base L_Monad M_Text S_Text M_Kver M_Osa M_CPUInfo M_MSR S_MSR L_Bits
  M_Tpmi S_Tpmi L_Tpmi L_Tpmi2 L_Tpmi3 L_Tpmi4 L_Tpmi5 L_Tpmi6.
From Coq Require Import ZifyBool.

(** Deciding 'dump_ok'. *)
Definition row_okb (r : drow) : bool :=
  nonemptyb (dr_at r) && forallb lhexb (dr_at r) && negb (Nat.eqb (length (dr_words r)) 0) &&
  forallb (fun w => Nat.eqb (length w) 8 && forallb lhexb w) (dr_words r).
Definition sec_okb (s : dsection) : bool :=
  (0 <=? ds_inst s) && nonemptyb (ds_where s) && forallb lhexb (ds_where s) &&
  negb (Nat.eqb (length (ds_rows s)) 0) && forallb row_okb (ds_rows s).
Fixpoint nodupb {A} (eqb : A -> A -> bool) (l : list A) : bool :=
  match l with [] => true | x :: t => negb (existsb (eqb x) t) && nodupb eqb t end.
Definition dump_okb (d : dump) : bool :=
  forallb sec_okb d && nodupb Z.eqb (map ds_inst d) && nodupb pair_eqb (map fst (words d)).

Lemma nodupb_sound {A} (eqb : A -> A -> bool) (H : forall x y, eqb x y = true <-> x = y) l : nodupb eqb l = true -> NoDup l.
Proof.
  induction l as [|x l IH]; intros E; [constructor|]. cbn in E. apply andb_prop in E as [E1 E2]. constructor; [|auto].
  intros Hin. rewrite (proj2 (existsb_exists (eqb x) l)) in E1; [discriminate|]. exists x. split; [exact Hin|]. now apply H.
Qed.
Lemma hexs_sound w : forallb lhexb w = true -> Forall is_hex w.
Proof. intros H. apply Forall_forall. intros c Hc. rewrite forallb_forall in H. apply lhexb_spec. auto. Qed.
Lemma row_okb_sound r : row_okb r = true -> row_ok r.
Proof.
  unfold row_okb. intros H. apply andb_prop in H as [H H4]. apply andb_prop in H as [H H3]. apply andb_prop in H as [H1 H2].
  split; [destruct (dr_at r); [discriminate|discriminate]|]. split; [now apply hexs_sound|]. split; [now destruct (dr_words r)|].
  apply Forall_forall. intros w Hw. rewrite forallb_forall in H4. specialize (H4 w Hw). apply andb_prop in H4 as [K1 K2].
  split; [lia|now apply hexs_sound].
Qed.
Lemma dump_okb_sound d : dump_okb d = true -> dump_ok d.
Proof.
  unfold dump_okb. intros H. apply andb_prop in H as [H H3]. apply andb_prop in H as [H1 H2]. split; [|split].
  - apply Forall_forall. intros s Hs. rewrite forallb_forall in H1. specialize (H1 s Hs). unfold sec_okb in H1.
    apply andb_prop in H1 as [H1 K5]. apply andb_prop in H1 as [H1 K4]. apply andb_prop in H1 as [H1 K3]. apply andb_prop in H1 as [K1 K2].
    split; [lia|]. split; [now destruct (ds_where s)|]. split; [now apply hexs_sound|]. split; [now destruct (ds_rows s)|].
    apply Forall_forall. intros r Hr. rewrite forallb_forall in K5. apply row_okb_sound. auto.
  - exact (nodupb_sound _ Zeqb_spec _ H2).
  - exact (nodupb_sound _ pair_eqb_spec _ H3).
Qed.
Definition devs_okb (devs : list ((Z * Z) * dump)) : bool := forallb (fun e => dump_okb (snd e)) devs.
Lemma devs_okb_sound devs : devs_okb devs = true -> forall k d, dget pair_eqb devs k = Some d -> dump_ok d.
Proof.
  intros H k d E. apply (dget_In _ pair_eqb_spec) in E. unfold devs_okb in H. rewrite forallb_forall in H.
  specialize (H _ E). now apply dump_okb_sound.
Qed.

(** Deciding 'mask_of' and 'tables_ok' for tables made by '_format_fdict()'. *)
Lemma tables_formatted (specs : list (Z * list (Z * rspec))) (tabs : list (Z * list (Z * rdict))) :
  rmap specs (fun e => let? fd := format_fdict (snd e) in Ok (fst e, fd)) = Ok tabs ->
  forallb (fun e => forallb (fun r => 0 <=? rs_offset (snd r)) (snd e)) specs = true -> tables_ok tabs.
Proof.
  intros E H f fd r rd Ef Er. apply (dget_In _ Zeqb_spec) in Ef. destruct (rmap_in _ _ _ _ E Ef) as ([f0 spec] & Hin & E2).
  cbn [fst snd] in E2. destruct (format_fdict spec) as [fd0|] eqn:E3; [|discriminate]. cbn [rbind] in E2. injection E2 as -> ->.
  eapply C35_tables_l; [exact E3| |exact Er]. intros r0 s Hs. rewrite forallb_forall in H. specialize (H _ Hin). cbn [snd] in H.
  rewrite forallb_forall in H. specialize (H _ Hs). cbn [snd] in H. lia.
Qed.

(** Features: 0 is 'tpmi_info' with the register 0 (TPMI_BUS_INFO) and its field 0 (PACKAGE_ID) in
    bits 15:8; 1 has a 64-bit register 0 with the fields 0 (bits 7:0) and 1 (bits 41:30), and a 32-bit
    register 1. *)
Definition x_nm : tnames := TN 0 0 0.
Definition x_specs : list (Z * list (Z * rspec)) :=
  [(0, [(0, RS 8 64 [(0, s2l "15:8")])]); (1, [(0, RS 8 64 [(0, s2l "7:0"); (1, s2l "41:30")]); (1, RS 4 32 [])])].
Definition x_tabs : list (Z * list (Z * rdict)) :=
  match rmap x_specs (fun e => let? fd := format_fdict (snd e) in Ok (fst e, fd)) with Ok t => t | Exn _ => [] end.
Definition x_info (pkg : string) : dump :=
  [DS 0 (s2l "80080000") [DR true (s2l "00000000") [s2l "00000001"; s2l "00000002"; s2l ("0000" ++ pkg ++ "07"); s2l "00000000"]]].
Definition x_feat : dump :=
  [DS 0 (s2l "80081000") [DR false (s2l "00000000") [s2l "00000001"; s2l "00000002"; s2l "c00000a5"; s2l "000003c1"]];
   DS 1 (s2l "80081100") [DR false (s2l "00000000") [s2l "00000001"; s2l "00000002"; s2l "000000b5"; s2l "00000001"]]].
(** Two devices, in packages 0 and 1. *)
Definition x_devs : list ((Z * Z) * dump) :=
  [((10, 0), x_info "00"); ((10, 1), x_feat); ((20, 0), x_info "01"); ((20, 1), x_feat)].
Definition x_f2n : list (Z * Z) := [(129, 0); (4, 1)].
Definition x_paths : list (Z * list Z) := [(10, [129; 4]); (20, [4; 129])].
Definition x_tenv (devs : list ((Z * Z) * dump)) paths : tenv :=
  match fst (tpmi_init x_nm x_tabs x_f2n paths (TS devs [])) with Ok e => e | Exn _ => TE [] [] [] end.
Definition x_tstate (devs : list ((Z * Z) * dump)) paths : tstate := snd (tpmi_init x_nm x_tabs x_f2n paths (TS devs [])).

Lemma x_tabs_ok : tables_ok x_tabs.
Proof. apply (tables_formatted x_specs); reflexivity. Qed.

Lemma dirs_decide f2n paths (devs : list ((Z * Z) * dump)) :
  forallb (fun p => forallb (fun fid => match dget Z.eqb f2n fid with
                                       | Some f => match dget pair_eqb devs (fst p, f) with Some _ => true | None => false end
                                       | None => true
                                       end) (snd p)) paths = true ->
  forallb (fun e => existsb (fun p => (fst p =? fst (fst e)) &&
                              existsb (fun fid => match dget Z.eqb f2n fid with Some f => f =? snd (fst e) | None => false end) (snd p)) paths)
          devs = true ->
  dirs_match f2n paths devs.
Proof.
  intros H1 H2 a f. rewrite forallb_forall in H1, H2. split.
  - intros (fids & fid & K1 & K2 & K3). specialize (H1 _ K1). cbn [fst snd] in H1. rewrite forallb_forall in H1. specialize (H1 _ K2).
    rewrite K3 in H1. destruct (dget pair_eqb devs (a, f)); [eauto|discriminate].
  - intros (d & E). apply (dget_In _ pair_eqb_spec) in E. specialize (H2 _ E). cbn [fst snd] in H2. apply existsb_exists in H2 as ([x fids] & K1 & K2).
    cbn [fst snd] in K2. apply andb_prop in K2 as [K2 K3]. assert (x = a) by lia. subst x.
    apply existsb_exists in K3 as (fid & K4 & K5). destruct (dget Z.eqb f2n fid) as [g|] eqn:Eg; [|discriminate].
    assert (g = f) by lia. subst g. eauto.
Qed.

Lemma x_reached_gen devs paths env s : devs_okb devs = true ->
  tpmi_init x_nm x_tabs x_f2n paths (TS devs []) = (Ok env, s) -> te_fdicts env = x_tabs ->
  dirs_match x_f2n paths devs -> reached x_nm env devs s.
Proof.
  intros H1 H2 H3 H4. apply (R_init _ _ _ x_f2n paths); [now apply devs_okb_sound|exact H4|rewrite H3; exact x_tabs_ok|rewrite H3; exact H2].
Qed.

Lemma x_reached : reached x_nm (x_tenv x_devs x_paths) x_devs (x_tstate x_devs x_paths).
Proof. apply (x_reached_gen _ x_paths); [reflexivity|reflexivity|reflexivity|]. apply dirs_decide; reflexivity. Qed.

(** The second device has one instance more: it is not visited. *)
Definition x_devs2 : list ((Z * Z) * dump) :=
  [((10, 0), x_info "00"); ((10, 1), firstn 1 x_feat); ((20, 0), x_info "01"); ((20, 1), x_feat)].
Lemma x_reached2 : reached x_nm (x_tenv x_devs2 x_paths) x_devs2 (x_tstate x_devs2 x_paths).
Proof. apply (x_reached_gen _ x_paths); [reflexivity|reflexivity|reflexivity|]. apply dirs_decide; reflexivity. Qed.

(** The 64-bit register is cut off by the end of the device. *)
Definition x_devs3 : list ((Z * Z) * dump) :=
  [((10, 0), x_info "00");
   ((10, 1), [DS 0 (s2l "80081000") [DR false (s2l "00000000") [s2l "00000001"; s2l "00000002"; s2l "c00000a5"]]])].
Definition x_paths3 : list (Z * list Z) := [(10, [129; 4])].
Lemma x_reached3 : reached x_nm (x_tenv x_devs3 x_paths3) x_devs3 (x_tstate x_devs3 x_paths3).
Proof. apply (x_reached_gen _ x_paths3); [reflexivity|reflexivity|reflexivity|]. apply dirs_decide; reflexivity. Qed.

Definition x_rd0 : rdict := RD 8 64 [(0, (0, 255)); (1, (30, 2 ^ 42 - 2 ^ 30))].

Lemma x_holds d i o w : In (i, o, w) (words d) -> holds d i o (hexval w).
Proof. intros H. exists w. auto. Qed.

Lemma x_mask0 : mask_of (7, 0) (0, 255).
Proof. destruct (C35_format_l 7 0 ltac:(lia)) as (sm & E & H). vm_compute in E. injection E as <-. exact H. Qed.
Lemma x_mask1 : mask_of (41, 30) (30, 2 ^ 42 - 2 ^ 30).
Proof. destruct (C35_format_l 41 30 ltac:(lia)) as (sm & E & H). vm_compute in E. injection E as <-. exact H. Qed.

Lemma x_reg0 : reg_value x_feat 0 x_rd0 0x3c1c00000a5.
Proof.
  right. split; [reflexivity|]. exists 0xc00000a5, 0x3c1. split; [|split].
  - apply (x_holds x_feat 0 8 (s2l "c00000a5")). cbn. tauto.
  - apply (x_holds x_feat 0 12 (s2l "000003c1")). cbn. tauto.
  - reflexivity.
Qed.
Lemma x_def0 : reg_def (x_tenv x_devs x_paths) 1 0 x_rd0.
Proof. eexists. split; reflexivity. Qed.

Lemma C35_too_large_refuted_l : exists nm env created s f a i r rd d old v b sm hl b2 sm2 hl2 s' s1 s2 x y,
  reached nm env created s /\ dget pair_eqb (t_devs s) (a, f) = Some d /\ reg_def env f r rd /\ reg_value d i rd old /\
  dget Z.eqb (rd_fields rd) b = Some sm /\ mask_of hl sm /\ dget Z.eqb (rd_fields rd) b2 = Some sm2 /\ mask_of hl2 sm2 /\
  (forall n, in_field hl n -> ~ in_field hl2 n) /\ 0 <= v /\ ~ fits hl v /\
  t_write_register env v f a i r (Some b) s = (Ok tt, s') /\
  t_read_register env f a i r (Some b2) s = (Ok x, s1) /\
  t_read_register env f a i r (Some b2) s' = (Ok y, s2) /\ x <> y.
Proof.
  exists x_nm, (x_tenv x_devs x_paths), x_devs, (x_tstate x_devs x_paths), 1, 10, 0, 0, x_rd0, x_feat, 0x3c1c00000a5,
    (2 ^ 33), 0, (0, 255), (7, 0), 1, (30, 2 ^ 42 - 2 ^ 30), (41, 30).
  eexists. eexists. eexists. exists 0xf07. eexists. split; [exact x_reached|]. split; [reflexivity|]. split; [exact x_def0|].
  split; [exact x_reg0|]. split; [reflexivity|]. split; [exact x_mask0|]. split; [reflexivity|]. split; [exact x_mask1|].
  split; [intros n; unfold in_field; cbn; lia|]. split; [lia|]. split; [unfold fits; cbn; lia|].
  split; [vm_compute; reflexivity|]. split; [vm_compute; reflexivity|]. split; [vm_compute; reflexivity|]. discriminate.
Qed.

Lemma C35_failed_write_refuted_l : exists nm env created s f a i r v e s',
  reached nm env created s /\ t_write_register env v f a i r None s = (Exn e, s') /\ t_devs s' <> t_devs s.
Proof.
  exists x_nm, (x_tenv x_devs3 x_paths3), x_devs3, (x_tstate x_devs3 x_paths3), 1, 10, 0, 0, 5.
  eexists. eexists. split; [exact x_reached3|]. split; [vm_compute; reflexivity|]. vm_compute. discriminate.
Qed.

Lemma x_reports2 : reports x_nm (te_fdicts (x_tenv x_devs2 x_paths)) x_devs2 20 1.
Proof.
  destruct (reached_inv _ _ _ _ x_reached2) as (_ & _ & H). apply (ef_maps _ _ _ H 1 20 1). eexists. split; reflexivity.
Qed.

Lemma C36_differing_instances_refuted_l : exists nm env created s f out s' a p d i,
  reached nm env created s /\ iter_feature env f None None None s = (Ok out, s') /\
  selected nm env created s f None None a p d /\ In i (map ds_inst d) /\ ~ In (a, p, i) out.
Proof.
  exists x_nm, (x_tenv x_devs2 x_paths), x_devs2, (x_tstate x_devs2 x_paths), 1.
  eexists. eexists. exists 20, 1, x_feat, 1. split; [exact x_reached2|]. split; [vm_compute; reflexivity|].
  split; [|split].
  - split; [reflexivity|]. split; [exact x_reports2|]. split; exact I.
  - cbn. tauto.
  - cbn. intuition congruence.
Qed.

Lemma x_selected a p d : selected x_nm (x_tenv x_devs x_paths) x_devs (x_tstate x_devs x_paths) 1 None None a p d ->
  d = x_feat.
Proof.
  intros (E & _). apply (dget_In _ pair_eqb_spec) in E. vm_compute in E.
  destruct E as [E|[E|[E|[E|[]]]]]; injection E; intros; subst; try discriminate; reflexivity.
Qed.
Lemma x_uniform : uniform x_nm (x_tenv x_devs x_paths) x_devs (x_tstate x_devs x_paths) 1 None None.
Proof. intros a p d a' p' d' i H H'. rewrite (x_selected _ _ _ H), (x_selected _ _ _ H'). auto. Qed.
