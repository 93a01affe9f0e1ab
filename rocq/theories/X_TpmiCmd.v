(** Example 'tpmi read' and 'tpmi write' commands, and witnesses of what is not true. *)
From Verif Require Import Base L_Base L_Monad M_Text S_Text L_Text M_Kver M_Osa M_CPUInfo M_MSR S_MSR L_Bits
  M_Tpmi S_Tpmi L_Tpmi L_Tpmi2 L_Tpmi3 L_Tpmi4 L_Tpmi5 L_Tpmi6 M_TpmiCmd S_TpmiCmd L_TpmiCmd L_TpmiCmd2 L_TpmiCmd3 L_TpmiCmd4 L_TpmiCmd5 X_Tpmi.
From Coq Require Import ZifyBool.

(** Numbers as they are typed. *)
Lemma tx_num n : 0 <= n -> written (INum n) (dec n).
Proof.
  intros H. pose proof (W_num n (dec n) [] [] (dec_numeral n H) ltac:(constructor) ltac:(constructor)) as W.
  cbn [app] in W. now rewrite app_nil_r in W.
Qed.

Lemma typed_one n : 0 <= n -> dec n <> [] -> typed_once (Some (dec n)) (Some [n]).
Proof.
  intros H Hd. apply (O_list [INum n] [dec n]).
  - constructor; [now apply tx_num|constructor].
  - constructor; [intros []|constructor].
  - exact Hd.
  - cbn. constructor; [intros []|constructor].
Qed.

Lemma typed_0 : typed_once (Some (s2l "0")) (Some [0]).
Proof. exact (typed_one 0 ltac:(lia) ltac:(discriminate)). Qed.
Lemma typed_1 : typed_once (Some (s2l "1")) (Some [1]).
Proof. exact (typed_one 1 ltac:(lia) ltac:(discriminate)). Qed.

(** "0-1,1" *)
Lemma typed_dup : typed (Some (s2l "0-1,1")) (Some [0; 1; 1]).
Proof.
  apply (T_list [IRange 0 1; INum 1] [dec 0 ++ "-"%char :: dec 1; dec 1]).
  - constructor; [|constructor; [now apply tx_num|constructor]].
    exact (W_range 0 1 (dec 0) (dec 1) [] [] [] [] (dec_numeral 0 ltac:(lia)) (dec_numeral 1 ltac:(lia)) ltac:(constructor) ltac:(constructor) ltac:(constructor) ltac:(constructor)).
  - constructor; [cbn; lia|]. constructor; [intros []|constructor].
  - discriminate.
Qed.

Definition e_env := x_tenv x_devs x_paths.
Definition e_s := x_tstate x_devs x_paths.

Lemma e_devs a d : dget pair_eqb (t_devs e_s) (a, 1) = Some d -> (a = 10 \/ a = 20) /\ d = x_feat.
Proof.
  intros E. apply (dget_In _ pair_eqb_spec) in E. vm_compute in E.
  destruct E as [E|[E|[E|[E|[]]]]]; injection E; intros; subst; try discriminate; auto.
Qed.
Lemma e_reports10 : reports x_nm (te_fdicts e_env) x_devs 10 0.
Proof. destruct (reached_inv _ _ _ _ x_reached) as (_ & _ & H). apply (ef_maps _ _ _ H 1 10 0). eexists. split; reflexivity. Qed.
Lemma e_reports20 : reports x_nm (te_fdicts e_env) x_devs 20 1.
Proof. destruct (reached_inv _ _ _ _ x_reached) as (_ & _ & H). apply (ef_maps _ _ _ H 1 20 1). eexists. split; reflexivity. Qed.
Lemma e_selected addrs pk a p d : selected x_nm e_env x_devs e_s 1 addrs pk a p d -> d = x_feat.
Proof. intros (E & _). exact (proj2 (e_devs a d E)). Qed.
Lemma e_uniform addrs pk : uniform x_nm e_env x_devs e_s 1 addrs pk.
Proof. intros a p d a' p' d' i H H'. rewrite (e_selected _ _ _ _ _ H), (e_selected _ _ _ _ _ H'). auto. Qed.

Lemma e_fit : filters_fit x_nm e_env x_devs e_s 1 None (Some [1]) (Some [0]).
Proof.
  split; [exists 10, x_feat; reflexivity|]. split; [intros l a [=]|]. split.
  - intros l p [= <-] [<-|[]]. exists 20. exact e_reports20.
  - intros l i a p d [= <-] [<-|[]] Hs. rewrite (e_selected _ _ _ _ _ Hs). cbn. tauto.
Qed.

Lemma e_readable i : In i (map ds_inst x_feat) -> exists old, reg_value x_feat i x_rd0 old.
Proof.
  intros [<-|[<-|[]]].
  - eexists. exact x_reg0.
  - exists (0xb5 + 2 ^ 32 * 1). right. split; [reflexivity|]. exists 0xb5, 1. split; [|split; [|reflexivity]].
    + apply (x_holds x_feat 1 8 (s2l "000000b5")). cbn. tauto.
    + apply (x_holds x_feat 1 12 (s2l "00000001")). cbn. tauto.
Qed.

Lemma e_fits : fits_in x_rd0 (Some 1) 5.
Proof. exists (30, 2 ^ 42 - 2 ^ 30), (41, 30). split; [reflexivity|]. split; [exact x_mask1|]. split; [cbn; lia|unfold fits; cbn; lia]. Qed.

(** 'pepc tpmi write -F 1 -R 0 --bitfield 1 -V 5 --packages 1 --instances 0' *)
Definition e_write : wargs := WA 1 0 (Some 1) (s2l "5") None (Some (s2l "1")) (Some (s2l "0")).
(** 'pepc tpmi read -F 1 -R 0 --bitfields 1 --packages 1 --instances 0' *)
Definition e_read : rargs := RA (Some [1]) (Some [0]) (Some [1]) None (Some (s2l "1")) (Some (s2l "0")) (fun _ => false).

Lemma e_value : typed_value (s2l "5") 5.
Proof. apply V_dec. exact (dec_numeral 5 ltac:(lia)). Qed.

Lemma C64_write_applies_l :
  reached x_nm e_env x_devs e_s /\ typed (wa_packages e_write) (Some [1]) /\ typed (wa_instances e_write) (Some [0]) /\
  typed_value (wa_value e_write) 5 /\ reg_def e_env 1 0 x_rd0 /\ fits_in x_rd0 (Some 1) 5 /\
  filters_fit x_nm e_env x_devs e_s 1 None (Some [1]) (Some [0]) /\
  (forall a p i d, asked_for x_nm e_env x_devs e_s 1 None (Some [1]) (Some [0]) a p i ->
     dget pair_eqb (t_devs e_s) (a, 1) = Some d -> exists old, reg_value d i x_rd0 old) /\
  asked_for x_nm e_env x_devs e_s 1 None (Some [1]) (Some [0]) 20 1 0 /\
  fst (tpmi_write e_env e_write e_s) = Ok [(20, 1, 0)] /\
  fst (t_read_register e_env 1 20 0 0 (Some 1) (snd (tpmi_write e_env e_write e_s))) = Ok 5.
Proof.
  split; [exact x_reached|]. split; [exact (typed_once_typed _ _ typed_1)|]. split; [exact (typed_once_typed _ _ typed_0)|].
  split; [exact e_value|]. split; [exact x_def0|]. split; [exact e_fits|]. split; [exact e_fit|]. split.
  { intros a p i d (d' & Hs & Hi & _) Hd. destruct (e_devs a d Hd) as [_ ->]. apply e_readable. now rewrite (e_selected _ _ _ _ _ Hs) in Hi. }
  split.
  { exists x_feat. split; [|split; [cbn; tauto|cbn; tauto]]. split; [reflexivity|]. split; [exact e_reports20|]. split; [exact I|cbn; tauto]. }
  split; vm_compute; reflexivity.
Qed.

Lemma C64_read_applies_l :
  reached x_nm e_env x_devs e_s /\ typed_once (ra_packages e_read) (Some [1]) /\ typed_once (ra_instances e_read) (Some [0]) /\
  keys_once e_env /\ read_once e_read /\
  (forall f, In f [1] -> dget Z.eqb (te_fdicts e_env) f <> None /\ filters_fit x_nm e_env x_devs e_s f None (Some [1]) (Some [0])) /\
  (forall f a p i d r, In f [1] -> asked_for x_nm e_env x_devs e_s f None (Some [1]) (Some [0]) a p i -> dget pair_eqb (t_devs e_s) (a, f) = Some d ->
     reg_asked e_env e_read f r -> exists rd v, reg_def e_env f r rd /\ reg_value d i rd v /\
       forall bl b, ra_bfs e_read = Some bl -> In b bl -> ra_reserved e_read b = false -> dget Z.eqb (rd_fields rd) b <> None) /\
  fst (tpmi_read e_env e_read e_s) = Ok [(1, [(20, (1, [(0, [(0, (0x3c1c00000a5, [(1, 0xf07)]))])]))])].
Proof.
  split; [exact x_reached|]. split; [exact typed_1|]. split; [exact typed_0|]. split.
  { intros f fd E. apply (dget_In _ Zeqb_spec) in E. vm_compute in E.
    destruct E as [E|[E|[]]]; injection E as <- <-; apply (nodupb_sound _ Zeqb_spec); reflexivity. }
  split; [split; [|intros l [=]]|].
  { intros l [= <-]. constructor; [intros []|constructor]. }
  split; [intros f [<-|[]]; split; [discriminate|exact e_fit]|]. split.
  { intros f a p i d r [<-|[]] (d' & Hs & Hi & _) Hd [<-|[]]. destruct (e_devs a d Hd) as [_ ->].
    rewrite (e_selected _ _ _ _ _ Hs) in Hi. destruct (e_readable i Hi) as (v & Hv). exists x_rd0, v. split; [exact x_def0|]. split; [exact Hv|].
    intros bl b [= <-] [<-|[]] _. discriminate. }
  vm_compute. reflexivity.
Qed.

(** Reading the instances "0-1,1" crashes. *)
Lemma C64_read_duplicate_refuted_l : exists nm env created s x l,
  reached nm env created s /\ typed (ra_instances x) (Some l) /\ ra_fnames x = Some [1] /\ ra_packages x = None /\ ra_bfs x = None /\
  filters_fit nm env created s 1 (ra_addrs x) None (Some l) /\
  (forall a p i d r, asked_for nm env created s 1 (ra_addrs x) None (Some l) a p i -> dget pair_eqb (t_devs s) (a, 1) = Some d ->
     reg_asked env x 1 r -> exists rd v, reg_def env 1 r rd /\ reg_value d i rd v) /\
  fst (tpmi_read env x s) = Exn EValue.
Proof.
  exists x_nm, e_env, x_devs, e_s, (RA (Some [1]) (Some [0]) None None None (Some (s2l "0-1,1")) (fun _ => false)), [0; 1; 1].
  split; [exact x_reached|]. split; [exact typed_dup|]. split; [reflexivity|]. split; [reflexivity|]. split; [reflexivity|]. split.
  { split; [exists 10, x_feat; reflexivity|]. split; [intros l a [=]|]. split; [intros l p [=]|].
    intros l i a p d [= <-] Hi Hs. rewrite (e_selected _ _ _ _ _ Hs). cbn in *. tauto. }
  split.
  { intros a p i d r (d' & Hs & Hi & _) Hd [<-|[]]. destruct (e_devs a d Hd) as [_ ->]. rewrite (e_selected _ _ _ _ _ Hs) in Hi.
    destruct (e_readable i Hi) as (v & Hv). exists x_rd0, v. split; [exact x_def0|exact Hv]. }
  vm_compute. reflexivity.
Qed.

(** The package 1 has no device of the feature: the write succeeds and writes nothing. *)
Definition x_devs4 : list ((Z * Z) * dump) := [((10, 0), x_info "00"); ((10, 1), x_feat); ((20, 0), x_info "01")].
Definition x_paths4 : list (Z * list Z) := [(10, [129; 4]); (20, [129])].
Lemma x_reached4 : reached x_nm (x_tenv x_devs4 x_paths4) x_devs4 (x_tstate x_devs4 x_paths4).
Proof. apply (x_reached_gen _ x_paths4); [reflexivity|reflexivity|reflexivity|]. apply dirs_decide; reflexivity. Qed.
Lemma C64_write_nothing_refuted_l : exists nm env created s x p a s',
  reached nm env created s /\ typed (wa_packages x) (Some [p]) /\ wa_instances x = None /\ wa_addrs x = None /\
  reports nm (te_fdicts env) created a p /\ tpmi_write env x s = (Ok [], s') /\ t_devs s' = t_devs s.
Proof.
  exists x_nm, (x_tenv x_devs4 x_paths4), x_devs4, (x_tstate x_devs4 x_paths4), (WA 1 0 None (s2l "5") None (Some (s2l "1")) None), 1, 20.
  eexists. split; [exact x_reached4|]. split; [exact (typed_once_typed _ _ typed_1)|]. split; [reflexivity|]. split; [reflexivity|]. split.
  { destruct (reached_inv _ _ _ _ x_reached4) as (_ & _ & H). apply (ef_maps _ _ _ H 0 20 1). eexists. split; reflexivity. }
  split; [vm_compute; reflexivity|]. reflexivity.
Qed.

(** The first device has one instance more: it is written, and the command fails. *)
Definition x_devs5 : list ((Z * Z) * dump) :=
  [((10, 0), x_info "00"); ((10, 1), x_feat); ((20, 0), x_info "01"); ((20, 1), firstn 1 x_feat)].
Lemma x_reached5 : reached x_nm (x_tenv x_devs5 x_paths) x_devs5 (x_tstate x_devs5 x_paths).
Proof. apply (x_reached_gen _ x_paths); [reflexivity|reflexivity|reflexivity|]. apply dirs_decide; reflexivity. Qed.
Lemma C64_write_halfway_refuted_l : exists nm env created s x e s',
  reached nm env created s /\ wa_addrs x = None /\ wa_packages x = None /\ wa_instances x = None /\
  tpmi_write env x s = (Exn e, s') /\ t_devs s' <> t_devs s.
Proof.
  exists x_nm, (x_tenv x_devs5 x_paths), x_devs5, (x_tstate x_devs5 x_paths), (WA 1 0 None (s2l "5") None None None).
  eexists. eexists. split; [exact x_reached5|]. split; [reflexivity|]. split; [reflexivity|]. split; [reflexivity|].
  split; [vm_compute; reflexivity|]. vm_compute. discriminate.
Qed.

(** The second device has one instance more: it is not written, and the command succeeds. *)
Lemma C64_write_skipped_refuted_l : exists nm env created s x out s' a p i,
  reached nm env created s /\ wa_addrs x = None /\ wa_packages x = None /\ wa_instances x = None /\
  tpmi_write env x s = (Ok out, s') /\ asked_for nm env created s (wa_fname x) None None None a p i /\ ~ In (a, p, i) out.
Proof.
  exists x_nm, (x_tenv x_devs2 x_paths), x_devs2, (x_tstate x_devs2 x_paths), (WA 1 0 None (s2l "5") None None None).
  eexists. eexists. exists 20, 1, 1. split; [exact x_reached2|]. split; [reflexivity|]. split; [reflexivity|]. split; [reflexivity|].
  split; [vm_compute; reflexivity|]. split.
  - exists x_feat. split; [|split; [cbn; tauto|exact I]]. split; [reflexivity|]. split; [exact x_reports2|]. split; exact I.
  - cbn. intuition congruence.
Qed.

(** A value too large for the bit field changes another one. *)
Lemma C64_write_too_large_refuted_l : exists nm env created s x v rd b sm hl b2 out s' u w s1 s2,
  reached nm env created s /\ typed_value (wa_value x) v /\ reg_def env (wa_fname x) (wa_reg x) rd /\ wa_bf x = Some b /\
  dget Z.eqb (rd_fields rd) b = Some sm /\ mask_of hl sm /\ ~ fits hl v /\ b2 <> b /\
  tpmi_write env x s = (Ok out, s') /\ In (20, 1, 0) out /\
  t_read_register env (wa_fname x) 20 0 (wa_reg x) (Some b2) s = (Ok u, s1) /\
  t_read_register env (wa_fname x) 20 0 (wa_reg x) (Some b2) s' = (Ok w, s2) /\ u <> w.
Proof.
  exists x_nm, e_env, x_devs, e_s, (WA 1 0 (Some 0) (s2l "8589934592") None None None), (2 ^ 33), x_rd0, 0, (0, 255), (7, 0), 1.
  eexists. eexists. exists 0xf07. eexists. eexists. eexists. split; [exact x_reached|]. split; [apply V_dec; exact (dec_numeral (2 ^ 33) ltac:(lia))|].
  split; [exact x_def0|]. split; [reflexivity|]. split; [reflexivity|]. split; [exact x_mask0|]. split; [unfold fits; cbn; lia|].
  split; [discriminate|]. split; [vm_compute; reflexivity|]. split; [cbn; tauto|]. split; [vm_compute; reflexivity|].
  split; [vm_compute; reflexivity|]. discriminate.
Qed.
