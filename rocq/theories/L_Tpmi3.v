(** Lemmas about TPMI: reading and writing registers. *)
From Verif Require Import Base L_Base L_Monad M_Text S_Text L_Text M_Kver M_Osa M_CPUInfo M_MSR S_MSR L_Bits
  M_Tpmi S_Tpmi L_Tpmi L_Tpmi2.
From Coq Require Import ZifyBool.

(** ** mem_write *)
Definition set_word (i o : Z) (w : str) (e : Z * Z * str) : Z * Z * str :=
  let '(i', o', x) := e in if (i' =? i) && (o' =? o) then (i', o', w) else (i', o', x).

Lemma poke_row_words i o w : forall ws p, row_words i p (poke_words p ws o w) = map (set_word i o w) (row_words i p ws).
Proof.
  induction ws as [|x ws IH]; intros p; [reflexivity|]. cbn [poke_words row_words map set_word].
  rewrite IH, Z.eqb_refl. cbn [andb]. now destruct (p =? o).
Qed.

Lemma other_row_words i i' o w : i' <> i -> forall ws p, map (set_word i o w) (row_words i' p ws) = row_words i' p ws.
Proof.
  intros Hi. induction ws as [|x ws IH]; intros p; [reflexivity|]. cbn [row_words map set_word].
  rewrite IH. destruct (i' =? i) eqn:E; [lia|]. reflexivity.
Qed.

Lemma words_poke d i o w : words (poke d i o w) = map (set_word i o w) (words d).
Proof.
  induction d as [|s d IH]; [reflexivity|]. unfold words, poke in *. cbn [map flat_map]. rewrite map_app, IH. f_equal.
  destruct (ds_inst s =? i) eqn:E.
  - cbn [ds_rows ds_inst]. assert (ds_inst s = i) by lia. subst i. induction (ds_rows s) as [|r rs IHr]; [reflexivity|].
    cbn [map flat_map]. rewrite map_app, IHr. f_equal. apply poke_row_words.
  - induction (ds_rows s) as [|r rs IHr]; [reflexivity|].
    cbn [map flat_map]. rewrite map_app, <- IHr. f_equal. symmetry. apply other_row_words. lia.
Qed.

Lemma set_word_fst i o w e : fst (set_word i o w e) = fst e.
Proof. destruct e as [[i' o'] x]. cbn. now destruct ((i' =? i) && (o' =? o)). Qed.

Lemma poke_words_len o w : forall ws p, length (poke_words p ws o w) = length ws.
Proof. induction ws as [|x ws IH]; intros p; [reflexivity|]. cbn. now rewrite IH. Qed.

Lemma poke_layout d i o w : same_layout d (poke d i o w).
Proof.
  unfold same_layout, poke. induction d as [|s d IH]; [constructor|]. cbn [map]. constructor; [|exact IH].
  destruct (ds_inst s =? i); cbn; (split; [reflexivity|]); (split; [reflexivity|]).
  - induction (ds_rows s) as [|r rs IHr]; cbn; constructor; [|exact IHr]. repeat split. cbn. now rewrite poke_words_len.
  - induction (ds_rows s) as [|r rs IHr]; constructor; [|exact IHr]. repeat split.
Qed.

Lemma poke_row_ok r o w : length w = 8%nat -> Forall is_hex w -> row_ok r -> row_ok (poke_row r o w).
Proof.
  intros Hl Hx (H1 & H2 & H3 & H4). unfold row_ok, poke_row. cbn. split; [exact H1|]. split; [exact H2|]. split.
  - destruct (dr_words r) as [|x0 ws0]; [congruence|cbn; discriminate].
  - clear H3. generalize (hexval (dr_at r)) as p. induction H4 as [|x ws Hxx H4 IH]; intros p; [constructor|]. cbn.
    constructor; [|apply IH]. destruct (p =? o); [now split|exact Hxx].
Qed.

Lemma poke_ok d i o w : length w = 8%nat -> Forall is_hex w -> dump_ok d -> dump_ok (poke d i o w).
Proof.
  intros Hl Hx (H1 & H2 & H3). split; [|split].
  - unfold poke. apply Forall_forall. intros s' Hs'. apply in_map_iff in Hs' as (s & <- & Hs).
    rewrite Forall_forall in H1. specialize (H1 s Hs). destruct (ds_inst s =? i); [|exact H1].
    destruct H1 as (K1 & K2 & K3 & K4 & K5). cbn. split; [exact K1|]. split; [exact K2|]. split; [exact K3|]. split.
    + destruct (ds_rows s) as [|r0 rs0]; [congruence|cbn; discriminate].
    + apply Forall_forall. intros r' Hr'. apply in_map_iff in Hr' as (r & <- & Hr). rewrite Forall_forall in K5.
      apply poke_row_ok; auto.
  - unfold poke. rewrite map_map. erewrite map_ext; [exact H2|]. intros s. cbn. now destruct (ds_inst s =? i).
  - rewrite words_poke, map_map. erewrite map_ext; [exact H3|]. intros e. apply set_word_fst.
Qed.

Lemma poke_holds_same d i o w v : (exists x, holds d i o x) -> hexval w = v -> holds (poke d i o w) i o v.
Proof.
  intros (x & w0 & Hin & _) Hv. exists w. split; [|exact Hv]. rewrite words_poke. apply in_map_iff.
  exists (i, o, w0). split; [|exact Hin]. cbn. now rewrite !Z.eqb_refl.
Qed.

Lemma poke_holds_other d i o w i' o' v : ~ (i' = i /\ o' = o) -> holds (poke d i o w) i' o' v <-> holds d i' o' v.
Proof.
  intros Hne. unfold holds. rewrite words_poke. split; intros (x & Hin & Hv).
  - apply in_map_iff in Hin as ([[i2 o2] x2] & E & Hin). cbn in E.
    destruct ((i2 =? i) && (o2 =? o)) eqn:E2; injection E as -> -> ->; [lia|]. exists x. auto.
  - exists x. split; [|exact Hv]. apply in_map_iff. exists (i', o', x). split; [|exact Hin]. cbn.
    destruct ((i' =? i) && (o' =? o)) eqn:E2; [lia|reflexivity].
Qed.

Lemma row_words_in i o : forall ws p, (exists w, In (i, o, w) (row_words i p ws)) <->
  exists k, In k (seq 0 (length ws)) /\ p + 4 * Z.of_nat k = o.
Proof.
  induction ws as [|x ws IH]; intros p; cbn [row_words length seq].
  - split; [intros (w & [])|intros (k & [] & _)].
  - specialize (IH (p + 4)). rewrite <- seq_shift. split.
    + intros (w & [E|H]).
      * injection E as <- <-. exists O. split; [now left|lia].
      * destruct IH as [IH _]. destruct IH as (k & Hk & E); [eauto|]. exists (S k). split; [|lia].
        right. apply in_map_iff. eauto.
    + intros (k & [E|H] & Ek).
      * subst k. exists x. left. f_equal. f_equal. lia.
      * apply in_map_iff in H as (k' & <- & Hk'). destruct IH as [_ IH]. destruct IH as (w & Hw).
        { exists k'. split; [exact Hk'|lia]. }
        exists w. now right.
Qed.

Lemma row_words_inst i i' o w : forall ws p, In (i', o, w) (row_words i p ws) -> i' = i.
Proof. induction ws as [|x ws IH]; intros p H; [destruct H|]. destruct H as [E|H]; [congruence|eauto]. Qed.

Lemma word_exists_spec d i o : word_exists d i o = true <-> exists v, holds d i o v.
Proof.
  unfold word_exists. rewrite existsb_exists. split.
  - intros (s & Hs & H). apply andb_prop in H as [Hi H]. apply existsb_exists in H as (r & Hr & H).
    apply existsb_exists in H as (k & Hk & E). assert (ds_inst s = i) by lia. subst i.
    destruct (proj2 (row_words_in (ds_inst s) o (dr_words r) (hexval (dr_at r)))) as (w & Hw).
    { exists k. split; [exact Hk|lia]. }
    exists (hexval w), w. split; [|reflexivity]. unfold words. apply in_flat_map. exists s. split; [exact Hs|].
    apply in_flat_map. eauto.
  - intros (v & w & Hin & _). unfold words in Hin. apply in_flat_map in Hin as (s & Hs & Hin).
    apply in_flat_map in Hin as (r & Hr & Hin). pose proof (row_words_inst _ _ _ _ _ _ Hin). subst i.
    exists s. split; [exact Hs|]. rewrite Z.eqb_refl. cbn [andb]. apply existsb_exists. exists r. split; [exact Hr|].
    apply existsb_exists. destruct (proj1 (row_words_in (ds_inst s) o (dr_words r) (hexval (dr_at r)))) as (k & Hk & E); [eauto|].
    exists k. split; [exact Hk|lia].
Qed.

(** ** Layouts *)
Lemma same_row_refl r : same_row r r.
Proof. now repeat split. Qed.

Lemma Forall2_refl_on {A} (R : A -> A -> Prop) l : (forall x, R x x) -> Forall2 R l l.
Proof. intros H. induction l; constructor; auto. Qed.

Lemma same_layout_refl d : same_layout d d.
Proof.
  apply Forall2_refl_on. intros s. split; [reflexivity|]. split; [reflexivity|]. apply Forall2_refl_on. exact same_row_refl.
Qed.

Lemma Forall2_trans {A} (R : A -> A -> Prop) : (forall x y z, R x y -> R y z -> R x z) ->
  forall a b c, Forall2 R a b -> Forall2 R b c -> Forall2 R a c.
Proof.
  intros HR a b c H. revert c. induction H as [|x y a b Hxy H IH]; intros c Hc; inversion Hc; subst; constructor; eauto.
Qed.

Lemma same_layout_trans a b c : same_layout a b -> same_layout b c -> same_layout a c.
Proof.
  apply Forall2_trans. intros x y z (E1 & E2 & E3) (E4 & E5 & E6).
  split; [congruence|]. split; [congruence|]. eapply Forall2_trans; [|exact E3|exact E6].
  intros r1 r2 r3 (K1 & K2 & K3) (K4 & K5 & K6). repeat split; congruence.
Qed.

Lemma same_layout_md d d' : dump_ok d -> dump_ok d' -> same_layout d d' -> exp_md 0 d = exp_md 0 d'.
Proof. intros H H' HL. apply exp_md_same; [exact HL|apply H|apply H']. Qed.

Lemma same_layout_inst d d' : same_layout d d' -> map ds_inst d = map ds_inst d'.
Proof. intros H. induction H as [|s s' d d' (E & _) H IH]; [reflexivity|]. cbn. congruence. Qed.

(** ** The invariant *)
Lemma pair_eqb_spec : forall x y, pair_eqb x y = true <-> x = y.
Proof.
  intros [a b] [c d]. unfold pair_eqb. cbn. split; [intros H; f_equal; lia|].
  intros [= -> ->]. now rewrite !Z.eqb_refl.
Qed.

Definition tinv (s : tstate) : Prop :=
  (forall k d, dget pair_eqb (t_devs s) k = Some d -> dump_ok d) /\
  (forall k md, dget pair_eqb (t_mds s) k = Some md -> exists d, dget pair_eqb (t_devs s) k = Some d /\ md = exp_md 0 d).

Lemma pair_dec (k k' : Z * Z) : {k = k'} + {k <> k'}.
Proof. destruct k as [a b], k' as [c d]. destruct (Z.eq_dec a c), (Z.eq_dec b d); [left|right|right|right]; congruence. Qed.

Lemma tinv_change s k d d' : tinv s -> dget pair_eqb (t_devs s) k = Some d -> same_layout d d' -> dump_ok d' ->
  tinv (TS (dset pair_eqb (t_devs s) k d') (t_mds s)).
Proof.
  intros [H1 H2] E HL Hd'. split; cbn [t_devs t_mds].
  - intros k' d2 E2. destruct (pair_dec k' k) as [->|Hne].
    + rewrite (dget_dset_same _ pair_eqb_spec) in E2. now injection E2 as <-.
    + rewrite (dget_dset_other _ pair_eqb_spec) in E2 by exact Hne. eauto.
  - intros k' md E2. destruct (H2 _ _ E2) as (d2 & E3 & ->). destruct (pair_dec k' k) as [->|Hne].
    + exists d'. rewrite (dget_dset_same _ pair_eqb_spec). split; [reflexivity|].
      assert (d2 = d) by congruence. subst d2. apply same_layout_md; eauto.
    + exists d2. rewrite (dget_dset_other _ pair_eqb_spec) by exact Hne. auto.
Qed.

(** Reading never changes the devices, and keeps the invariant; the outcome of '_get_mdmap()'. *)
Lemma t_build_run a f s : tinv s ->
  t_build a f s = match dget pair_eqb (t_devs s) (a, f) with
                  | Some d => (Ok (exp_md 0 d), s)
                  | None => (Exn ENotFound, s)
                  end.
Proof.
  intros [H1 _]. unfold t_build, t_text, mbind. destruct (dget pair_eqb (t_devs s) (a, f)) as [d|] eqn:E; [|reflexivity].
  unfold lift. now rewrite build_show by eauto.
Qed.

Lemma t_get_mdmap_run f a s : tinv s -> exists s', tinv s' /\ t_devs s' = t_devs s /\
  t_get_mdmap f a s = match dget pair_eqb (t_devs s) (a, f) with
                      | Some d => (Ok (exp_md 0 d), s')
                      | None => (Exn ENotFound, s')
                      end.
Proof.
  intros Hi. pose proof Hi as [H1 H2]. unfold t_get_mdmap.
  assert (B : exists s', tinv s' /\ t_devs s' = t_devs s /\
    (let! md := t_build a f in modify (fun s => TS (t_devs s) (dset pair_eqb (t_mds s) (a, f) md));; ret md) s =
    match dget pair_eqb (t_devs s) (a, f) with Some d => (Ok (exp_md 0 d), s') | None => (Exn ENotFound, s') end).
  { unfold mbind at 1. rewrite t_build_run by exact Hi. destruct (dget pair_eqb (t_devs s) (a, f)) as [d|] eqn:E.
    - eexists. split; [|split; [|reflexivity]]; [|reflexivity]. split; cbn [t_devs t_mds]; [exact H1|].
      intros k md E2. destruct (pair_dec k (a, f)) as [->|Hne].
      + rewrite (dget_dset_same _ pair_eqb_spec) in E2. injection E2 as <-. eauto.
      + rewrite (dget_dset_other _ pair_eqb_spec) in E2 by exact Hne. eauto.
    - exists s. auto. }
  destruct (dget pair_eqb (t_mds s) (a, f)) as [[|e md]|] eqn:E; [exact B| |exact B].
  destruct (H2 _ _ E) as (d & Ed & Em). exists s. rewrite Ed, Em. auto.
Qed.

Lemma validate_ok d i o : dump_ok d -> 0 <= o -> o mod 4 = 0 -> (exists v, holds d i o v) ->
  exists p, validate_instance_offset (exp_md 0 d) i o = Ok p.
Proof.
  intros Hd Ho Hm (v & Hh). destruct (exp_md_get d d i o v Hd Hd (same_layout_refl d) Hh) as (od & pp & E1 & E2 & _).
  unfold validate_instance_offset. rewrite E1, E2. destruct ((o <? 0) || negb (o mod 4 =? 0)) eqn:E; [lia|]. eauto.
Qed.

Lemma read_text_ok d i o v : dump_ok d -> 0 <= o -> o mod 4 = 0 -> holds d i o v ->
  read_text (exp_md 0 d) (show d) i o = Ok v.
Proof.
  intros Hd Ho Hm Hh. destruct (C34_read_l d d i o v Hd Hd (same_layout_refl d) Hh Ho Hm) as (md & E1 & E2).
  rewrite build_show in E1 by exact Hd. now injection E1 as <-.
Qed.

Lemma t_read_run a f i o s d v : tinv s -> dget pair_eqb (t_devs s) (a, f) = Some d -> 0 <= o -> o mod 4 = 0 ->
  holds d i o v -> t_read a f i o (exp_md 0 d) s = (Ok v, s).
Proof.
  intros Hi E Ho Hm Hh. pose proof (proj1 Hi _ _ E) as Hd. unfold t_read, mbind, lift, t_text.
  destruct (validate_ok d i o Hd Ho Hm ltac:(eauto)) as (p & ->). rewrite E. now rewrite (read_text_ok d i o v).
Qed.

(** The names and the address exist. *)
Definition known (env : tenv) (f a r : Z) (rd : rdict) : Prop :=
  (exists fmap pkg, dget Z.eqb (te_fmaps env) f = Some fmap /\ dget Z.eqb fmap a = Some pkg) /\
  reg_def env f r rd.

Section Env.
  Variable env : tenv.

  Lemma get_regdict_known f r rd : reg_def env f r rd -> get_regdict env f r = Ok rd.
  Proof. intros (fd & E1 & E2). unfold get_regdict. now rewrite E1, E2. Qed.

  Lemma read0_run f a i r s d rd v : tinv s -> dget pair_eqb (t_devs s) (a, f) = Some d -> reg_def env f r rd ->
    reg_ok rd -> reg_value d i rd v -> t_read_register0 env f a i r None s = (Ok v, s).
  Proof.
    intros Hi E Hk (Ho & Hm & _) Hv. unfold t_read_register0. rewrite (get_regdict_known _ _ _ Hk).
    unfold lift. cbn [mbind]. unfold mbind. rewrite t_build_run by exact Hi. rewrite E.
    destruct Hv as [(Ew & Hv)|(Ew & lo & hi & Hlo & Hhi & ->)]; rewrite Ew; cbn [Z.ltb Z.compare Pos.compare Pos.compare_cont].
    - rewrite (t_read_run a f i _ s d v Hi E Ho Hm Hv). reflexivity.
    - rewrite (t_read_run a f i _ s d lo Hi E Ho Hm Hlo).
      rewrite (t_read_run a f i _ s d hi Hi E); [|lia| |exact Hhi].
      2:{ rewrite Z.add_mod, Hm by lia. reflexivity. }
      unfold ret. rewrite Z.shiftl_mul_pow2 by lia. do 3 f_equal. lia.
  Qed.

  Lemma read0_field_run f a i r b sm s d rd v : tinv s -> dget pair_eqb (t_devs s) (a, f) = Some d -> reg_def env f r rd ->
    reg_ok rd -> reg_value d i rd v -> dget Z.eqb (rd_fields rd) b = Some sm ->
    t_read_register0 env f a i r (Some b) s = (Ok (get_bitfield v sm), s).
  Proof.
    intros Hi E Hk Hr Hv Hb. pose proof (read0_run f a i r s d rd v Hi E Hk Hr Hv) as R.
    unfold t_read_register0 in *. rewrite (get_regdict_known _ _ _ Hk) in *. unfold lift in *. unfold mbind in *.
    destruct (t_build a f s) as [[md|e] s1]; [|discriminate].
    destruct (t_read a f i (rd_offset rd) md s1) as [[v0|e] s2]; [|discriminate].
    match type of R with (match ?m with _ => _ end) = _ => destruct m as [[v1|e] s3]; [|discriminate] end.
    unfold ret in R. injection R as -> ->. unfold get_bfdict. rewrite (get_regdict_known _ _ _ Hk). cbn [rbind].
    now rewrite Hb.
  Qed.

  Lemma validate_names_known f a r rd b : known env f a r rd ->
    (match b with None => True | Some b => dget Z.eqb (rd_fields rd) b <> None end) ->
    validate_names env f a r b = Ok tt.
  Proof.
    intros Hk Hb. unfold validate_names. pose proof Hk as ((fmap & pkg & E1 & E2) & _). rewrite E1, E2.
    rewrite (get_regdict_known _ _ _ (proj2 Hk)). cbn [rbind]. destruct b as [b|]; [|reflexivity].
    now destruct (dget Z.eqb (rd_fields rd) b).
  Qed.

  Lemma validate_instance_run f a i s d : tinv s -> dget pair_eqb (t_devs s) (a, f) = Some d ->
    exists s', tinv s' /\ t_devs s' = t_devs s /\
      validate_instance f a i s = (if inb i (map ds_inst d) then (Ok tt, s') else (Exn EError, s')).
  Proof.
    intros Hi E. destruct (t_get_mdmap_run f a s Hi) as (s' & Hi' & Ed & Em). exists s'. split; [exact Hi'|]. split; [exact Ed|].
    unfold validate_instance, mbind. rewrite Em, E. rewrite <- (exp_md_keys 0 d).
    destruct (dget Z.eqb (exp_md 0 d) i) as [od|] eqn:Eo.
    - apply (dget_In _ Zeqb_spec) in Eo. apply (in_map fst) in Eo. cbn [fst] in Eo. apply inb_In in Eo. now rewrite Eo.
    - apply (dget_None _ Zeqb_spec) in Eo. apply inb_false in Eo. now rewrite Eo.
  Qed.

  Lemma holds_inst d i o v : holds d i o v -> In i (map ds_inst d).
  Proof.
    intros (w & Hin & _). unfold words in Hin. apply in_flat_map in Hin as (s & Hs & Hin).
    apply in_flat_map in Hin as (r & Hr & Hin). apply row_words_inst in Hin. subst i. now apply in_map.
  Qed.

  Lemma reg_value_inst d i rd v : reg_value d i rd v -> inb i (map ds_inst d) = true.
  Proof. intros [(_ & H)|(_ & lo & hi & H & _)]; apply inb_In; eapply holds_inst; eassumption. Qed.

  Lemma read_run f a i r b s d rd v : tinv s -> dget pair_eqb (t_devs s) (a, f) = Some d -> known env f a r rd ->
    reg_ok rd -> reg_value d i rd v ->
    (match b with None => True | Some b => dget Z.eqb (rd_fields rd) b <> None end) ->
    exists s', tinv s' /\ t_devs s' = t_devs s /\
      t_read_register env f a i r b s =
      (Ok (match b with
           | None => v
           | Some b => match dget Z.eqb (rd_fields rd) b with Some sm => get_bitfield v sm | None => 0 end
           end), s').
  Proof.
    intros Hi E Hk Hr Hv Hb. destruct (validate_instance_run f a i s d Hi E) as (s' & Hi' & Ed & Ev).
    exists s'. split; [exact Hi'|]. split; [exact Ed|]. unfold t_read_register.
    rewrite (validate_names_known f a r rd b Hk Hb). unfold mbind at 1, lift.
    unfold mbind at 1. rewrite Ev, (reg_value_inst d i rd v Hv). rewrite <- Ed in E.
    destruct b as [b|]; [|now apply (read0_run f a i r s' d rd v Hi' E (proj2 Hk))].
    destruct (dget Z.eqb (rd_fields rd) b) as [sm|] eqn:Eb; [|congruence].
    now apply (read0_field_run f a i r b sm s' d rd v Hi' E (proj2 Hk)).
  Qed.

  (** ** Writing *)
  Lemma t_poke_run a f i o v s d : tinv s -> dget pair_eqb (t_devs s) (a, f) = Some d -> (exists x, holds d i o x) ->
    0 <= v < 2 ^ 32 ->
    exists d', t_poke a f i o v s = (Ok tt, TS (dset pair_eqb (t_devs s) (a, f) d') (t_mds s)) /\
      tinv (TS (dset pair_eqb (t_devs s) (a, f) d') (t_mds s)) /\
      dump_ok d' /\ same_layout d d' /\ holds d' i o v /\
      (forall i' o' x, ~ (i' = i /\ o' = o) -> holds d i' o' x <-> holds d' i' o' x).
  Proof.
    intros Hi E Hx Hv. destruct (hex8_ok v Hv) as (Hl & Hh & Hval). pose proof (proj1 Hi _ _ E) as Hd.
    exists (poke d i o (hex8 v)). unfold t_poke. rewrite E. rewrite (proj2 (word_exists_spec d i o) Hx).
    assert (Hok : dump_ok (poke d i o (hex8 v))) by now apply poke_ok.
    split; [reflexivity|]. split; [eapply tinv_change; [exact Hi|exact E|apply poke_layout|exact Hok]|].
    split; [exact Hok|]. split; [apply poke_layout|]. split; [now apply poke_holds_same|].
    intros i' o' x Hne. symmetry. now apply poke_holds_other.
  Qed.

  Lemma dset_dset_same {V} (l : list ((Z * Z) * V)) k x y : dset pair_eqb (dset pair_eqb l k x) k y = dset pair_eqb l k y.
  Proof.
    induction l as [|[k' v] l IH]; cbn.
    - rewrite (proj2 (pair_eqb_spec k k) eq_refl). reflexivity.
    - destruct (pair_eqb k k') eqn:E; cbn; rewrite E; [reflexivity|]. f_equal. exact IH.
  Qed.

  Lemma land_low v : 0 <= v -> Z.land v 0xffffffff = v mod 2 ^ 32.
  Proof. intros H. change 0xffffffff with (Z.ones 32). now rewrite Z.land_ones by lia. Qed.

  Lemma write_words_run a f i rd v s d : tinv s -> dget pair_eqb (t_devs s) (a, f) = Some d ->
    reg_ok rd -> (exists x, reg_value d i rd x) -> 0 <= v < 2 ^ rd_width rd ->
    exists d', t_write_words (Z.to_nat (rd_width rd)) a f i (rd_offset rd) (rd_width rd) v s =
      (Ok tt, TS (dset pair_eqb (t_devs s) (a, f) d') (t_mds s)) /\
      tinv (TS (dset pair_eqb (t_devs s) (a, f) d') (t_mds s)) /\ reg_changed d d' i rd v.
  Proof.
    intros Hi E (Ho & Hm & _) (x & Hx) Hv.
    destruct Hx as [(Ew & Hx)|(Ew & lo & hi & Hlo & Hhi & _)]; rewrite Ew in *.
    - destruct (t_poke_run a f i (rd_offset rd) (Z.land v 0xffffffff) s d Hi E ltac:(eauto)) as (d' & P & Hi' & Hok & HL & Hh & Hf).
      { rewrite land_low by lia. apply Z.mod_pos_bound. lia. }
      exists d'. change (Z.to_nat 32) with (S (S 30)). cbn [t_write_words]. change (0 <? 32) with true. cbv iota.
      unfold mbind at 1. rewrite P. change (0 <? 32 - 32) with false. cbv iota. split; [reflexivity|]. split; [exact Hi'|].
      split; [exact Hok|]. split; [exact HL|]. rewrite land_low, Z.mod_small in Hh by lia. split; [left; auto|].
      intros i' o' y Hne. apply Hf. intros [-> ->]. apply Hne. split; [reflexivity|]. now left.
    - destruct (t_poke_run a f i (rd_offset rd) (Z.land v 0xffffffff) s d Hi E ltac:(eauto)) as (d' & P & Hi' & Hok & HL & Hh & Hf).
      { rewrite land_low by lia. apply Z.mod_pos_bound. lia. }
      set (s1 := TS (dset pair_eqb (t_devs s) (a, f) d') (t_mds s)) in *.
      assert (E1 : dget pair_eqb (t_devs s1) (a, f) = Some d') by apply (dget_dset_same _ pair_eqb_spec).
      assert (Hv2 : 0 <= Z.shiftr v 32 < 2 ^ 32).
      { rewrite Z.shiftr_div_pow2 by lia. split; [apply Z.div_pos; lia|]. apply Z.div_lt_upper_bound; lia. }
      destruct (t_poke_run a f i (rd_offset rd + 4) (Z.land (Z.shiftr v 32) 0xffffffff) s1 d' Hi' E1) as (d2 & P2 & Hi2 & Hok2 & HL2 & Hh2 & Hf2).
      { exists hi. apply Hf; [lia|exact Hhi]. }
      { rewrite land_low by lia. apply Z.mod_pos_bound. lia. }
      exists d2. change (Z.to_nat 64) with (S (S (S 61))). cbn [t_write_words]. change (0 <? 64) with true. cbv iota.
      unfold mbind at 1. rewrite P. change (0 <? 64 - 32) with true. cbv iota. unfold mbind at 1. rewrite P2.
      change (0 <? 64 - 32 - 32) with false. cbv iota. unfold s1 in *. cbn [t_devs t_mds] in *.
      rewrite dset_dset_same in *.
      split; [reflexivity|]. split; [exact Hi2|]. split; [exact Hok2|]. split; [eapply same_layout_trans; eassumption|].
      rewrite land_low in Hh, Hh2 by lia. rewrite (Z.mod_small (Z.shiftr v 32)) in Hh2 by lia. split.
      + right. split; [exact Ew|]. exists (v mod 2 ^ 32), (Z.shiftr v 32). split; [apply Hf2; [lia|exact Hh]|]. split; [exact Hh2|].
        rewrite Z.shiftr_div_pow2 by lia. pose proof (Z.div_mod v (2 ^ 32) ltac:(lia)). lia.
      + intros i' o' y Hne. rewrite Hf, Hf2; [reflexivity| |].
        * intros [-> ->]. apply Hne. split; [reflexivity|]. right. auto.
        * intros [-> ->]. apply Hne. split; [reflexivity|]. now left.
  Qed.

  Lemma write0_run f a i r b v s d rd old : tinv s -> dget pair_eqb (t_devs s) (a, f) = Some d -> known env f a r rd ->
    reg_ok rd -> reg_value d i rd old -> 0 <= v < 2 ^ rd_width rd ->
    let new := match b with
               | None => v
               | Some b => match dget Z.eqb (rd_fields rd) b with Some sm => set_bitfield old v sm | None => 0 end
               end in
    (match b with None => True | Some b => dget Z.eqb (rd_fields rd) b <> None end) ->
    0 <= new < 2 ^ rd_width rd ->
    exists s' d', t_write_register0 env v f a i r b s = (Ok tt, s') /\ tinv s' /\
      t_devs s' = dset pair_eqb (t_devs s) (a, f) d' /\ reg_changed d d' i rd new.
  Proof.
    intros Hi E Hk Hr Hold Hv new Hb Hnew. unfold t_write_register0. rewrite (get_regdict_known _ _ _ (proj2 Hk)).
    unfold mbind at 1, lift. destruct (v <? 0) eqn:E0; [lia|]. rewrite Z.shiftl_1_l.
    destruct (2 ^ rd_width rd - 1 <? v) eqn:E1; [lia|].
    destruct (t_get_mdmap_run f a s Hi) as (s1 & Hi1 & Ed1 & Em). unfold mbind at 1. rewrite Em, E.
    pose proof Hr as (Ho & Hm & _).
    destruct (validate_ok d i (rd_offset rd) ltac:(apply (proj1 Hi _ _ E)) Ho Hm) as (p & Ep).
    { destruct Hold as [(_ & H)|(_ & lo & hi & H & _)]; eauto. }
    unfold mbind at 1. rewrite Ep. rewrite <- Ed1 in E. unfold mbind at 1.
    assert (Ev : match b with
                 | Some b0 => (let! regval := t_read_register0 env f a i r None in
                               let! sm := lift (get_bfdict env f r b0) in ret (set_bitfield regval v sm))
                 | None => ret v
                 end s1 = (Ok new, s1)).
    { subst new. destruct b as [b|]; [|reflexivity]. unfold mbind at 1. rewrite (read0_run f a i r s1 d rd old); try assumption; [|apply Hk].
      unfold get_bfdict. rewrite (get_regdict_known _ _ _ (proj2 Hk)). cbn [rbind].
      destruct (dget Z.eqb (rd_fields rd) b) as [sm|]; [reflexivity|congruence]. }
    unfold lift in Ev. rewrite Ev.
    destruct (write_words_run a f i rd new s1 d Hi1 E Hr ltac:(eauto) Hnew) as (d' & Ew & Hi' & Hc).
    rewrite Ew. eexists _, d'. split; [reflexivity|]. split; [exact Hi'|]. cbn [t_devs]. rewrite Ed1. auto.
  Qed.

  Lemma write_run f a i r b v s d rd old : tinv s -> dget pair_eqb (t_devs s) (a, f) = Some d -> known env f a r rd ->
    reg_ok rd -> reg_value d i rd old -> 0 <= v < 2 ^ rd_width rd ->
    let new := match b with
               | None => v
               | Some b => match dget Z.eqb (rd_fields rd) b with Some sm => set_bitfield old v sm | None => 0 end
               end in
    (match b with None => True | Some b => dget Z.eqb (rd_fields rd) b <> None end) ->
    0 <= new < 2 ^ rd_width rd ->
    exists s' d', t_write_register env v f a i r b s = (Ok tt, s') /\ tinv s' /\
      t_devs s' = dset pair_eqb (t_devs s) (a, f) d' /\ reg_changed d d' i rd new.
  Proof.
    intros Hi E Hk Hr Hold Hv new Hb Hnew. destruct (validate_instance_run f a i s d Hi E) as (s1 & Hi1 & Ed & Ev).
    unfold t_write_register. rewrite (validate_names_known f a r rd b Hk Hb). unfold mbind at 1, lift.
    unfold mbind at 1. rewrite Ev, (reg_value_inst d i rd old Hold). rewrite <- Ed in E |- *.
    now apply (write0_run f a i r b v s1 d rd old).
  Qed.
End Env.
