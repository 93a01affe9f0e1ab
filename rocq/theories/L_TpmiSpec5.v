(** Lemmas for C70: the registers of a feature, the 'tpmi ls' command. *)
From Coq Require Import Permutation ZifyBool Sorting.Sorted.
From Verif Require Import Base L_Base M_Text L_Text M_Tpmi S_Tpmi L_Tpmi M_TpmiCmd S_TpmiCmd M_TpmiSpec S_TpmiSpec L_TpmiSpec L_TpmiSpec2 L_TpmiSpec3 L_TpmiSpec4.

(** ** Registers *)
Lemma fold_dset_id {V} (l : list (str * V)) : forall acc, NoDup (map fst (acc ++ l)) ->
  fold_left (fun d kv => dset str_eqb d (fst kv) (snd kv)) l acc = acc ++ l.
Proof.
  induction l as [|(k & v) l IH]; intros acc H; cbn [fold_left]; [rewrite app_nil_r; reflexivity|].
  assert (N : ~ In k (map fst acc)).
  { rewrite map_app in H. cbn in H. apply NoDup_remove_2 in H. rewrite in_app_iff in H. tauto. }
  assert (D : forall a : list (str * V), ~ In k (map fst a) -> dset str_eqb a k v = a ++ [(k, v)]).
  { induction a as [|(k' & v') a IHa]; intros Na; [reflexivity|]. cbn [dset map fst app] in *. destruct (str_eqb k k') eqn:E.
    - apply str_eqb_eq in E. subst. destruct Na. left. reflexivity.
    - rewrite IHa; [reflexivity|]. intros X. apply Na. right. exact X. }
  cbn [fst snd]. rewrite (D acc N), IH; rewrite <- app_assoc; [reflexivity|exact H].
Qed.

Lemma load_fdict_run kvs n d t l : Permutation kvs [(s2l "name", YScalar n); (s2l "desc", YScalar d); (s2l "feature-id", YScalar t); (s2l "registers", YRegs l)] ->
  load_fdict (CMap kvs) = format_fdict l.
Proof.
  intros P. set (r := [(s2l "name", YScalar n); (s2l "desc", YScalar d); (s2l "feature-id", YScalar t); (s2l "registers", YRegs l)]) in P.
  assert (ND : NoDup (map fst kvs)).
  { eapply Permutation_NoDup; [apply Permutation_map, Permutation_sym, P|]. cbn. repeat constructor; cbn; intuition discriminate. }
  assert (I : forall kv, In kv kvs <-> In kv r) by (intros kv; split; apply Permutation_in; [exact P|apply Permutation_sym, P]).
  assert (G : forall k v, In (k, v) r -> dget str_eqb kvs k = Some v).
  { intros k v H. apply (In_dget str_eqb str_eqb_spec); [exact ND|]. apply I. exact H. }
  unfold load_fdict. rewrite (fold_dset_id kvs []) by exact ND. cbn [app].
  change (dget str_eqb kvs k_regs) with (dget str_eqb kvs (s2l "registers")).
  rewrite (G (s2l "registers") (YRegs l)) by (right; right; right; left; reflexivity).
  replace (forallb (fun kv => existsb (str_eqb (fst kv)) top_keys) kvs) with true.
  2:{ symmetry. apply forallb_forall. intros kv H. apply I in H. destruct H as [<-|[<-|[<-|[<-|[]]]]]; reflexivity. }
  replace (forallb (fun k => match dget str_eqb kvs k with Some _ => true | None => false end) top_keys) with true; [reflexivity|].
  symmetry. apply forallb_forall. intros k H. destruct H as [<-|[<-|[<-|[<-|[]]]]].
  - change k_name with (s2l "name"). rewrite (G (s2l "name") (YScalar n)) by (left; reflexivity). reflexivity.
  - change k_desc with (s2l "desc"). rewrite (G (s2l "desc") (YScalar d)) by (right; left; reflexivity). reflexivity.
  - change k_fid with (s2l "feature-id"). rewrite (G (s2l "feature-id") (YScalar t)) by (right; right; left; reflexivity). reflexivity.
  - change k_regs with (s2l "registers"). rewrite (G (s2l "registers") (YRegs l)) by (right; right; right; left; reflexivity). reflexivity.
Qed.

Lemma get_fdict_at n c : forall dirs k files, nth_error dirs k = Some files -> dget str_eqb files (n ++ s2l ".yml") = Some c ->
  (forall k' files', (k' < k)%nat -> nth_error dirs k' = Some files' -> dget str_eqb files' (n ++ s2l ".yml") = None) ->
  get_fdict dirs n = load_fdict c.
Proof.
  induction dirs as [|d t IH]; intros k files A G N; [destruct k; discriminate A|]. cbn [get_fdict]. destruct k as [|k].
  - cbn in A. injection A as ->. rewrite G. reflexivity.
  - rewrite (N 0%nat d) by (reflexivity || lia). apply (IH k files A G). intros k' f' Hk A'. apply (N (S k') f'); [lia|exact A'].
Qed.

Lemma registers_l : forall dirs k j fn n d i files kvs t l, tidy dirs -> says dirs k j fn n d i ->
  nth_error dirs k = Some files -> nth_error files j = Some (fn, CMap kvs) ->
  Permutation kvs [(s2l "name", YScalar n); (s2l "desc", YScalar d); (s2l "feature-id", YScalar t); (s2l "registers", YRegs l)] ->
  get_fdict dirs n = format_fdict l.
Proof.
  intros dirs k j fn n d i files kvs t l (T1 & T2) S A B P. rewrite <- (load_fdict_run kvs n d t l P). pose proof (T1 _ _ _ _ _ _ S) as ->.
  apply (get_fdict_at n (CMap kvs) dirs k files A).
  - destruct (dget str_eqb files (n ++ s2l ".yml")) as [c'|] eqn:G.
    + apply (dget_In str_eqb str_eqb_spec) in G. apply In_nth_error in G. destruct G as (j' & G).
      destruct (T2 _ _ _ _ _ _ _ _ _ A A B G) as (_ & <-). congruence.
    + exfalso. assert (X : forall fs : specdir, In (n ++ s2l ".yml", CMap kvs) fs -> dget str_eqb fs (n ++ s2l ".yml") <> None).
      { induction fs as [|(k1 & v1) fs IHf]; intros H; [destruct H|]. cbn [dget]. destruct H as [H|H].
        - injection H as -> ->. rewrite eqb_refl_str. discriminate.
        - destruct (str_eqb (n ++ s2l ".yml") k1); [discriminate|exact (IHf H)]. }
      exact (X files (nth_error_In _ _ B) G).
  - intros k' f' Hk A'. destruct (dget str_eqb f' (n ++ s2l ".yml")) as [c'|] eqn:G; [|reflexivity]. exfalso.
    apply (dget_In str_eqb str_eqb_spec) in G. apply In_nth_error in G. destruct G as (j' & G).
    destruct (T2 _ _ _ _ _ _ _ _ _ A A' B G) as (X & _). lia.
Qed.

(** ** Numbers in hexadecimal *)
Lemma hex_loop_ok : forall fuel n acc, 0 <= n < 16 ^ Z.of_nat (S fuel) ->
  exists w, hex_loop (S fuel) n acc = w ++ acc /\ w <> [] /\ Forall is_hex w /\ hexval w = n.
Proof.
  induction fuel as [|fuel IH]; intros n acc H.
  - cbn [hex_loop]. change (16 ^ Z.of_nat 1) with 16 in H. rewrite Z.mod_small, Z.div_small by lia. cbn [Z.eqb].
    destruct (hex_char_ok n) as (A & B); [lia|]. exists [hex_char n]. split; [reflexivity|]. split; [discriminate|].
    split; [constructor; [exact A|constructor]|]. unfold hexval. cbn [fold_left]. rewrite B. lia.
  - change (hex_loop (S (S fuel)) n acc) with
      (if n / 16 =? 0 then hex_char (n mod 16) :: acc else hex_loop (S fuel) (n / 16) (hex_char (n mod 16) :: acc)).
    destruct (hex_char_ok (n mod 16)) as (A & B); [apply Z.mod_pos_bound; lia|]. destruct (n / 16 =? 0) eqn:E.
    + exists [hex_char (n mod 16)]. split; [reflexivity|]. split; [discriminate|]. split; [constructor; [exact A|constructor]|].
      unfold hexval. cbn [fold_left]. rewrite B. pose proof (Z.div_mod n 16). lia.
    + destruct (IH (n / 16) (hex_char (n mod 16) :: acc)) as (w & Ew & Nw & Fw & Hw).
      { split; [apply Z.div_pos; lia|]. apply Z.div_lt_upper_bound; [lia|]. rewrite Nat2Z.inj_succ, Z.pow_succ_r in H by lia. exact (proj2 H). }
      exists (w ++ [hex_char (n mod 16)]). rewrite Ew, <- app_assoc. split; [reflexivity|]. split; [destruct w; discriminate|].
      split; [apply Forall_app; split; [exact Fw|constructor; [exact A|constructor]]|]. rewrite hexval_snoc, B, Hw. pose proof (Z.div_mod n 16). lia.
Qed.

Lemma py_hex_ok n : 0 <= n -> typed_value (py_hex n) n.
Proof.
  intros H. unfold py_hex. destruct (hex_loop_ok (Z.to_nat (Z.log2 n)) n []) as (w & Ew & Nw & Fw & Hw).
  - split; [exact H|]. rewrite Nat2Z.inj_succ, Z2Nat.id by apply Z.log2_nonneg. destruct (Z.eq_dec n 0) as [->|N]; [reflexivity|].
    pose proof (Z.log2_spec n ltac:(lia)) as (_ & L). eapply Z.lt_le_trans; [exact L|]. apply Z.pow_le_mono_l. lia.
  - rewrite Ew, app_nil_r. change (s2l "0x" ++ w) with ("0"%char :: "x"%char :: w). pose proof (V_hex w Nw Fw) as V. rewrite Hw in V. exact V.
Qed.

Lemma comma_join_ok l : l <> [] -> comma_listed l (comma_join l).
Proof.
  induction l as [|x l IH]; intros H; [destruct H; reflexivity|]. destruct l as [|y l]; [constructor|].
  change (comma_join (x :: y :: l)) with (x ++ s2l ", " ++ comma_join (y :: l)). constructor. apply IH. discriminate.
Qed.

(** ** The list of features *)
Lemma rmap_F2s {A B} (f : A -> res B) : forall l r, rmap l f = Ok r -> Forall2 (fun x y => f x = Ok y) l r.
Proof.
  induction l as [|x l IH]; intros r H; cbn in H; [injection H as <-; constructor|].
  destruct (f x) as [y|] eqn:E; cbn in H; [|discriminate]. destruct (rmap l f) as [ys|] eqn:Er; cbn in H; [|discriminate]. injection H as <-.
  constructor; [exact E|apply IH; reflexivity].
Qed.

Lemma F2_imp {A B} (R R' : A -> B -> Prop) : (forall x y, R x y -> R' x y) -> forall l l', Forall2 R l l' -> Forall2 R' l l'.
Proof. intros H l l' F. induction F; constructor; auto. Qed.

Lemma ls_l : forall addr_text f iter long all host l lines, get_known_features f = Ok l -> l <> [] -> Forall (Z.le 0) (get_unknown_features f) ->
  tpmi_ls addr_text f iter long all host = Ok lines ->
  exists bodies tl, lines = s2l "Supported TPMI features" :: concat bodies ++ tl /\
    Forall2 (fun x b => exists rest, b = (s2l " - " ++ sd_name x ++ s2l ": " ++ strip (sd_desc x)) :: rest /\
               (long = false -> rest = []) /\
               (long = true -> exists its, iter (sd_name x) = Ok its /\ rest = ls_long addr_text (s2l "   ") its)) l bodies /\
    (all = false \/ get_unknown_features f = [] -> tl = []) /\
    (all = true -> get_unknown_features f <> [] -> exists ts txt,
       tl = [s2l "Unknown TPMI features (available" ++ host ++ s2l ", but no spec file found)"; s2l " - " ++ txt] /\
       comma_listed ts txt /\ Forall2 typed_value ts (get_unknown_features f)).
Proof.
  intros addr_text f iter long all host l lines K NE P E. unfold tpmi_ls in E. rewrite K in E. cbn [rbind] in E.
  match type of E with rbind ?m _ = _ => destruct m as [bodies|e] eqn:Eb; cbn [rbind] in E; [|discriminate] end.
  apply rmap_F2s in Eb. destruct l as [|x l]; [destruct NE; reflexivity|]. injection E as <-. exists bodies.
  eexists. split; [reflexivity|]. split.
  - revert Eb. apply F2_imp. intros y b H. destruct long.
    + destruct (iter (sd_name y)) as [its|e]; cbn [rbind] in H; [|discriminate]. injection H as <-. eexists. split; [reflexivity|].
      split; [discriminate|]. intros _. exists its. auto.
    + cbn [rbind] in H. injection H as <-. exists []. split; [reflexivity|]. split; [auto|discriminate].
  - split.
    + intros [-> | ->]; [|reflexivity]. destruct (get_unknown_features f); reflexivity.
    + intros -> NU. destruct (get_unknown_features f) as [|u un] eqn:Eu; [destruct NU; reflexivity|].
      exists (map py_hex (u :: un)), (comma_join (map py_hex (u :: un))). split; [reflexivity|]. split; [apply comma_join_ok; discriminate|].
      clear -P. induction P as [|v l Hv P IH]; constructor; [apply py_hex_ok; exact Hv|exact IH].
Qed.

Lemma ls_succeeds_l : forall addr_text f iter long all host l, get_known_features f = Ok l ->
  (long = true -> forall x, In x l -> exists its, iter (sd_name x) = Ok its) -> exists lines, tpmi_ls addr_text f iter long all host = Ok lines.
Proof.
  intros addr_text f iter long all host l K I. unfold tpmi_ls. rewrite K. cbn [rbind].
  match goal with |- context[rbind (rmap l ?g) _] => destruct (rmap_total g l) as (bodies & Eb) end.
  - intros x Hx. destruct long; cbn [rbind]; [|eexists; reflexivity]. destruct (I eq_refl x Hx) as (its & ->). cbn [rbind]. eexists. reflexivity.
  - rewrite Eb. cbn [rbind]. eexists. reflexivity.
Qed.

(** ** The long list *)
Definition linfo (its : list (Z * Z * Z)) (info : list (Z * list (Z * list Z))) : Prop :=
  NoDup (map fst info) /\
  (forall p m, In (p, m) info -> NoDup (map fst m) /\ forall a l, In (a, l) m -> NoDup l /\ l <> [] /\ forall i, In i l <-> In (a, p, i) its) /\
  (forall a p i, In (a, p, i) its -> exists m l, In (p, m) info /\ In (a, l) m).

Lemma dset_in {V} (d : list (Z * V)) k v : NoDup (map fst d) -> forall k' v', In (k', v') (dset Z.eqb d k v) <-> (k' = k /\ v' = v) \/ (k' <> k /\ In (k', v') d).
Proof.
  intros ND k' v'. assert (ND' : NoDup (map fst (dset Z.eqb d k v))) by (apply dset_NoDup; [exact Zeqb_spec|exact ND]). split.
  - intros H. apply (In_dget Z.eqb Zeqb_spec) in H; [|exact ND']. destruct (Z.eq_dec k' k) as [->|N].
    + rewrite (dget_dset_same Z.eqb Zeqb_spec) in H. injection H as <-. left. auto.
    + rewrite (dget_dset_other Z.eqb Zeqb_spec) in H by exact N. right. split; [exact N|]. exact (dget_In Z.eqb Zeqb_spec _ _ _ H).
  - intros [(-> & ->)|(N & H)]; apply (dget_In Z.eqb Zeqb_spec).
    + apply (dget_dset_same Z.eqb Zeqb_spec).
    + rewrite (dget_dset_other Z.eqb Zeqb_spec) by exact N. apply (In_dget Z.eqb Zeqb_spec); assumption.
Qed.

Lemma linfo_add its info a p i : linfo its info -> linfo (its ++ [(a, p, i)]) (ls_add info (a, p, i)).
Proof.
  intros (ND & A & B). unfold ls_add.
  set (m := match dget Z.eqb info p with Some m => m | None => [] end).
  set (l := match dget Z.eqb m a with Some l => l | None => [] end).
  assert (Hm : NoDup (map fst m) /\ forall b k, In (b, k) m -> NoDup k /\ k <> [] /\ forall j, In j k <-> In (b, p, j) its).
  { unfold m. destruct (dget Z.eqb info p) as [m'|] eqn:E; [|split; [constructor|intros b k []]].
    apply (dget_In Z.eqb Zeqb_spec) in E. exact (A _ _ E). }
  destruct Hm as (NDm & Hm).
  assert (Hl : NoDup l /\ forall j, In j l <-> In (a, p, j) its).
  { unfold l. destruct (dget Z.eqb m a) as [l'|] eqn:E.
    - apply (dget_In Z.eqb Zeqb_spec) in E. destruct (Hm _ _ E) as (X & _ & Y). split; assumption.
    - split; [constructor|]. intros j. split; [intros []|]. intros H. exfalso. destruct (B _ _ _ H) as (m' & l' & H1 & H2).
      apply (In_dget Z.eqb Zeqb_spec) in H1; [|exact ND]. unfold m in E. rewrite H1 in E.
      destruct (A p m' (dget_In Z.eqb Zeqb_spec _ _ _ H1)) as (X & _). apply (In_dget Z.eqb Zeqb_spec) in H2; [congruence|exact X]. }
  destruct Hl as (NDl & Hl). set (l2 := if inb i l then l else l ++ [i]).
  assert (Hl2 : NoDup l2 /\ l2 <> [] /\ forall j, In j l2 <-> In (a, p, j) (its ++ [(a, p, i)])).
  { unfold l2. destruct (inb i l) eqn:Ei.
    - apply inb_In in Ei. split; [exact NDl|]. split; [intros X; rewrite X in Ei; destruct Ei|]. intros j. rewrite in_app_iff, Hl. split; [auto|].
      intros [H|[H|[]]]; [exact H|]. injection H as <-. apply Hl. exact Ei.
    - split; [apply nodup_snoc; [exact NDl|intros X; apply inb_In in X; congruence]|]. split; [destruct l; discriminate|].
      intros j. rewrite !in_app_iff, Hl. cbn. intuition congruence. }
  split; [apply dset_NoDup; [exact Zeqb_spec|exact ND]|]. split.
  - intros q m' H. apply (dset_in _ _ _ ND) in H. destruct H as [(-> & ->)|(Nq & H)].
    + split; [apply dset_NoDup; [exact Zeqb_spec|exact NDm]|]. intros b k Hb. apply (dset_in _ _ _ NDm) in Hb. destruct Hb as [(-> & ->)|(Nb & Hb)]; [exact Hl2|].
      destruct (Hm _ _ Hb) as (X & Y & W). split; [exact X|]. split; [exact Y|]. intros j. rewrite in_app_iff, W. cbn. split; [auto|].
      intros [H|[H|[]]]; [exact H|congruence].
    + destruct (A _ _ H) as (X & Y). split; [exact X|]. intros b k Hb. destruct (Y _ _ Hb) as (Y1 & Y2 & Y3). split; [exact Y1|]. split; [exact Y2|].
      intros j. rewrite in_app_iff, Y3. cbn. split; [auto|]. intros [H1|[H1|[]]]; [exact H1|congruence].
  - intros b q j H. apply in_app_iff in H. destruct H as [H|[H|[]]].
    + destruct (B _ _ _ H) as (m' & l' & H1 & H2). destruct (Z.eq_dec q p) as [->|Nq].
      * assert (Em : m = m') by (unfold m; rewrite (In_dget Z.eqb Zeqb_spec _ _ _ ND H1); reflexivity). rewrite Em in *.
        destruct (Z.eq_dec b a) as [->|Nb].
        -- exists (dset Z.eqb m' a l2), l2. split; [apply (dset_in _ _ _ ND); left; auto|]. apply (dset_in _ _ _ NDm). left. auto.
        -- exists (dset Z.eqb m' a l2), l'. split; [apply (dset_in _ _ _ ND); left; auto|]. apply (dset_in _ _ _ NDm). right. auto.
      * exists m', l'. split; [apply (dset_in _ _ _ ND); right; auto|exact H2].
    + injection H as <- <- <-. exists (dset Z.eqb m a l2), l2. split; [apply (dset_in _ _ _ ND); left; auto|]. apply (dset_in _ _ _ NDm). left. auto.
Qed.

Lemma ls_info_ok its : linfo its (ls_info its).
Proof.
  unfold ls_info. induction its as [|((a & p) & i) its IH] using rev_ind.
  - split; [constructor|]. split; [intros p m []|intros a p i []].
  - rewrite fold_left_app. cbn [fold_left]. apply linfo_add. exact IH.
Qed.

Lemma by_key_in {A} (l : list (Z * A)) x : In x (by_key l) <-> In x l.
Proof. apply sort_by_In. Qed.

Lemma by_key_sorted {A} (l : list (Z * A)) : NoDup (map fst l) -> StronglySorted (fun x y => fst x < fst y) (by_key l).
Proof.
  intros ND. assert (S : StronglySorted (leP (fun a b : Z * A => fst a <=? fst b)) (by_key l)).
  { apply sort_by_sorted; [intros x y|intros x y z]; lia. }
  assert (ND' : NoDup (map fst (by_key l))).
  { eapply Permutation_NoDup; [apply Permutation_map, Permutation_sym, sort_by_perm|exact ND]. }
  induction S as [|x t S IH F]; [constructor|]. cbn [map] in ND'. inversion ND' as [|? ? N ND2]; subst. constructor; [apply IH; exact ND2|].
  rewrite Forall_forall in *. intros y Hy. specialize (F y Hy). unfold leP in F. assert (fst x <> fst y).
  { intros X. apply N. rewrite X. apply in_map. exact Hy. }
  lia.
Qed.

Definition entries (info : list (Z * list (Z * list Z))) : list (Z * Z * list Z) :=
  flat_map (fun p => map (fun e => (fst p, fst e, snd e)) (by_key (snd p))) (by_key info).

Lemma SS_app {A} (R : A -> A -> Prop) l1 l2 : StronglySorted R l1 -> StronglySorted R l2 -> (forall x y, In x l1 -> In y l2 -> R x y) -> StronglySorted R (l1 ++ l2).
Proof.
  induction 1 as [|x t S IH F]; intros S2 C; [exact S2|]. cbn. constructor.
  - apply IH; [exact S2|]. intros y z Hy. apply C. right. exact Hy.
  - apply Forall_app. split; [exact F|]. apply Forall_forall. intros y Hy. apply C; [left; reflexivity|exact Hy].
Qed.

Lemma entries_sorted info : NoDup (map fst info) -> (forall p m, In (p, m) info -> NoDup (map fst m)) -> StronglySorted before (entries info).
Proof.
  intros ND H. unfold entries. pose proof (by_key_sorted info ND) as S.
  assert (H' : forall p m, In (p, m) (by_key info) -> NoDup (map fst m)) by (intros p m Hp; apply (H p m); apply by_key_in; exact Hp).
  clear H. induction S as [|(p & m) t S IH F]; [constructor|]. cbn [flat_map fst snd]. apply SS_app.
  - pose proof (by_key_sorted m (H' p m (or_introl eq_refl))) as Sm. clear -Sm. induction Sm as [|x u Su IHu Fu]; cbn [map]; [constructor|].
    constructor; [exact IHu|]. rewrite Forall_forall in *. intros y Hy. apply in_map_iff in Hy. destruct Hy as (z & <- & Hz). right. cbn. split; [reflexivity|exact (Fu z Hz)].
  - apply IH. intros q n Hq. apply (H' q n). right. exact Hq.
  - intros x y Hx Hy. apply in_map_iff in Hx. destruct Hx as (e & <- & He). apply in_flat_map in Hy. destruct Hy as ((q & n) & Hq & Hy).
    apply in_map_iff in Hy. destruct Hy as (e' & <- & He'). left. cbn. rewrite Forall_forall in F. exact (F _ Hq).
Qed.

Lemma entries_in info p a l : In (p, a, l) (entries info) <-> exists m, In (p, m) info /\ In (a, l) m.
Proof.
  unfold entries. rewrite in_flat_map. split.
  - intros ((q & m) & Hq & H). apply (proj1 (by_key_in _ _)) in Hq. apply in_map_iff in H. destruct H as ((b & k) & E & H). cbn in E. injection E as -> -> ->.
    cbn [snd] in H. apply (proj1 (by_key_in _ _)) in H. exists m. auto.
  - intros (m & Hq & H). exists (p, m). split; [apply by_key_in; exact Hq|]. apply in_map_iff. exists (a, l). split; [reflexivity|]. apply by_key_in. exact H.
Qed.

Lemma indent_app p q : indent p -> indent q -> indent (p ++ q).
Proof. intros. apply Forall_app. auto. Qed.
Lemma indent_dash : indent (s2l "- ").
Proof. constructor; [cbn; auto|constructor; [cbn; auto|constructor]]. Qed.
Lemma indent_two : indent (s2l "  ").
Proof. constructor; [cbn; auto|constructor; [cbn; auto|constructor]]. Qed.

Lemma ls_addrs_ok addr_text p : forall l pfx1 pfx2, indent pfx1 -> indent pfx2 ->
  exists bs, ls_addrs addr_text pfx1 pfx2 p l = concat bs /\
    Forall2 (fun x b => exists p1 p2, indent p1 /\ indent p2 /\ block addr_text p1 p2 x b) (map (fun e => (p, fst e, snd e)) l) bs.
Proof.
  induction l as [|(a & k) l IH]; intros pfx1 pfx2 I1 I2.
  - exists []. split; [reflexivity|constructor].
  - cbn [ls_addrs map]. destruct (IH (pfx2 ++ s2l "- ") (pfx2 ++ s2l "  ")) as (bs & E & F).
    { apply indent_app; [exact I2|exact indent_dash]. } { apply indent_app; [exact I2|exact indent_two]. }
    exists ([pfx1 ++ s2l "PCI address: " ++ addr_text a; (pfx2 ++ s2l "  ") ++ s2l "Package: " ++ dec p; (pfx2 ++ s2l "  ") ++ s2l "Instances: " ++ rangify k] :: bs).
    split; [cbn [concat]; rewrite <- E; cbn [app]; reflexivity|]. constructor; [|exact F]. cbn [fst snd].
    exists pfx1, (pfx2 ++ s2l "  "). split; [exact I1|]. split; [apply indent_app; [exact I2|exact indent_two]|]. constructor.
Qed.

Lemma long_l : forall addr_text prefix its, indent prefix ->
  exists devices blocks, ls_long addr_text prefix its = concat blocks /\
    Forall2 (fun x b => exists p1 p2, indent p1 /\ indent p2 /\ block addr_text p1 p2 x b) devices blocks /\
    StronglySorted before devices /\
    (forall p a l, In (p, a, l) devices -> NoDup l /\ l <> [] /\ forall i, In i l <-> In (a, p, i) its) /\
    (forall a p i, In (a, p, i) its -> exists l, In (p, a, l) devices).
Proof.
  intros addr_text prefix its I. destruct (ls_info_ok its) as (ND & A & B). exists (entries (ls_info its)).
  assert (G : exists blocks, ls_long addr_text prefix its = concat blocks /\
    Forall2 (fun x b => exists p1 p2, indent p1 /\ indent p2 /\ block addr_text p1 p2 x b) (entries (ls_info its)) blocks).
  { unfold ls_long, entries. generalize (by_key (ls_info its)). induction l as [|(p & m) t IH]; [exists []; split; [reflexivity|constructor]|].
    cbn [flat_map fst snd]. destruct IH as (bs & E & F).
    destruct (ls_addrs_ok addr_text p (by_key m) (prefix ++ s2l "- ") (prefix ++ s2l "  ")) as (bs0 & E0 & F0).
    { apply indent_app; [exact I|exact indent_dash]. } { apply indent_app; [exact I|exact indent_two]. }
    exists (bs0 ++ bs). split; [rewrite concat_app; f_equal; assumption|]. apply Forall2_app; assumption. }
  destruct G as (blocks & E & F). exists blocks. split; [exact E|]. split; [exact F|]. split.
  - apply entries_sorted; [exact ND|]. intros p m H. exact (proj1 (A p m H)).
  - split.
    + intros p a l H. apply entries_in in H. destruct H as (m & H1 & H2). exact (proj2 (A p m H1) a l H2).
    + intros a p i H. destruct (B a p i H) as (m & l & H1 & H2). exists l. apply entries_in. exists m. auto.
Qed.
