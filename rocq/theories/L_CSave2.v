(** Lemmas about the saved file and about restoring one item. *)
From Coq Require Import Ascii String ZifyBool Permutation Sorted.
From Verif Require Import Base M_CPUInfo S_CPUInfo M_Text S_Text M_Human M_CPUIdle S_CPUIdle M_CSave S_CSave
  L_Base L_Monad L_CPUInfo L_Text L_CPUIdle3 L_CPUIdle4 L_CPUIdle5 L_CPUIdle6 L_CPUIdle7 L_CSave.

(** Stripping a stripped text. *)
Lemma lstrip_head p l : match lstrip_by p l with [] => True | c :: _ => p c = false end.
Proof. induction l as [|c t IH]; cbn [lstrip_by]; [exact I|]. destruct (p c) eqn:E; [exact IH|exact E]. Qed.

Lemma strip_idem p l : strip_by p (strip_by p l) = strip_by p l.
Proof.
  unfold strip_by at 2 3. set (m := lstrip_by p l). assert (Hm := lstrip_head p l). fold m in Hm. clearbody m.
  destruct (rstrip_decomp p m) as (t & Et & Ht). assert (Hh := lstrip_head p (rev m)).
  set (y := lstrip_by p (rev m)) in *. clearbody y. destruct y as [|c y]; [reflexivity|].
  unfold strip_by. assert (Hl : lstrip_by p (rev (c :: y)) = rev (c :: y)).
  { destruct (rev (c :: y)) as [|d z] eqn:E; [reflexivity|]. apply lstrip_stop. subst m. exact Hm. }
  rewrite Hl, rev_involutive, (lstrip_stop p c y Hh). reflexivity.
Qed.

Lemma lstrip_map p f l : (forall c, p (f c) = p c) -> lstrip_by p (map f l) = map f (lstrip_by p l).
Proof. intros H. induction l as [|c t IH]; cbn [map lstrip_by]; [reflexivity|]. rewrite H. destruct (p c); [exact IH|reflexivity]. Qed.

Lemma strip_map p f l : (forall c, p (f c) = p c) -> strip_by p (map f l) = map f (strip_by p l).
Proof. intros H. unfold strip_by. now rewrite lstrip_map, <- map_rev, lstrip_map, <- map_rev. Qed.

Lemma upper_space c : is_space (upper_char c) = is_space c.
Proof. destruct c as [[] [] [] [] [] [] [] []]; reflexivity. Qed.

Lemma upper_idem c : upper_char (upper_char c) = upper_char c.
Proof. destruct c as [[] [] [] [] [] [] [] []]; reflexivity. Qed.

Lemma name_strip mc c i : strip (cs_name mc c i) = cs_name mc c i.
Proof. unfold cs_name, normalize_csname, strip. rewrite strip_map by apply upper_space. now rewrite strip_idem. Qed.

Lemma name_upper mc c i : normalize_csname (cs_name mc c i) = cs_name mc c i.
Proof. unfold cs_name, normalize_csname. rewrite map_map. apply map_ext. intros x. apply upper_idem. Qed.

Lemma asked_plain mc c i own m : cs_name mc c i <> [] -> ~ In ","%char (cs_name mc c i) ->
  asked (CsText (cs_name mc c i)) own m <-> m = cs_name mc c i.
Proof.
  intros Hne Hc. unfold asked. assert (Hall : str_eqb (cs_name mc c i) (s2l "all"%string) = false).
  { destruct (str_eqb _ _) eqn:E; [|reflexivity]. apply str_eqb_eq in E. assert (U := name_upper mc c i). rewrite E in U. discriminate U. }
  rewrite Hall, split_csv_toks. cbn zeta iota. unfold toks. rewrite split_on_none.
  2: { unfold has_char. destruct (existsb (Ascii.eqb ",") (cs_name mc c i)) eqn:E; [|reflexivity].
       apply existsb_exists in E as (x & Hx & E). apply Ascii.eqb_eq in E. subst x. contradiction. }
  cbn [filter]. replace (nonemptyb (cs_name mc c i)) with true by (destruct (cs_name mc c i); [contradiction|reflexivity]).
  cbn [map]. rewrite name_strip. split.
  - intros (w & [<-|[]] & ->). apply name_upper.
  - intros ->. exists (cs_name mc c i). split; [now left|]. symmetry. apply name_upper.
Qed.

Lemma asked_list mc c i own m : asked (CsList [cs_name mc c i]) own m <-> m = cs_name mc c i.
Proof.
  cbn [asked]. split.
  - intros (w & [<-|[]] & ->). apply name_upper.
  - intros ->. exists (cs_name mc c i). split; [now left|]. symmetry. apply name_upper.
Qed.

(** The CPUs of an item. *)
Lemma parse_cpus l : Forall (fun x => 0 <= x) l -> NoDup l -> exists r, parse_cpus_string (rangify l) = Ok (Some r) /\ Permutation l r.
Proof.
  intros H1 H2. destruct (rangify_round_trip_dedup l H1 H2) as (r & E & Hp & _). exists r. split; [|exact Hp]. unfold parse_cpus_string.
  destruct (str_eqb (rangify l) (s2l "all"%string)) eqn:A.
  - apply str_eqb_eq in A. rewrite A in E. vm_compute in E. discriminate.
  - rewrite E. reflexivity.
Qed.

(** The values of one C-state in the file. *)
Definition onoff (v : cval) : cval := CStr (if truthy v then s2l "off"%string else s2l "on"%string).

Lemma yaml_value k : yaml_vals (s2l "value"%string) k = map (fun vl => (s2l "value"%string, fst vl, rangify (snd vl))) k.
Proof. induction k as [|(v, l) t IH]; [reflexivity|]. cbn [yaml_vals map fst snd]. change (str_eqb (s2l "value"%string) (s2l "disable"%string)) with false. cbn iota. now rewrite IH. Qed.

Lemma yaml_disable v l k : yaml_vals (s2l "disable"%string) ((v, l) :: k) =
  (s2l "value"%string, onoff v, rangify l) :: map (fun vl => (s2l "value"%string, fst vl, rangify (snd vl))) k.
Proof. cbn [yaml_vals]. change (str_eqb (s2l "disable"%string) (s2l "disable"%string)) with true. cbn iota. now rewrite yaml_value. Qed.

Section Save.
  Variable mc : machine.
  Variable nst : Z -> Z.
  Hypothesis Hok : idle_ok mc nst.
  Notation online := (ci_online (mc_ci mc)).
  Notation Inv := (Inv mc nst).
  Notation evolve := (evolve mc).

  (** CPU [c] has C-state [n], with the setting [off]. *)
  Definition has_set (flags : Z -> Z -> str) (c : Z) (n : str) (off : bool) : Prop :=
    exists i, 0 <= i < nst c /\ n = cs_name mc c i /\ flags c i = flag_text off.

  Definition bval (off : bool) : cval := CInt (if off then 1 else 0).

  (** What is in the file. *)
  Definition file_ok (flags : Z -> Z -> str) (T : list Z) (d : ydict) : Prop :=
    NoDup (map fst d) /\
    (forall c i, In c T -> 0 <= i < nst c -> In (cs_name mc c i) (map fst d)) /\
    forall n its, In (n, its) d -> (exists c i, In c T /\ 0 <= i < nst c /\ n = cs_name mc c i) /\
      exists v l k, its = (s2l "value"%string, onoff v, rangify l) :: map (fun vl => (s2l "value"%string, fst vl, rangify (snd vl))) k /\
      NoDup (map fst ((v, l) :: k)) /\
      (forall c off, In c T -> has_set flags c n off -> exists m, In (bval off, m) ((v, l) :: k)) /\
      forall w m, In (w, m) ((v, l) :: k) -> m <> [] /\ NoDup m /\ exists off, w = bval off /\ forall c, In c m <-> In c T /\ has_set flags c n off.

  Lemma flag_inj a b : flag_text a = flag_text b -> a = b.
  Proof. destruct a, b; intros H; try reflexivity; vm_compute in H; discriminate. Qed.

  Lemma nodup_app_single {A} (l : list A) : NoDup l -> (forall x y, In x l -> In y l -> x = y) -> l = [] \/ exists x, l = [x].
  Proof.
    intros H1 H2. destruct l as [|x [|y t]]; [now left|right; now exists x|]. exfalso. inversion H1 as [|? ? N _]; subst. apply N.
    rewrite (H2 x y); [now left|now left|right; now left].
  Qed.

  Lemma save_file flags s T items : Inv true s -> (forall c i, id_flags s c i = flags c i) -> NoDup (map fst items) -> (forall c, In c (map fst items) <-> In c T) -> incl T online ->
    (forall c info, In (c, info) items -> shown mc nst true (id_flags s) c (fun n => exists c0, In c0 T /\ In n (own_names mc nst c0)) info) ->
    file_ok flags T (yaml_rcsinfo (build_aggr_rcsinfo items (print_keys true))).
  Proof.
    intros HI Hfl Hn HT Ho Hsh. set (keys := print_keys true).
    assert (Hdict : dict_items items).
    { split; [exact Hn|]. intros c info H. destruct (Hsh c info H) as (S1 & _ & S3). split; [exact S1|]. intros n cs Hcs.
      destruct (S3 n cs Hcs) as (i & _ & _ & _ & (D & _) & _). exact D. }
    destruct (rcs_partition items keys Hdict) as (P1 & P2 & P3). destruct (build_spec keys items (proj2 Hdict)) as (A & B & _).
    set (a := build_aggr_rcsinfo items keys) in *.
    assert (Hknown : forall c n v, known_cs items c n (s2l "disable"%string) v <-> In c T /\ exists off, v = bval off /\ has_set flags c n off).
    { intros c n v. split.
      - intros (info & cs & H1 & H2 & H3). destruct (Hsh c info H1) as (S1 & _ & S3). destruct (S3 n cs H2) as (i & Hi & -> & _ & (D & _) & O).
        destruct (O eq_refl) as (off & O1 & O2). split; [apply HT, in_map_iff; now exists (c, info)|]. exists off. split.
        + unfold shows_off in O1. rewrite (In_dget _ str_eqb_spec _ _ _ D H3) in O1. now injection O1.
        + exists i. split; [exact Hi|]. split; [reflexivity|]. now rewrite <- Hfl.
      - intros (Hc & off & -> & i & Hi & -> & Hf). apply HT in Hc as Hc'. apply in_map_iff in Hc' as ((c', info) & E & H). cbn [fst] in E. subst c'.
        destruct (Hsh c info H) as (S1 & S2 & S3). destruct (S2 i Hi) as (cs & Hcs); [exists c; split; [exact Hc|apply own_In; now exists i]|].
        exists info, cs. split; [exact H|]. split; [exact Hcs|]. destruct (S3 _ cs Hcs) as (j & Hj & Ej & _ & _ & O). destruct (O eq_refl) as (off' & O1 & O2).
        destruct (cpu_facts mc nst Hok c (Ho c Hc)) as (_ & _ & _ & _ & Hinj & _). apply Hinj in Ej; [|exact Hi|exact Hj]. subst j.
        rewrite Hfl, Hf in O2. apply flag_inj in O2. subst off'. apply (dget_In _ str_eqb_spec). exact O1. }
    assert (Hshape : forall n d, In (n, d) a -> d = [] \/ exists k, d = [(s2l "disable"%string, k)]).
    { intros n d H. destruct (proj2 A n d H) as (W & Hk). assert (Huniq : forall x y, In x (map fst d) -> In y (map fst d) -> x = y).
      { intros f1 f2 Hx Hy. apply Hk in Hx, Hy. cbn in Hx, Hy. destruct Hx as [<-|[]], Hy as [<-|[]]. reflexivity. }
      destruct (nodup_app_single (map fst d) (proj1 W) Huniq) as [E|(x & E)].
      - left. now apply map_eq_nil in E.
      - right. destruct d as [|(f, k) [|z t]]; [discriminate| |discriminate]. cbn [map fst] in E. exists k. f_equal. f_equal.
        assert (Hf : In f keys) by (apply Hk; now left). cbn in Hf. now destruct Hf as [<-|[]]. }
    unfold yaml_rcsinfo. split; [|split].
    - assert (NoDup (map fst a)) as HA by apply A. clear - HA. induction a as [|(n, d) t IH]; [constructor|].
      cbn [map fst] in HA. inversion HA as [|? ? N1 N2]; subst. cbn [map filter fst snd]. destruct (flat_map _ d) as [|it0 its0]; [now apply IH|].
      cbn [map fst]. constructor; [|now apply IH]. intros H. apply N1. apply in_map_iff in H as (x & <- & Hx). apply filter_In in Hx as (Hx & _).
      apply in_map_iff in Hx as (y0 & <- & Hy). cbn [fst]. now apply in_map.
    - intros c i Hc Hi. destruct (proj1 HI c i (Ho c Hc) Hi) as (off & Eo). rewrite Hfl in Eo.
      destruct (P2 c (cs_name mc c i) (s2l "disable"%string) (bval off)) as (cpus & (d & k & H1 & H2 & H3) & Hcc).
      + apply Hknown. split; [exact Hc|]. exists off. split; [reflexivity|]. now exists i.
      + now left.
      + apply in_map_iff. exists (cs_name mc c i, flat_map (fun kk => yaml_vals (fst kk) (snd kk)) d). split; [reflexivity|].
        apply filter_In. split; [apply in_map_iff; now exists (cs_name mc c i, d)|]. cbn [snd].
        destruct (Hshape _ d H1) as [->|(k' & ->)]; [destruct H2|]. destruct H2 as [[= <-]|[]]. destruct k' as [|(v, l) k']; [destruct H3|].
        cbn [flat_map fst snd]. rewrite yaml_disable. reflexivity.
    - intros n its H. apply filter_In in H as (H & Hne). apply in_map_iff in H as ((n', d) & E & H1). cbn [fst snd] in E. injection E as <- <-. cbn [snd] in Hne.
      destruct (Hshape n' d H1) as [->|(k & ->)]; [discriminate|]. cbn [flat_map fst snd] in *. rewrite app_nil_r in *.
      destruct k as [|(v, l) k]; [discriminate|]. clear Hne. rewrite yaml_disable.
      destruct (proj2 A n' _ H1) as ((_ & W) & _). destruct (W (s2l "disable"%string) ((v, l) :: k)) as (K1 & _ & _); [now left|].
      assert (Hgrp : forall w m, In (w, m) ((v, l) :: k) -> m <> [] /\ NoDup m /\ exists off, w = bval off /\ forall c, In c m <-> In c T /\ has_set flags c n' off).
      { intros w m Hm. destruct (P1 n' (s2l "disable"%string) w m) as (Q1 & Q2 & _ & Q4); [exists [(s2l "disable"%string, (v, l) :: k)], ((v, l) :: k); split; [exact H1|split; [now left|exact Hm]]|].
        split; [exact Q1|]. split; [exact Q2|].
        destruct m as [|c0 m0]; [contradiction|]. assert (Hc0 : In c0 (c0 :: m0)) by now left. apply Q4, Hknown in Hc0 as (_ & off & -> & _).
        exists off. split; [reflexivity|]. intros c. rewrite Q4, Hknown. split.
        - intros (Hc & off' & E & Hs). split; [exact Hc|]. replace off with off'; [exact Hs|]. destruct off, off'; try reflexivity; discriminate E.
        - intros (Hc & Hs). split; [exact Hc|]. now exists off. }
      split.
      + destruct (Hgrp v l) as (Q1 & _ & off & _ & Q4); [now left|]. destruct l as [|c0 l0]; [contradiction|].
        assert (Hc0 : In c0 (c0 :: l0)) by now left. apply Q4 in Hc0 as (Hc0 & i & Hi & E & _). now exists c0, i.
      + exists v, l, k. split; [reflexivity|]. split; [exact K1|]. split; [|exact Hgrp].
        intros c off Hc Hs. destruct (P2 c n' (s2l "disable"%string) (bval off)) as (cpus & (d & k' & Q1 & Q2 & Q3) & _).
        * apply Hknown. split; [exact Hc|]. now exists off.
        * now left.
        * assert (Ed := In_dget _ str_eqb_spec _ _ _ (proj1 A) Q1). rewrite (In_dget _ str_eqb_spec _ _ _ (proj1 A) H1) in Ed. injection Ed as <-.
          destruct Q2 as [[= <-]|[]]. now exists cpus.
  Qed.

  Lemma cpu_nonneg c : In c online -> 0 <= c.
  Proof.
    intros Hc. destruct Hok as (_ & _ & _ & _ & _ & Hf & Hcpu). destruct (Hcpu c Hc) as (H2 & Hfiles & _).
    assert (H : In (c, 0, s2l "name"%string) (mc_files mc)) by (apply Hfiles; [now left|lia]). now apply Hf in H.
  Qed.


  (** "Not supported" is not among the errors. *)
  Lemma nens_norm cpus e : normalize_cpus (mc_ci mc) cpus false = Exn e -> e = EError.
  Proof. destruct cpus as [l|]; cbn [normalize_cpus]; [|discriminate]. unfold normalize_in. destruct (forallb _ _); [discriminate|]. now intros [= <-]. Qed.

  Lemma rd_nens s : post rd_io s (fun _ s' => id_cdrv s' = id_cdrv s) (fun e _ => e = EError).
  Proof. unfold post, rd_io. destruct (id_rf s) as [|[] t]; reflexivity. Qed.

  Lemma add_cstate_nens info cs e : add_cstate info cs = Exn e -> e <> ENotSupported.
  Proof.
    unfold add_cstate. destruct (dget str_eqb cs (s2l "name"%string)) as [[]|]; [intros [= <-]; discriminate| |intros [= <-]; discriminate].
    destruct (dget str_eqb cs (s2l "index"%string)); [|intros [= <-]; discriminate].
    destruct (rmap cst_fnames _) as [v|e'] eqn:E; cbn [rbind]; [discriminate|]. intros [= <-]. apply rmap_exn in E as (k & _ & E).
    destruct (dget str_eqb cs k); [discriminate|]. injection E as <-. discriminate.
  Qed.

  Lemma read_loop_nens : forall l info cs prev e, snd (read_loop l info cs prev) = Some e -> e <> ENotSupported.
  Proof.
    induction l as [|(fp, v) t IH]; intros info cs prev e; cbn [read_loop].
    - destruct (add_cstate info cs) as [i|e'] eqn:E.
      + destruct prev as [(pc, pi)|]; cbn [snd]; [discriminate|]. intros [= <-]. discriminate.
      + cbn [snd]. intros [= <-]. now apply add_cstate_nens in E.
    - destruct (parse_fpath (strip fp)) as [((cpu, idx), key)|]; [|cbn [snd]; intros [= <-]; discriminate].
      destruct (parse_val (strip v)) as [w|e'] eqn:Ev.
      2: { cbn [snd]. intros [= <-]. unfold parse_val in Ev. destruct (is_int _); [|discriminate]. destruct (py_int _); [discriminate|]. injection Ev as <-. discriminate. }
      destruct prev as [(pc, pi)|]; [|apply IH].
      destruct (negb (idx =? pi)).
      + destruct (add_cstate info cs) as [i|e'] eqn:E; cbn [rbind]; [|cbn [snd]; intros [= <-]; now apply add_cstate_nens in E].
        destruct (negb (cpu =? pc)); (destruct (read_loop t _ _ _) as (ys, e0) eqn:Er; cbn [snd]; intros ->; apply (f_equal snd) in Er; now apply IH in Er).
      + destruct (negb (cpu =? pc)); (destruct (read_loop t _ _ _) as (ys, e0) eqn:Er; cbn [snd]; intros ->; apply (f_equal snd) in Er; now apply IH in Er).
  Qed.

  Lemma read_nens cpus s : post (read_cstates_info mc cpus) s (fun g s' => id_cdrv s' = id_cdrv s /\ forall e, snd g = Some e -> e <> ENotSupported) (fun _ _ => False).
  Proof.
    unfold read_cstates_info. unfold post at 1.
    assert (H : post (read_fpaths_and_values mc cpus) s (fun _ s' => id_cdrv s' = id_cdrv s) (fun e s' => id_cdrv s' = id_cdrv s /\ e <> ENotSupported)).
    { assert (Hrd : forall s, post rd_io s (fun _ s' => id_cdrv s' = id_cdrv s) (fun e s' => id_cdrv s' = id_cdrv s /\ e <> ENotSupported)).
      { intros s0. unfold post, rd_io. destruct (id_rf s0) as [|[] t]; [reflexivity|split; [reflexivity|discriminate]|reflexivity]. }
      unfold read_fpaths_and_values. apply post_bind. eapply post_conseq; [apply Hrd| |auto]. cbn beta. intros _ s1 E1. cbn zeta.
      destruct (map _ _) as [|f0 fs].
      - apply post_bind. eapply post_conseq; [apply Hrd| |cbn beta; intros e s2 (? & ?); split; [congruence|assumption]]. cbn beta.
        intros _ s2 E2. apply post_throw. split; [congruence|discriminate].
      - apply post_bind. eapply post_conseq; [apply Hrd| |cbn beta; intros e s2 (? & ?); split; [congruence|assumption]]. cbn beta.
        intros _ s2 E2. apply post_bind, post_gets. destruct (Nat.eqb _ _); [apply post_ret; congruence|apply post_throw; split; [congruence|discriminate]]. }
    unfold post in H. destruct (read_fpaths_and_values mc cpus s) as ([(fp, vs)|e], s').
    - split; [exact H|]. apply read_loop_nens.
    - destruct H as (H1 & H2). destruct e; (split; [exact H1|]); cbn [snd]; intros e0 [= <-]; discriminate || contradiction.
  Qed.

  Lemma info_nens cpus csnames s : drv_ok s -> forall e s', get_cstates_info mc cpus csnames s = (Exn e, s') -> e <> ENotSupported.
  Proof.
    intros Hd e s' E.
    assert (H : post (get_cstates_info mc cpus csnames) s (fun _ _ => True) (fun e _ => e <> ENotSupported)); [|now apply (post_run _ _ _ _ _ _ H) in E].
    clear E e s'. unfold get_cstates_info. apply post_bind, post_lift; [|intros e E; apply nens_norm in E; subst e; discriminate].
    intros l _. apply post_bind.
    assert (Hdrv : post (get_idle_driver mc) s (fun d _ => d <> []) (fun e _ => e <> ENotSupported)).
    { unfold get_idle_driver. unfold post at 1. rewrite (cache_on mc nst Hok). destruct (id_cdrv s) as [d|] eqn:Ed; [now apply Hd|].
      match goal with |- match ?m s with _ => _ end => change (post m s (fun d _ => d <> []) (fun e _ => e <> ENotSupported)) end.
      apply post_bind. eapply post_conseq; [apply rd_nens| |cbn beta; intros e s1 ->; discriminate]. cbn beta. intros _ s1 _.
      destruct Hok as (_ & _ & _ & (t & Et & Hn) & _). rewrite Et. cbn zeta. apply post_bind. unfold post at 1. rewrite (add0_run mc nst Hok). now apply post_ret. }
    eapply post_conseq; [apply Hdrv| |auto]. cbn beta. intros d s1 Hne. destruct d as [|dc d]; [contradiction|].
    unfold with_cstates. apply post_bind, post_gets. apply post_bind.
    assert (Hadd : forall c i s, post (cs_add mc c i) s (fun _ _ => True) (fun e _ => e <> ENotSupported)).
    { intros c i s0. unfold cs_add. rewrite (cache_on mc nst Hok). apply post_bind, post_lift; [|intros e E; apply nens_norm in E; subst e; discriminate].
      intros k _. apply post_modify. exact I. }
    assert (Heach : forall {B} (body : Z -> csinfo -> M idle B), (forall c i s, post (body c i) s (fun _ _ => True) (fun e _ => e <> ENotSupported)) ->
              forall k names s, post (each_cpu mc names k body) s (fun _ _ => True) (fun e _ => e <> ENotSupported)).
    { intros B body Hb. induction k as [|c k IH]; intros names s0; cbn [each_cpu]; [exact I|].
      apply post_bind. unfold cs_get, post at 1. destruct (if mc_cache mc then _ else _) as [i|]; [|discriminate].
      apply post_bind, post_lift.
      - intros r _. apply post_bind. eapply post_conseq; [apply Hb| |auto]. cbn beta. intros b s2 _. apply post_bind. eapply post_conseq; [apply IH| |auto]. now intros.
      - intros e E. apply pick_exn in E as (-> & _). discriminate. }
    eapply post_conseq with (Q := fun _ _ => True) (E := fun e _ => e <> ENotSupported).
    - destruct (filter _ l) as [|c0 rc]; [exact I|]. apply post_bind. eapply post_conseq; [apply read_nens| |now intros]. cbn beta.
      intros g s2 (_ & Hg). apply post_bind.
      eapply post_conseq; [apply (post_mfor _ (fun _ _ => True) (fun e _ => e <> ENotSupported))| |auto]; [intros; apply Hadd|exact I|].
      cbn beta. intros _ s3 _. destruct (snd g) as [e|]; [now apply post_throw, Hg|exact I].
    - cbn beta. intros _ s2 _. apply Heach. intros. exact I.
    - auto.
  Qed.

  Lemma save_post b cpus s : Inv b s ->
    post (save_cstates mc cpus) s
      (fun d s' => Inv b s' /\ evolve (fun _ _ => False) s s' /\ incl (cs_targets mc cpus) online /\
         (b = true -> same_names mc nst (cs_targets mc cpus) -> file_ok (id_flags s) (cs_targets mc cpus) d))
      (fun _ s' => Inv b s' /\ evolve (fun _ _ => False) s s' /\ (id_rf s = [] -> incl (cs_targets mc cpus) online -> ~ same_names mc nst (cs_targets mc cpus))).
  Proof.
    intros HI. unfold save_cstates. apply post_bind. unfold aggr_cstates, post at 1.
    assert (H := info_post mc nst Hok (fun _ _ => False) b cpus (CsText (s2l "all"%string)) s HI). unfold post in H.
    assert (HN := info_nens cpus (CsText (s2l "all"%string)) s (proj1 (proj2 (proj2 HI)))).
    destruct (get_cstates_info mc cpus (CsText (s2l "all"%string)) s) as ([r|e], s').
    - destruct H as (I' & E' & K & l & ns & Hl & Hr & Hns & Hown & Hsh). apply post_ret.
      destruct (norm_cpus mc nst Hok cpus l Hl) as (N1 & N2 & N3).
      split; [exact I'|]. split; [exact E'|]. split; [intros c Hc; apply N2; now apply N3|]. intros -> Hs.
      apply (save_file (id_flags s) s'); [exact I'|intros c i; apply E'; tauto|now rewrite Hr|intros c; rewrite Hr; apply N3|intros c Hc; apply N2; now apply N3|].
      intros c info Hc. destruct (Hsh c info Hc) as (S1 & S2 & S3).
      assert (Hcl : In c l) by (rewrite <- Hr; apply in_map_iff; now exists (c, info)).
      destruct (hd_of l c Hcl) as (c0 & H0 & H0l).
      assert (Ha : forall n, In n ns <-> In n (own_names mc nst c0)).
      { intros n. rewrite (Hns c0 H0). reflexivity. }
      assert (Hb : forall n, In n ns <-> exists c0, In c0 (cs_targets mc cpus) /\ In n (own_names mc nst c0)).
      { intros n. rewrite Ha. split; [intros H; exists c0; split; [now apply N3|exact H]|]. intros (c1 & H1 & H2). apply (Hs c1 c0); [exact H1|now apply N3|exact H2]. }
      split; [exact S1|]. split.
      + intros i Hi Hw. apply S2; [exact Hi|]. now apply Hb.
      + intros n cs H. destruct (S3 n cs H) as (i & Hi & E1 & Hw & D). exists i. split; [exact Hi|]. split; [exact E1|]. split; [now apply Hb|exact D].
    - destruct H as (I' & E' & K).
      assert (HK : id_rf s = [] -> incl (cs_targets mc cpus) online -> ~ same_names mc nst (cs_targets mc cpus)).
      { intros Hr Hi Hs. apply K; [exact Hr|now apply known_from|]. intros c0 c n H0 Hc Ha. apply (Hs c0 c); assumption. }
      specialize (HN e s' eq_refl). destruct e; try (split; [exact I'|split; [exact E'|exact HK]]). contradiction.
  Qed.

  (** Restoring one item. *)
  Definition touched (l : list Z) (n : str) (c i : Z) : Prop := In c l /\ 0 <= i < nst c /\ n = cs_name mc c i.

  Definition can (s : idle) : Prop := obeys mc nst /\ id_rf s = [] /\ id_wf s = [].

  Lemma can_evolve P s s' : evolve P s s' -> can s -> can s'.
  Proof. intros (_ & _ & _ & A & B & _) (H1 & H2 & H3). split; [exact H1|]. split; auto. Qed.

  Lemma item_post c0 i0 off l s : Inv false s -> incl l online -> NoDup l -> cs_name mc c0 i0 <> [] -> ~ In ","%char (cs_name mc c0 i0) ->
    let n := cs_name mc c0 i0 in
    post (restore_item mc n (s2l "value"%string, onoff (bval off), rangify l)) s
      (fun _ s' => Inv false s' /\ evolve (touched l n) s s' /\ forall c i, touched l n c i -> id_flags s' c i = flag_text off)
      (fun _ s' => Inv false s' /\ evolve (touched l n) s s' /\ ~ (can s /\ forall c, In c l -> In n (own_names mc nst c))).
  Proof.
    intros HI Hin Hnd Hne Hco n. unfold restore_item.
    destruct (parse_cpus l) as (r & Er & Hp); [apply Forall_forall; intros c Hc; now apply cpu_nonneg, Hin|exact Hnd|].
    apply post_bind. unfold post at 1, lift. rewrite Er.
    assert (Hr : forall c, In c r <-> In c l) by (intros c; split; apply Permutation_in; [now apply Permutation_sym|exact Hp]).
    assert (Hask : forall own m, asked (CsText n) own m <-> m = n) by (intros; now apply asked_plain).
    assert (Htog : forall c i, toggles mc nst (CsText n) (Some r) c i -> touched l n c i).
    { intros c i (Hc & Hi & c1 & _ & Ha). apply Hask in Ha. split; [now apply Hr|]. now split. }
    assert (Hknown : cpus_known mc (Some r)) by (intros k [= <-] c Hc; now apply Hin, Hr).
    apply post_bind.
    assert (Hbody : forall en, post (toggle_cstates mc (CsText n) (Some r) en) s
      (fun _ s' => Inv false s' /\ evolve (touched l n) s s' /\ forall c i, touched l n c i -> id_flags s' c i = flag_text (negb en))
      (fun _ s' => Inv false s' /\ evolve (touched l n) s s' /\ ~ (can s /\ forall c, In c l -> In n (own_names mc nst c)))).
    { intros en. eapply post_conseq; [apply (toggle_post mc nst Hok false (CsText n) (Some r) en s HI)| |]; cbn beta.
      - intros ts s' (J1 & J2 & _ & l' & ns & Hl' & Hns & _ & Hfl & _). split; [exact J1|]. split; [now apply (evolve_weak mc _ _ s s' Htog)|].
        intros c i (Hc & Hi & En). destruct (norm_cpus mc nst Hok (Some r) l' Hl') as (_ & _ & N3). apply Hr in Hc. cbn [cs_targets] in N3. apply N3 in Hc.
        apply Hfl; [exact Hc|exact Hi|]. destruct (hd_of l' c Hc) as (c1 & H1 & _). apply (Hns c1 H1), Hask. now symmetry.
      - intros e s' (J1 & J2 & J3). split; [exact J1|]. split; [now apply (evolve_weak mc _ _ s s' Htog)|].
        intros ((O1 & O2 & O3) & Ho). apply J3. split; [exact O1|]. split; [exact O2|]. split; [exact O3|]. split; [exact Hknown|].
        intros c1 c m _ Hc Ha. apply Hask in Ha. subst m. apply Ho. now apply Hr. }
    assert (Hval : post (if cval_eqb (onoff (bval off)) (CStr (s2l "on"%string)) then let! _ := enable_cstates mc (CsText n) (Some r) in ret tt
      else if cval_eqb (onoff (bval off)) (CStr (s2l "off"%string)) then let! _ := disable_cstates mc (CsText n) (Some r) in ret tt else throw EError) s
      (fun _ s' => Inv false s' /\ evolve (touched l n) s s' /\ forall c i, touched l n c i -> id_flags s' c i = flag_text off)
      (fun _ s' => Inv false s' /\ evolve (touched l n) s s' /\ ~ (can s /\ forall c, In c l -> In n (own_names mc nst c)))).
    { destruct off.
      - change (cval_eqb (onoff (bval true)) (CStr (s2l "on"%string))) with false. change (cval_eqb (onoff (bval true)) (CStr (s2l "off"%string))) with true. cbn iota.
        apply post_bind. unfold disable_cstates. eapply post_conseq; [apply (Hbody false)| |auto]. cbn beta. intros _ s1 H. now apply post_ret.
      - change (cval_eqb (onoff (bval false)) (CStr (s2l "on"%string))) with true. cbn iota.
        apply post_bind. unfold enable_cstates. eapply post_conseq; [apply (Hbody true)| |auto]. cbn beta. intros _ s1 H. now apply post_ret. }
    eapply post_conseq; [exact Hval| |auto]. cbn beta. intros _ s1 (J1 & J2 & J3).
    apply post_bind. unfold aggr_cstates, post at 1.
    assert (H := info_post mc nst Hok (fun _ _ => False) false (Some r) (CsList [n]) s1 J1). unfold post in H.
    destruct (get_cstates_info mc (Some r) (CsList [n]) s1) as ([it|e], s2).
    - destruct H as (K1 & K2 & _). apply post_ret. split; [exact K1|].
      split; [apply (evolve_trans mc _ s s1 s2 J2); now apply (evolve_weak mc (fun _ _ => False) _ s1 s2)|].
      intros c i Hc. rewrite (proj1 K2) by tauto. now apply J3.
    - destruct H as (K1 & K2 & K3).
      assert (Ev : evolve (touched l n) s s2) by (apply (evolve_trans mc _ s s1 s2 J2); now apply (evolve_weak mc (fun _ _ => False) _ s1 s2)).
      assert (Hbad : ~ (can s /\ forall c, In c l -> In n (own_names mc nst c))).
      { intros (Hcan & Ho). apply (can_evolve _ _ _ J2) in Hcan. apply K3; [apply Hcan|exact Hknown|].
        intros c1 c m _ Hc Ha. apply asked_list in Ha. subst m. apply Ho. now apply Hr. }
      destruct e; try (split; [exact K1|split; [exact Ev|exact Hbad]]).
      apply post_ret. split; [exact K1|]. split; [exact Ev|]. intros c i Hc. rewrite (proj1 K2) by tauto. now apply J3.
  Qed.

  (** An item with a number for the setting. *)
  Lemma raw_item n z t s : fst (restore_item mc n (s2l "value"%string, CInt z, t) s) <> Ok tt /\ snd (restore_item mc n (s2l "value"%string, CInt z, t) s) = s.
  Proof.
    unfold restore_item, mbind, lift. destruct (parse_cpus_string t) as [r|e]; [|split; [discriminate|reflexivity]].
    cbn [cval_eqb]. unfold throw. split; [discriminate|reflexivity].
  Qed.
End Save.
