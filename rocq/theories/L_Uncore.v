(** Lemmas about the directories of the uncore frequency driver. *)
From Verif Require Import Base L_Base L_Monad M_Text S_Text L_Text M_Kver S_Kver L_Kver M_Sysfs M_Uncore S_Uncore.
From Coq Require Import ZifyBool.

(** ** Names *)
Lemma fmt02_number n : 0 <= n -> number (fmt02 n) n.
Proof.
  intros H. destruct (dec_numeral n H) as (H1 & H2 & H3 & _). unfold fmt02.
  destruct ((0 <=? n) && (n <? 10)); [|now repeat split].
  split; [discriminate|]. split.
  - constructor; [|exact H2]. unfold is_digit. cbn. lia.
  - unfold spelled in *. cbn [app s2l fold_left list_ascii_of_string]. cbn. exact H3.
Qed.

Lemma not_digit_underscore : ~ is_digit "_".
Proof. unfold is_digit. cbn. lia. Qed.

Lemma parse_legacy_dir p d : 0 <= p -> 0 <= d -> parse_legacy (legacy_dir p d) = Some (p, d).
Proof.
  intros Hp Hd. pose proof (fmt02_number p Hp) as Np. pose proof (fmt02_number d Hd) as Nd.
  unfold parse_legacy, legacy_dir. rewrite lit_app.
  rewrite (digits1_app _ p _ Np).
  2:{ intros c t E. cbn in E. injection E as <- _. exact not_digit_underscore. }
  rewrite lit_app. rewrite <- (app_nil_r (fmt02 d)). rewrite (digits1_app _ d _ Nd) by discriminate.
  rewrite (number_val _ _ Np), (number_val _ _ Nd). reflexivity.
Qed.

Lemma legacy_dir_inj p d p' d' : 0 <= p -> 0 <= d -> 0 <= p' -> 0 <= d' ->
  legacy_dir p d = legacy_dir p' d' -> p = p' /\ d = d'.
Proof.
  intros H1 H2 H3 H4 E. pose proof (parse_legacy_dir p d H1 H2) as A.
  rewrite E, (parse_legacy_dir p' d' H3 H4) in A. injection A. auto.
Qed.

Lemma digits_noslash s : Forall is_digit s -> ~ In "/"%char s.
Proof.
  intros H Hi. rewrite Forall_forall in H. apply H in Hi. unfold is_digit in Hi. cbn in Hi. lia.
Qed.

Lemma noslash_app a b : ~ In "/"%char a -> ~ In "/"%char b -> ~ In "/"%char (a ++ b).
Proof. intros H1 H2 H. apply in_app_or in H. tauto. Qed.

Lemma noslash_lit (s : str) : existsb (Ascii.eqb "/") s = false -> ~ In "/"%char s.
Proof.
  intros H Hi. assert (existsb (Ascii.eqb "/") s = true); [|congruence].
  apply existsb_exists. exists "/"%char. split; [exact Hi|apply Ascii.eqb_refl].
Qed.

Lemma legacy_dir_noslash p d : 0 <= p -> 0 <= d -> ~ In "/"%char (legacy_dir p d).
Proof.
  intros Hp Hd. destruct (fmt02_number p Hp) as (_ & Fp & _). destruct (fmt02_number d Hd) as (_ & Fd & _).
  unfold legacy_dir. repeat apply noslash_app; try (apply noslash_lit; reflexivity);
    now apply digits_noslash.
Qed.

Lemma span_digits_all l d r : span_digits l = (d, r) -> l = d ++ r /\ Forall is_digit d.
Proof.
  revert d r. induction l as [|c l IH]; intros d r E; cbn in E.
  - injection E as <- <-. now split.
  - destruct (digitb c) eqn:Hc.
    + destruct (span_digits l) as [d' r'] eqn:El. injection E as <- <-.
      destruct (IH d' r' eq_refl) as [-> H]. split; [reflexivity|]. constructor; [|exact H].
      now apply digitb_spec.
    + injection E as <- <-. now split.
Qed.

Lemma is_uncore_name_spec dir : is_uncore_name dir = true ->
  exists ds, dir = s2l "uncore" ++ ds /\ ds <> [] /\ Forall is_digit ds.
Proof.
  unfold is_uncore_name. destruct (lit (s2l "uncore") dir) as [l|] eqn:E; [|discriminate].
  apply lit_some in E. unfold digits1. destruct (span_digits l) as [d r] eqn:El.
  apply span_digits_all in El as [-> Hd]. destruct d as [|c d]; [discriminate|].
  destruct r; [|discriminate]. intros _. exists (c :: d). rewrite app_nil_r in E.
  split; [exact E|]. split; [discriminate|exact Hd].
Qed.

Lemma uncore_name_noslash dir : is_uncore_name dir = true -> ~ In "/"%char dir.
Proof.
  intros H. apply is_uncore_name_spec in H as (ds & -> & _ & Hd).
  apply noslash_app; [apply noslash_lit; reflexivity|now apply digits_noslash].
Qed.

Lemma uncore_not_legacy dir p d : is_uncore_name dir = true -> dir <> legacy_dir p d.
Proof. intros H E. apply is_uncore_name_spec in H as (ds & -> & _). discriminate E. Qed.

Lemma split_slash (a b a' b' : str) : ~ In "/"%char a -> ~ In "/"%char a' ->
  a ++ s2l "/" ++ b = a' ++ s2l "/" ++ b' -> a = a' /\ b = b'.
Proof.
  revert a'. induction a as [|c a IH]; intros a' H H' E; destruct a' as [|c' a'].
  - now injection E.
  - cbn in E. injection E as <- _. exfalso. apply H'. now left.
  - cbn in E. injection E as -> _. exfalso. apply H. now left.
  - cbn in E. injection E as <- E. apply (IH a') in E as [-> ->]; [now split| |].
    + intros X. apply H. now right.
    + intros X. apply H'. now right.
Qed.

Lemma uncore_fname_inj key lim key' lim' : uncore_fname key lim = uncore_fname key' lim' ->
  key = key' /\ lim = lim'.
Proof. destruct key, lim, key', lim'; intros E; try discriminate E; now split. Qed.

Lemma uncore_path_inj dir key lim dir' key' lim' : ~ In "/"%char dir -> ~ In "/"%char dir' ->
  uncore_path dir key lim = uncore_path dir' key' lim' -> dir = dir' /\ key = key' /\ lim = lim'.
Proof.
  intros H H' E. unfold uncore_path in E. apply app_inv_head in E. apply app_inv_head in E.
  apply split_slash in E as [-> E]; [|assumption..]. now apply uncore_fname_inj in E as [-> ->].
Qed.

(** ** What is found *)
Definition dm_get (dm : dirmap_t) (p d : Z) : option str :=
  match dget Z.eqb dm p with Some m => dget Z.eqb m d | None => None end.

Lemma dm_get_add p d dir info dm p' d' :
  dm_get (snd (add_die p d dir (info, dm))) p' d' =
  if (p =? p') && (d =? d') then Some dir else dm_get dm p' d'.
Proof.
  cbn. unfold dm_get. destruct (Z.eq_dec p' p) as [->|Hp].
  - rewrite (dget_dset_same _ Zeqb_spec), Z.eqb_refl. cbn [andb]. destruct (Z.eq_dec d' d) as [->|Hd].
    + now rewrite (dget_dset_same _ Zeqb_spec), Z.eqb_refl.
    + rewrite (dget_dset_other _ Zeqb_spec) by assumption. replace (d =? d') with false by lia.
      destruct (dget Z.eqb dm p); reflexivity.
  - rewrite (dget_dset_other _ Zeqb_spec) by assumption. now replace (p =? p') with false by lia.
Qed.

Definition in_info (info : dies_t) (p d : Z) : Prop := exists l, dget Z.eqb info p = Some l /\ In d l.

Lemma in_info_add p d dir info dm p' d' :
  in_info (fst (add_die p d dir (info, dm))) p' d' <-> (p' = p /\ d' = d) \/ in_info info p' d'.
Proof.
  cbn. unfold in_info. destruct (Z.eq_dec p' p) as [->|Hp].
  - rewrite (dget_dset_same _ Zeqb_spec). split.
    + intros (l & E & Hl). injection E as <-. apply in_app_or in Hl as [Hl|[<-|[]]]; [|now left].
      right. destruct (dget Z.eqb info p) as [l|]; [|destruct Hl]. now exists l.
    + intros [[_ ->]|(l & E & Hl)]; (eexists; split; [reflexivity|]).
      * apply in_or_app. right. now left.
      * rewrite E. apply in_or_app. now left.
  - rewrite (dget_dset_other _ Zeqb_spec) by assumption. split; [now right|].
    intros [[? _]|H]; [contradiction|exact H].
Qed.

Definition info_nodup (info : dies_t) : Prop :=
  NoDup (map fst info) /\ forall p l, dget Z.eqb info p = Some l -> NoDup l /\ l <> [].

Lemma info_nodup_add p d dir info dm : info_nodup info -> ~ in_info info p d ->
  info_nodup (fst (add_die p d dir (info, dm))).
Proof.
  intros [H1 H2] Hn. cbn. split; [apply (dset_NoDup _ Zeqb_spec); exact H1|].
  intros q l E. destruct (Z.eq_dec q p) as [->|Hp].
  - rewrite (dget_dset_same _ Zeqb_spec) in E. injection E as <-.
    split; [|intros X; now apply app_eq_nil in X as [_ X]].
    destruct (dget Z.eqb info p) as [l|] eqn:El; [|repeat constructor; intros []].
    apply NoDup_app_disj; [now apply (H2 p)|repeat constructor; intros []|].
    intros x [<-|[]] Hx. apply Hn. now exists l.
  - rewrite (dget_dset_other _ Zeqb_spec) in E by assumption. now apply (H2 q).
Qed.

Lemma info_has_die info p d : NoDup (map fst info) -> (has_die info p d <-> in_info info p d).
Proof.
  intros Hn. unfold has_die, in_info. split; intros (l & H & Hd); exists l; split; auto.
  - now apply (In_dget _ Zeqb_spec).
  - now apply (dget_In _ Zeqb_spec) in H.
Qed.

Section Found.
  Variable e : uenv.

  (** Both interfaces go through the names, and take those with numbers. *)
  Definition ids_of (name : str) : option (Z * Z) :=
    if use_new_api e then
      if is_uncore_name name then match new_ids e name with Ok x => Some x | Exn _ => None end else None
    else parse_legacy name.

  Fixpoint build_all (ls : list str) (b : dies_t * dirmap_t) : dies_t * dirmap_t :=
    match ls with
    | [] => b
    | name :: rest =>
        match ids_of name with
        | Some (p, d) => build_all rest (add_die p d name b)
        | None => build_all rest b
        end
    end.

  Lemma shows_ids dir p d : In dir (ue_ls e) -> shows e dir p d -> ids_of dir = Some (p, d).
  Proof.
    intros _ (_ & H). unfold ids_of. destruct (use_new_api e).
    - destruct H as (-> & a & b & E1 & E2 & E3 & E4). unfold new_ids. rewrite E1. cbn [rbind].
      rewrite E2. cbn [rbind]. rewrite E3. cbn [rbind]. rewrite E4. reflexivity.
    - destruct H as (-> & Hp & Hd). now apply parse_legacy_dir.
  Qed.

  Hypothesis Hw : well_shown e.

  Lemma ids_shows dir p d : In dir (ue_ls e) -> ids_of dir = Some (p, d) -> shows e dir p d.
  Proof.
    intros Hi E. destruct Hw as (_ & Hs & _).
    destruct (Hs dir Hi) as (p' & d' & H).
    { unfold ids_of in E. destruct (use_new_api e); [|congruence].
      destruct (is_uncore_name dir); [reflexivity|discriminate]. }
    pose proof (shows_ids dir p' d' Hi H) as E'. rewrite E in E'. now injection E' as -> ->.
  Qed.

  Lemma found_all : found_dies e = (Ok tt, build_all (ue_ls e) ([], [])).
  Proof.
    unfold found_dies. destruct (use_new_api e) eqn:Hu.
    - assert (G : forall ls, (forall x, In x ls -> In x (ue_ls e)) ->
                forall b, build_new e ls b = (Ok tt, build_all ls b)).
      { induction ls as [|x ls IH]; intros Hi b; [reflexivity|]. cbn [build_new build_all].
        unfold ids_of. rewrite Hu. destruct (is_uncore_name x) eqn:Hx.
        - destruct Hw as (_ & Hs & _). rewrite Hu in Hs.
          destruct (Hs x (Hi x (or_introl eq_refl)) Hx) as (p & d & H).
          assert (E : new_ids e x = Ok (p, d)).
          { pose proof (shows_ids x p d (proj1 H) H) as E. unfold ids_of in E. rewrite Hu, Hx in E.
            destruct (new_ids e x) as [y|]; [|discriminate]. congruence. }
          rewrite E. apply IH. intros y Hy. apply Hi. now right.
        - apply IH. intros y Hy. apply Hi. now right. }
      apply G. auto.
    - f_equal. generalize (ue_ls e) as ls. generalize (@nil (Z * list Z), @nil (Z * list (Z * str))) as b.
      intros b ls. revert b. induction ls as [|x ls IH]; intros b; [reflexivity|].
      cbn [build_legacy build_all]. unfold ids_of. rewrite Hu. destruct (parse_legacy x) as [[p d]|]; apply IH.
  Qed.

  Lemma build_all_facts ls : forall done info dm,
    NoDup (done ++ ls) -> (forall x, In x (done ++ ls) -> In x (ue_ls e)) ->
    info_nodup info ->
    (forall p d, in_info info p d <-> exists dir, In dir done /\ shows e dir p d) ->
    (forall p d dir, dm_get dm p d = Some dir <-> In dir done /\ shows e dir p d) ->
    let b := build_all ls (info, dm) in
    info_nodup (fst b) /\
    (forall p d, in_info (fst b) p d <-> exists dir, In dir (done ++ ls) /\ shows e dir p d) /\
    (forall p d dir, dm_get (snd b) p d = Some dir <-> In dir (done ++ ls) /\ shows e dir p d).
  Proof.
    destruct Hw as (_ & Hs & _ & Hinj).
    induction ls as [|x ls IH]; intros done info dm Hnd Hin Hi1 Hi2 Hi3; cbn zeta; cbn [build_all].
    - rewrite app_nil_r. cbn. auto.
    - assert (Hx : In x (ue_ls e)) by (apply Hin, in_or_app; right; now left).
      assert (Eapp : done ++ x :: ls = (done ++ [x]) ++ ls) by now rewrite <- app_assoc.
      destruct (ids_of x) as [[p d]|] eqn:Ex.
      + pose proof (ids_shows x p d Hx Ex) as Sx.
        assert (Hfresh : ~ in_info info p d).
        { intros Hc. apply Hi2 in Hc as (dir & Hdir & Sd). pose proof (Hinj _ _ _ _ Sd Sx) as ->.
          rewrite Eapp in Hnd. apply NoDup_remove_2 in Hnd || idtac.
          rewrite <- app_assoc in Hnd. cbn in Hnd. apply NoDup_remove_2 in Hnd. apply Hnd, in_or_app. now left. }
        rewrite Eapp in *. destruct (add_die p d x (info, dm)) as [info' dm'] eqn:Ea.
        assert (A1 : info_nodup info') by (replace info' with (fst (add_die p d x (info, dm)));
                                            [now apply info_nodup_add|now rewrite Ea]).
        apply (IH (done ++ [x]) info' dm'); auto.
        * intros p' d'. replace info' with (fst (add_die p d x (info, dm))) by now rewrite Ea.
          rewrite in_info_add, Hi2. split.
          -- intros [[-> ->]|(dir & H1 & H2)]; [exists x|exists dir]; (split; [apply in_or_app|assumption]).
             ++ right. now left.
             ++ now left.
          -- intros (dir & H1 & H2). apply in_app_or in H1 as [H1|[<-|[]]]; [right; now exists dir|left].
             pose proof (shows_ids x p' d' Hx H2) as E2. rewrite Ex in E2. injection E2. auto.
        * intros p' d' dir. replace dm' with (snd (add_die p d x (info, dm))) by now rewrite Ea.
          rewrite dm_get_add. destruct ((p =? p') && (d =? d')) eqn:E.
          -- assert (p' = p /\ d' = d) as [-> ->] by lia. split.
             ++ intros [= <-]. split; [apply in_or_app; right; now left|exact Sx].
             ++ intros [H1 H2]. now rewrite (Hinj _ _ _ _ H2 Sx).
          -- rewrite Hi3. split.
             ++ intros [H1 H2]. split; [apply in_or_app; now left|exact H2].
             ++ intros [H1 H2]. apply in_app_or in H1 as [H1|[<-|[]]]; [now split|].
                pose proof (shows_ids x p' d' Hx H2) as E2. rewrite Ex in E2. injection E2. lia.
      + assert (Hnone : forall p d, ~ shows e x p d).
        { intros p d H. apply (shows_ids x p d Hx) in H. congruence. }
        rewrite Eapp in *. apply (IH (done ++ [x]) info dm); auto.
        * intros p' d'. rewrite Hi2. split; intros (dir & H1 & H2); exists dir; (split; [|exact H2]).
          -- apply in_or_app. now left.
          -- apply in_app_or in H1 as [H1|[<-|[]]]; [exact H1|]. now apply Hnone in H2.
        * intros p' d' dir. rewrite Hi3. split; intros [H1 H2]; (split; [|exact H2]).
          -- apply in_or_app. now left.
          -- apply in_app_or in H1 as [H1|[<-|[]]]; [exact H1|]. now apply Hnone in H2.
  Qed.

  Lemma found_facts : exists info dm, found_dies e = (Ok tt, (info, dm)) /\ dies_nodup info /\
    (forall p l, In (p, l) info -> l <> []) /\
    (forall p d, has_die info p d <-> exists dir, shows e dir p d) /\
    (forall p d dir, dm_get dm p d = Some dir <-> shows e dir p d).
  Proof.
    pose proof (build_all_facts (ue_ls e) [] [] []) as H. cbn zeta in H. rewrite !app_nil_l in H.
    destruct H as ((H1 & H1') & H2 & H3).
    - exact (proj1 Hw).
    - auto.
    - split; [constructor|]. discriminate.
    - intros p d. split; [intros (l & E & _); discriminate|intros (dir & [] & _)].
    - intros p d dir. split; [discriminate|intros [[] _]].
    - rewrite found_all. eexists. eexists. split; [f_equal; apply surjective_pairing|].
      split; [split; [exact H1|]|split; [|split]].
      + intros p l Hp. apply (H1' p). now apply (In_dget _ Zeqb_spec).
      + intros p l Hp. apply (H1' p). now apply (In_dget _ Zeqb_spec).
      + intros p d. rewrite info_has_die by exact H1. rewrite H2. split; intros (dir & H); exists dir.
        * exact (proj2 H).
        * split; [exact (proj1 H)|exact H].
      + intros p d dir. rewrite H3. split; intros H; [exact (proj2 H)|]. split; [exact (proj1 H)|exact H].
  Qed.

  Lemma shows_noslash dir p d : shows e dir p d -> ~ In "/"%char dir.
  Proof.
    intros H. destruct Hw as (_ & _ & Hp & _). pose proof (Hp _ _ _ H) as [H1 H2]. destruct H as (_ & H).
    destruct (use_new_api e).
    - now apply uncore_name_noslash.
    - destruct H as (-> & _). now apply legacy_dir_noslash.
  Qed.

  Lemma shows_one dir p d p' d' : shows e dir p d -> shows e dir p' d' -> p = p' /\ d = d'.
  Proof.
    intros H H'. pose proof (shows_ids _ _ _ (proj1 H) H) as E. rewrite (shows_ids _ _ _ (proj1 H') H') in E.
    now injection E as -> ->.
  Qed.

  Lemma die_file_one p d key lim p' d' key' lim' f : die_file e p d key lim f ->
    die_file e p' d' key' lim' f -> p = p' /\ d = d' /\ key = key' /\ lim = lim'.
  Proof.
    intros (dir & H & ->) (dir' & H' & E).
    apply uncore_path_inj in E as (<- & <- & <-); [|eapply shows_noslash; eassumption..].
    destruct (shows_one _ _ _ _ _ H H'). auto.
  Qed.

  Lemma legacy_path_inj key p lim key' p' lim' : 0 <= p -> 0 <= p' ->
    legacy_path key p 0 lim = legacy_path key' p' 0 lim' -> key = key' /\ p = p' /\ lim = lim'.
  Proof.
    intros H H' E. unfold legacy_path in E.
    apply uncore_path_inj in E as (E & <- & <-); [|apply legacy_dir_noslash; lia..].
    apply legacy_dir_inj in E as [<- _]; auto; lia.
  Qed.

  Lemma new_die_not_legacy p d key lim key' p' d' lim' f : use_new_api e = true -> 0 <= p' -> 0 <= d' ->
    die_file e p d key lim f -> f <> legacy_path key' p' d' lim'.
  Proof.
    intros Hu Hp Hd' (dir & H & ->) E. unfold legacy_path in E.
    apply uncore_path_inj in E as (E & _); [|eapply shows_noslash; eassumption|now apply legacy_dir_noslash].
    destruct H as (_ & H). rewrite Hu in H. destruct H as (H & _). now apply uncore_not_legacy in E.
  Qed.

  Section Paths.
    Context {W : Type}.

    Definition knowing (s : ust W) : ust W := US (us_w s) (us_unlocked s) (Some (snd (found_dies e))).

    Lemma get_built_run (s : ust W) : known e s ->
      get_built e s = (Ok (snd (found_dies e)), knowing s).
    Proof.
      intros [H|H]; unfold get_built, mbind, gets; rewrite H.
      - unfold build_dies_info, knowing. destruct found_facts as (info & dm & -> & _). reflexivity.
      - unfold ret, knowing. rewrite <- H. now destruct s.
    Qed.

    Lemma knowing_known (s : ust W) : known e (knowing s).
    Proof. now right. Qed.

    Lemma new_path_run key p d lim dir (s : ust W) : known e s -> shows e dir p d ->
      new_path e key p d lim s = (Ok (uncore_path dir key lim), knowing s).
    Proof.
      intros Hk Hs. unfold new_path, mbind. rewrite (get_built_run s Hk).
      destruct found_facts as (info & dm & -> & _ & _ & _ & Hdm). cbn [snd].
      pose proof (proj2 (Hdm p d dir) Hs) as E. unfold dm_get in E.
      destruct (dget Z.eqb dm p) as [m|]; [|discriminate]. rewrite E. reflexivity.
    Qed.

    Lemma die_path_run key p d lim dir (s : ust W) : known e s -> shows e dir p d ->
      exists s', die_path e key p d lim s = (Ok (uncore_path dir key lim), s') /\
        us_w s' = us_w s /\ us_unlocked s' = us_unlocked s /\ known e s'.
    Proof.
      intros Hk Hs. unfold die_path. destruct (use_new_api e) eqn:Hu.
      - exists (knowing s). rewrite (new_path_run _ _ _ _ dir) by assumption.
        repeat split. apply knowing_known.
      - destruct Hs as (_ & Hs). rewrite Hu in Hs. destruct Hs as (-> & _). exists s. now repeat split.
    Qed.
  End Paths.
End Found.
