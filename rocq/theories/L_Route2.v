(** Lemmas about what stands behind the properties (C73): writing. *)
From Coq Require Import Ascii String Sorting.Sorted Lia ZifyBool.
From Verif Require Import Base M_Text M_CPUInfo M_Props M_PStates M_CFreq M_Route S_Route L_Base L_Text L_PStates L_Route.
Open Scope list_scope.
Open Scope Z_scope.

(** ** Setting frequencies when reading does not change the state *)

Section Pure.
  Context {W K : Type}.
  Variable io : freq_io W K.
  Hypothesis pure_limit : forall b k w, exists r, f_limit io b k w = (r, w).
  Hypothesis pure_cur : forall b k w, exists r, f_cur io b k w = (r, w).
  Hypothesis pure_special : forall sp k w, exists r, f_special io sp k w = (r, w).

  (** The frequency that a value stands for, once the first key is known to have it. *)
  Definition is_for (w : W) (v : fval) (k : K) (f : Z) : Prop :=
    match v with
    | VNum n => f = n
    | VMin => f_limit io true k w = (Ok f, w)
    | VMax => f_limit io false k w = (Ok f, w)
    | VSpecial sp => f_special io sp k w = (Ok f, w)
    end.
  Definition fits_in (w : W) (b : bool) (k : K) (f : Z) : Prop :=
    exists l h cur, f_limit io true k w = (Ok l, w) /\ f_limit io false k w = (Ok h, w) /\ l <= f <= h /\
      f_cur io (negb b) k w = (Ok cur, w) /\ (if b then f <= cur else cur <= f).

  Lemma later_pure first m (w : W) : (exists r, m w = (r, w)) -> exists r, later first m w = (r, w) /\ forall f, r = Ok f -> m w = (Ok f, w).
  Proof.
    intros (r & E). unfold later. rewrite E. destruct r as [f|e]; [exists (Ok f); split; [reflexivity|intros g [= ->]; reflexivity]|].
    destruct e; eexists; (split; [reflexivity|discriminate]).
  Qed.

  Lemma next_pure v first k w : exists r, next_freq io v first k w = (r, w) /\
    (forall f v', r = Ok (f, v') -> is_for w v k f /\ v' = v \/
       first = true /\ v = VSpecial SEff /\ v' = VMin /\ f_special io SEff k w = (Exn ENotSupported, w) /\ f_limit io true k w = (Ok f, w)).
  Proof.
    assert (L : forall (m : M W Z), (exists r, m w = (r, w)) -> exists r, (let! f := later first m in ret (f, v)) w = (r, w) /\
      forall f v', r = Ok (f, v') -> m w = (Ok f, w) /\ v' = v).
    { intros m Hm. destruct (later_pure first m w Hm) as (r & E & H). unfold mbind. rewrite E. destruct r as [f|e].
      - exists (Ok (f, v)). split; [reflexivity|]. intros g v' [= <- <-]. auto.
      - exists (Exn e). split; [reflexivity|discriminate]. }
    destruct v as [n| | |sp]; cbn [next_freq].
    - exists (Ok (n, VNum n)). split; [reflexivity|]. intros f v' [= <- <-]. left. now split.
    - destruct (L _ (pure_limit true k w)) as (r & E & H). exists r. split; [exact E|]. intros f v' X. left. exact (H f v' X).
    - destruct (L _ (pure_limit false k w)) as (r & E & H). exists r. split; [exact E|]. intros f v' X. left. exact (H f v' X).
    - assert (O : sp <> SEff -> exists r, (let! f := later first (f_special io sp k) in ret (f, VSpecial sp)) w = (r, w) /\
        (forall f v', r = Ok (f, v') -> is_for w (VSpecial sp) k f /\ v' = VSpecial sp \/
         first = true /\ VSpecial sp = VSpecial SEff /\ v' = VMin /\ f_special io SEff k w = (Exn ENotSupported, w) /\ f_limit io true k w = (Ok f, w))).
      { intros _. destruct (L _ (pure_special sp k w)) as (r & E & H). exists r. split; [exact E|]. intros f v' X. left. exact (H f v' X). }
      destruct sp; try (apply O; discriminate).
      destruct (pure_special SEff k w) as (r0 & E0). unfold later at 1. rewrite E0. destruct r0 as [f|e].
      + exists (Ok (f, VSpecial SEff)). split; [reflexivity|]. intros g v' [= <- <-]. left. split; [first [exact E0|reflexivity]|reflexivity].
      + destruct (later_pure first (f_limit io true k) w (pure_limit true k w)) as (r & E & H).
        destruct e; try (eexists; split; [reflexivity|discriminate]). destruct first.
        * unfold mbind. rewrite E. destruct r as [f|e]; [|exists (Exn e); split; [reflexivity|discriminate]].
          exists (Ok (f, VMin)). split; [reflexivity|]. intros g v' [= <- <-]. right. split; [reflexivity|]. split; [reflexivity|]. split; [reflexivity|]. split; [first [exact E0|reflexivity]|now apply H].
        * eexists. split; [reflexivity|discriminate].
  Qed.

  (** One round of the loop. *)
  Lemma round_pure b v first k rest w r w' : validate_freq io b v first (k :: rest) w = (r, w') ->
    (exists e, r = Exn e /\ w' = w) \/
    exists f v' r', next_freq io v first k w = (Ok (f, v'), w) /\ fits_in w b k f /\ validate_freq io b v' false rest w = (r', w') /\
      r = (match r' with Ok l => Ok ((k, f) :: l) | Exn e => Exn e end).
  Proof.
    cbn [validate_freq]. unfold mbind. destruct (next_pure v first k w) as (r1 & E1 & _). rewrite E1.
    destruct r1 as [(f, v')|e]; [|intros [= <- <-]; eauto].
    destruct (later_pure first _ w (pure_limit true k w)) as (r2 & E2 & H2). rewrite E2. destruct r2 as [l|e]; [|intros [= <- <-]; eauto].
    destruct (later_pure first _ w (pure_limit false k w)) as (r3 & E3 & H3). rewrite E3. destruct r3 as [h|e]; [|intros [= <- <-]; eauto].
    destruct (later_pure first _ w (pure_cur (negb b) k w)) as (r4 & E4 & H4). rewrite E4. destruct r4 as [cur|e]; [|intros [= <- <-]; eauto].
    destruct ((f <? l) || (f >? h)) eqn:C1; [intros [= <- <-]; eauto|].
    destruct (if b then f >? cur else f <? cur) eqn:C2; [intros [= <- <-]; eauto|].
    destruct (validate_freq io b v' false rest w) as [r' w''] eqn:E5. intros E.
    right. exists f, v', r'. split; [reflexivity|]. split.
    - exists l, h, cur. repeat split; [now apply H2|now apply H3|lia|lia|now apply H4|destruct b; lia].
    - destruct r' as [l'|e]; injection E as <- <-; (split; [first [exact E5|reflexivity]|reflexivity]).
  Qed.

  Lemma later_rounds b keys : forall v w r w', validate_freq io b v false keys w = (r, w') -> w' = w /\
    (forall l, r = Ok l -> map fst l = keys /\ forall k f, In (k, f) l -> is_for w v k f /\ fits_in w b k f).
  Proof.
    induction keys as [|k rest IH]; intros v w r w' E.
    - injection E as <- <-. split; [reflexivity|]. intros l [= <-]. split; [reflexivity|intros ? ? []].
    - apply round_pure in E as [(e & -> & ->)|(f & v' & r' & En & Hf & E & ->)]; [split; [reflexivity|discriminate]|].
      destruct (next_pure v false k w) as (r1 & E1 & H1). rewrite E1 in En. injection En as ->.
      destruct (H1 f v' eq_refl) as [(Hi & ->)|(X & _)]; [|discriminate].
      destruct (IH _ _ _ _ E) as (-> & H). split; [reflexivity|]. intros l Hl. destruct r' as [l'|e]; [|discriminate].
      injection Hl as <-. destruct (H l' eq_refl) as (Hm & Hin). cbn [map fst]. rewrite Hm. split; [reflexivity|].
      intros k0 f0 [[= <- <-]|Hk]; [split; [exact Hi|exact Hf]|exact (Hin k0 f0 Hk)].
  Qed.

  Lemma rounds b keys v w r w' : validate_freq io b v true keys w = (r, w') -> w' = w /\
    (forall l, r = Ok l -> map fst l = keys /\ forall k f, In (k, f) l -> fits_in w b k f /\
      (is_for w v k f \/ v = VSpecial SEff /\ is_for w VMin k f /\
         exists k0 rest, keys = k0 :: rest /\ f_special io SEff k0 w = (Exn ENotSupported, w))).
  Proof.
    destruct keys as [|k rest]; intros E.
    - injection E as <- <-. split; [reflexivity|]. intros l [= <-]. split; [reflexivity|intros ? ? []].
    - apply round_pure in E as [(e & -> & ->)|(f & v' & r' & En & Hf & E & ->)]; [split; [reflexivity|discriminate]|].
      destruct (next_pure v true k w) as (r1 & E1 & H1). rewrite E1 in En. injection En as ->.
      destruct (later_rounds _ _ _ _ _ _ E) as (-> & H). split; [reflexivity|]. intros l Hl. destruct r' as [l'|e]; [|discriminate].
      injection Hl as <-. destruct (H l' eq_refl) as (Hm & Hin). cbn [map fst]. rewrite Hm. split; [reflexivity|].
      destruct (H1 f v' eq_refl) as [(Hi & ->)|(_ & -> & -> & Hs & Hl)].
      + intros k0 f0 [[= <- <-]|Hk]; [split; [exact Hf|now left]|]. destruct (Hin k0 f0 Hk). split; [assumption|now left].
      + intros k0 f0 [[= <- <-]|Hk].
        * split; [exact Hf|]. right. split; [reflexivity|]. split; [exact Hl|]. now exists k, rest.
        * destruct (Hin k0 f0 Hk). split; [assumption|]. right. split; [reflexivity|]. split; [assumption|]. now exists k, rest.
  Qed.

  Lemma mfor_written b g : forall w w', mfor g (fun fk => f_set io b (fst fk) (snd fk)) w = (Ok tt, w') -> written (f_set io b) g w w'.
  Proof.
    induction g as [|[f ks] g IH]; intros w w' E.
    - injection E as <-. constructor.
    - cbn [mfor] in E. unfold mbind in E. cbn [fst snd] in E. destruct (f_set io b f ks w) as [[[]|e] w1] eqn:E1; [|discriminate].
      eapply written_cons; [exact E1|]. now apply IH.
  Qed.

  Lemma set_ok b v keys w w' : set_freq io b v keys w = (Ok tt, w') ->
    exists want groups, map fst want = keys /\ grouped want groups /\ written (f_set io b) groups w w' /\
      forall k f, In (k, f) want -> fits_in w b k f /\
      (is_for w v k f \/ v = VSpecial SEff /\ is_for w VMin k f /\
         exists k0 rest, keys = k0 :: rest /\ f_special io SEff k0 w = (Exn ENotSupported, w)).
  Proof.
    unfold set_freq, mbind. destruct (validate_freq io b v true keys w) as [[l|e] w1] eqn:E; [|discriminate]. intros Ew.
    destruct (rounds _ _ _ _ _ _ E) as (-> & H). destruct (H l eq_refl) as (Hm & Hin).
    exists l, (freq2keys l). split; [exact Hm|]. split; [|split; [now apply mfor_written|exact Hin]].
    split; [apply freq2keys_nodup|]. intros k f. rewrite freq2keys_in. reflexivity.
  Qed.

  Lemma set_refused b v keys w k : In k keys -> (forall f, ~ fits_in w b k f) -> exists e, set_freq io b v keys w = (Exn e, w).
  Proof.
    intros Hk N. unfold set_freq, mbind. destruct (validate_freq io b v true keys w) as [[l|e] w1] eqn:E;
      destruct (rounds _ _ _ _ _ _ E) as (-> & H); [|eauto].
    exfalso. destruct (H l eq_refl) as (Hm & Hin). rewrite <- Hm in Hk. apply in_map_iff in Hk as ([k' f] & <- & Hk).
    exact (N f (proj1 (Hin _ _ Hk))).
  Qed.
  Lemma set_refused_num b n keys w k : In k keys -> ~ fits_in w b k n -> exists e, set_freq io b (VNum n) keys w = (Exn e, w).
  Proof.
    intros Hk N. unfold set_freq, mbind. destruct (validate_freq io b (VNum n) true keys w) as [[l|e] w1] eqn:E;
      destruct (rounds _ _ _ _ _ _ E) as (-> & H); [|eauto].
    exfalso. destruct (H l eq_refl) as (Hm & Hin). rewrite <- Hm in Hk. apply in_map_iff in Hk as ([k' f] & <- & Hk).
    destruct (Hin _ _ Hk) as (F & [I|(X & _)]); [|discriminate]. cbn in I. subst f. exact (N F).
  Qed.

  Lemma validate_num b n keys : forall first w, (forall k, In k keys -> fits_in w b k n) ->
    validate_freq io b (VNum n) first keys w = (Ok (map (fun k => (k, n)) keys), w).
  Proof.
    induction keys as [|k rest IH]; intros first w H; [reflexivity|]. destruct (H k (or_introl eq_refl)) as (l & h & cur & El & Eh & Hr & Ec & Ho).
    cbn [validate_freq next_freq]. unfold mbind, ret, later. rewrite El, Eh, Ec.
    replace ((n <? l) || (n >? h)) with false by lia. replace (if b then n >? cur else n <? cur) with false by (destruct b; lia).
    rewrite IH by (intros k' Hk; apply H; now right). reflexivity.
  Qed.

  Lemma freq2keys_same n k rest : freq2keys (map (fun k : K => (k, n)) (k :: rest)) = [(n, k :: rest)].
  Proof.
    unfold freq2keys. cbn [map fold_left]. unfold add_freq at 2. cbn.
    assert (G : forall ks, fold_left add_freq (map (fun k : K => (k, n)) rest) [(n, ks)] = [(n, ks ++ rest)]).
    { induction rest as [|x rest IH]; intros ks; cbn [map fold_left]; [now rewrite app_nil_r|].
      unfold add_freq at 2. cbn. rewrite Z.eqb_refl. cbn. rewrite IH. now rewrite <- app_assoc. }
    now rewrite G.
  Qed.

  Lemma set_num b n k rest w w' : (forall k', In k' (k :: rest) -> fits_in w b k' n) -> f_set io b n (k :: rest) w = (Ok tt, w') ->
    set_freq io b (VNum n) (k :: rest) w = (Ok tt, w').
  Proof.
    intros H E. unfold set_freq, mbind. rewrite validate_num by exact H. rewrite freq2keys_same. cbn [mfor]. unfold mbind. cbn [fst snd].
    rewrite E. reflexivity.
  Qed.
End Pure.
