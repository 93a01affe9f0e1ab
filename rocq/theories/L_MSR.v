(** Invariants and refinement for MSR access (C04, C05, C06, C43). *)
From Verif Require Import Base L_Base L_Monad M_CPUInfo S_CPUInfo L_CPUInfo M_MSR S_MSR L_Bits.
From Coq Require Import ZifyBool Sorted.

(** ** Lists *)

Lemma find_filter {A} (f g : A -> bool) l :
  (forall x, f x = true -> g x = true) -> find f (filter g l) = find f l.
Proof.
  intros H. induction l as [|x t IH]; cbn; [reflexivity|].
  destruct (g x) eqn:Eg; cbn.
  - now rewrite IH.
  - rewrite IH. destruct (f x) eqn:Ef; [|reflexivity]. rewrite (H x Ef) in Eg. discriminate.
Qed.

Lemma find_dedup f l : find f (dedup l) = find f l.
Proof.
  unfold dedup. induction l as [|x t IH]; cbn; [reflexivity|].
  destruct (f x) eqn:Ef; [reflexivity|]. rewrite <- IH. apply find_filter.
  intros y Hy. destruct (Z.eqb_spec x y) as [->|]; [congruence|reflexivity].
Qed.

Lemma find_app_not {A} (f : A -> bool) p x r :
  (forall y, In y p -> f y = false) -> f x = true -> find f (p ++ x :: r) = Some x.
Proof.
  intros Hp Hx. induction p as [|y p IH]; cbn; [now rewrite Hx|].
  rewrite Hp by (now left). apply IH. intros; apply Hp; now right.
Qed.

(** ** Pending writes *)

Section Views.
  Variable env : menv.
  Notation dom := (me_dom env).

  Definition tentry (s : mstate) (c a : Z) : option tinfo :=
    match dget Z.eqb (ms_tbuf s) c with Some m => dget Z.eqb m a | None => None end.

  Lemma do_writes_snoc ws w hw a d :
    do_writes env (ws ++ [w]) hw a d =
    (if (a =? snd (fst w)) && (d =? dom (snd (fst w)) (fst (fst w)))
     then snd w else do_writes env ws hw a d).
  Proof.
    unfold do_writes. rewrite fold_left_app. destruct w as [[c a'] v]. cbn [fold_left fst snd].
    unfold upd. destruct (Z.eqb_spec a a') as [->|]; cbn [andb]; [|reflexivity].
    destruct (Z.eqb_spec d (dom a' c)); reflexivity.
  Qed.

  Lemma do_writes_some ws hw a d v :
    (exists c w, In (c, a, w) ws /\ dom a c = d) ->
    (forall c w, In (c, a, w) ws -> dom a c = d -> w = v) ->
    do_writes env ws hw a d = v.
  Proof.
    induction ws as [|[[c a'] w] ws IH] using rev_ind; intros Hex Hall.
    - destruct Hex as (? & ? & [] & _).
    - rewrite do_writes_snoc. cbn [fst snd].
      destruct (Z.eqb_spec a a') as [->|Hna]; cbn [andb].
      + destruct (Z.eqb_spec d (dom a' c)) as [->|Hnd].
        * apply (Hall c); [apply in_app_iff; right; now left|reflexivity].
        * apply IH; [|intros c' w' Hin; apply (Hall c'), in_app_iff; now left].
          destruct Hex as (c' & w' & Hin & Hd). apply in_app_iff in Hin.
          destruct Hin as [Hin|[[= <- <-]|[]]]; [eauto|congruence].
      + apply IH; [|intros c' w' Hin; apply (Hall c'), in_app_iff; now left].
        destruct Hex as (c' & w' & Hin & Hd). apply in_app_iff in Hin.
        destruct Hin as [Hin|[H|[]]]; [eauto|inversion H; congruence].
  Qed.

  Lemma do_writes_none ws hw a d :
    (forall c w, In (c, a, w) ws -> dom a c <> d) -> do_writes env ws hw a d = hw a d.
  Proof.
    induction ws as [|[[c a'] w] ws IH] using rev_ind; intros Hall; [reflexivity|].
    rewrite do_writes_snoc. cbn [fst snd].
    destruct (Z.eqb_spec a a') as [->|Hna]; cbn [andb];
      [destruct (Z.eqb_spec d (dom a' c)) as [->|Hnd]|].
    - exfalso. apply (Hall c w); [apply in_app_iff; right; now left|reflexivity].
    - apply IH. intros c' w' Hin. apply (Hall c' w'), in_app_iff. now left.
    - apply IH. intros c' w' Hin. apply (Hall c' w'), in_app_iff. now left.
  Qed.

  Lemma do_writes_ext ws h h' a d :
    (forall a d, h a d = h' a d) -> do_writes env ws h a d = do_writes env ws h' a d.
  Proof.
    intros H. revert a d. induction ws as [|w ws IH] using rev_ind; intros a d; [apply H|].
    rewrite !do_writes_snoc, IH. reflexivity.
  Qed.

  Variable rep : Z -> Z -> Z.
  Variable sc : Z -> scope.

  Record Buf (s : mstate) : Prop := {
    b_nodup : NoDup (map fst (ms_tbuf s));
    b_nodup2 : forall c m, In (c, m) (ms_tbuf s) -> NoDup (map fst m);
    b_rep : forall c a t, tentry s c a = Some t -> c = rep a (dom a c);
    b_ios : forall c a t, tentry s c a = Some t -> ti_ios t = sc a;
    b_onl : forall c a t, tentry s c a = Some t -> In c (ci_online (me_ci env));
    b_tr : ms_intr s = false -> ms_tbuf s = [];
    b_cache : me_cache env = false -> ms_intr s = false }.

  Lemma pending_entry s c a v :
    NoDup (map fst (ms_tbuf s)) -> (forall c m, In (c, m) (ms_tbuf s) -> NoDup (map fst m)) ->
    In (c, a, v) (pending_writes s) <-> exists t, tentry s c a = Some t /\ ti_val t = v.
  Proof.
    intros Hnd Hnd2. unfold pending_writes, tentry. rewrite in_flat_map. split.
    - intros ([c' m] & Hin & Hm). cbn [fst snd] in Hm. apply in_map_iff in Hm.
      destruct Hm as ([a' t] & E & Hr). cbn [fst snd] in E. injection E as -> -> <-.
      exists t. split; [|reflexivity].
      rewrite (In_dget Z.eqb Zeqb_spec _ c m Hnd Hin).
      apply (In_dget Z.eqb Zeqb_spec); [exact (Hnd2 _ _ Hin)|exact Hr].
    - intros (t & E & <-). destruct (dget Z.eqb (ms_tbuf s) c) as [m|] eqn:Em; [|discriminate].
      exists (c, m). split; [now apply (dget_In Z.eqb Zeqb_spec)|]. cbn [fst snd].
      apply in_map_iff. exists (a, t). split; [reflexivity|].
      now apply (dget_In Z.eqb Zeqb_spec).
  Qed.

  Lemma view_entry s c a t :
    Buf s -> tentry s c a = Some t -> view env s a (dom a c) = ti_val t.
  Proof.
    intros B Ht. unfold view. apply do_writes_some.
    - exists c, (ti_val t). split; [|reflexivity]. apply pending_entry; [apply B..|eauto].
    - intros c' w Hin Hd. apply pending_entry in Hin; [|apply B..]. destruct Hin as (t' & Et & <-).
      assert (c' = c).
      { rewrite (b_rep s B c' a t' Et), (b_rep s B c a t Ht). now rewrite Hd. }
      subst c'. congruence.
  Qed.

  Lemma view_hw s a d :
    Buf s -> (forall c t, tentry s c a = Some t -> dom a c <> d) -> view env s a d = ms_hw s a d.
  Proof.
    intros B H. unfold view. apply do_writes_none. intros c w Hin.
    apply pending_entry in Hin; [|apply B..]. destruct Hin as (t & Et & _). eauto.
  Qed.

  Lemma view_nobuf s a d : ms_tbuf s = [] -> view env s a d = ms_hw s a d.
  Proof. intros H. unfold view, pending_writes. rewrite H. reflexivity. Qed.

  (** Either some entry for the register is pending, or none is. *)
  Lemma entry_dec s a d :
    Buf s -> (exists c t, tentry s c a = Some t /\ dom a c = d) \/
             (forall c t, tentry s c a = Some t -> dom a c <> d).
  Proof.
    intros B. destruct (Z.eq_dec (dom a (rep a d)) d) as [Hd|Hd].
    - destruct (tentry s (rep a d) a) as [t|] eqn:E.
      + left. eauto.
      + right. intros c t Et Hc. pose proof (b_rep s B c a t Et) as Hr. rewrite Hc in Hr.
        rewrite <- Hr in E. congruence.
    - right. intros c t Et Hc. pose proof (b_rep s B c a t Et) as Hr. rewrite Hc in Hr.
      rewrite <- Hr in Hd. contradiction.
  Qed.

  (** ** Coherence *)

  Record CohX (X : Z -> Z -> Prop) (s : mstate) : Prop := {
    c_buf : Buf s;
    c_val : forall a c v, In c (ci_online (me_ci env)) -> cache_get env s a c = Some v ->
              view env s a (dom a c) = v;
    c_pend : forall a c t x, tentry s c a = Some t -> In x (ci_online (me_ci env)) ->
               dom a x = dom a c -> X a (dom a c) \/ cache_get env s a x <> None }.

  Definition Coh := CohX (fun _ _ => False).

  (** States that differ in the cache and in the coming faults only. *)
  Record cache_only (s s' : mstate) : Prop := {
    co_hw : ms_hw s' = ms_hw s;
    co_intr : ms_intr s' = ms_intr s;
    co_tbuf : ms_tbuf s' = ms_tbuf s;
    co_log : ms_log s' = ms_log s }.

  Lemma cache_only_refl s : cache_only s s.
  Proof. split; reflexivity. Qed.

  Lemma cache_only_trans s1 s2 s3 : cache_only s1 s2 -> cache_only s2 s3 -> cache_only s1 s3.
  Proof. intros [] []. split; congruence. Qed.

  Lemma cache_only_view s s' a d : cache_only s s' -> view env s' a d = view env s a d.
  Proof. intros [H1 _ H3 _]. unfold view, pending_writes. now rewrite H1, H3. Qed.

  Lemma cache_only_tentry s s' c a : cache_only s s' -> tentry s' c a = tentry s c a.
  Proof. intros [_ _ H _]. unfold tentry. now rewrite H. Qed.

  Lemma cache_only_Buf s s' : cache_only s s' -> Buf s -> Buf s'.
  Proof.
    intros C B. pose proof (cache_only_tentry s s') as T. destruct C, B. split.
    - now rewrite co_tbuf0.
    - rewrite co_tbuf0. eauto.
    - intros c a t. rewrite T by (split; auto). eauto.
    - intros c a t. rewrite T by (split; auto). eauto.
    - intros c a t. rewrite T by (split; auto). eauto.
    - rewrite co_intr0, co_tbuf0. auto.
    - rewrite co_intr0. auto.
  Qed.

  Lemma CohX_weaken (X Y : Z -> Z -> Prop) s : (forall a d, X a d -> Y a d) -> CohX X s -> CohX Y s.
  Proof.
    intros H C. split; [apply C|apply C|]. intros a c t x Ht Hx Hd.
    destruct (c_pend X s C a c t x Ht Hx Hd); auto.
  Qed.

  (** Without pending writes no exemption matters. *)
  Lemma CohX_nobuf X Y s : ms_tbuf s = [] -> CohX X s -> CohX Y s.
  Proof.
    intros H C. split; [apply C|apply C|]. intros a c t x Ht. unfold tentry in Ht.
    rewrite H in Ht. discriminate.
  Qed.

  Lemma Coh_init hw faults : Coh (msr_init hw faults).
  Proof.
    split.
    - split; cbn; try easy. constructor.
    - intros a c v _. unfold cache_get, msr_init. cbn. destruct (me_cache env); discriminate.
    - intros a c t x. unfold tentry. cbn. discriminate.
  Qed.
End Views.

(** ** Cache primitives and reading *)

Section Prims.
  Variable env : menv.
  Notation dom := (me_dom env).
  Notation ci := (me_ci env).
  Notation online := (ci_online (me_ci env)).
  Hypothesis Hwf : wf_ci ci.

  Definition doms (a : Z) (l : list Z) : list Z := map (dom a) l.

  Lemma doms_In a l d : In d (doms a l) <-> exists c, In c l /\ dom a c = d.
  Proof. unfold doms. rewrite in_map_iff. split; intros (c & A & B); exists c; auto. Qed.

  Lemma sibs_right a c sn :
    scope_right env a sn -> In c online ->
    exists l, get_cpu_siblings ci c sn = Ok l /\
              forall x, In x l <-> In x online /\ dom a x = dom a c.
  Proof.
    intros (_ & Hm & Hr) Hc. destruct (siblings_spec_l ci c sn Hwf Hm Hc) as (l & E & _ & I).
    exists l. split; [exact E|]. intros x. now rewrite I, Hr.
  Qed.

  Lemma cache_remove_post a c sn s :
    scope_right env a sn -> In c online ->
    post (cache_remove env a c sn) s
      (fun _ s' => cache_only s s' /\ ms_faults s' = ms_faults s /\
         forall a' x, In x online ->
           cache_get env s' a' x =
           if (a' =? a) && (dom a x =? dom a c) then None else cache_get env s a' x)
      (fun _ _ => False).
  Proof.
    intros Hr Hc. unfold cache_remove. destruct (me_cache env) eqn:Ec; cbn [negb].
    - destruct (sibs_right a c sn Hr Hc) as (l & El & Il).
      assert (Hpost : post (let! sibs := lift (get_cpu_siblings (me_ci env) c sn) in
        modify (fun s => match ms_cache s a with
                         | None => s
                         | Some m => set_cache (upd (ms_cache s) a
                                        (Some (fun x => if inb x sibs then None else m x))) s
                         end)) s
        (fun _ s' => cache_only s s' /\ ms_faults s' = ms_faults s /\
         forall a' x, In x online ->
           cache_get env s' a' x =
           if (a' =? a) && (dom a x =? dom a c) then None else cache_get env s a' x)
        (fun _ _ => False)).
      { rewrite El. unfold post, mbind, lift, modify.
        destruct (ms_cache s a) as [m|] eqn:Em.
        - split; [split; reflexivity|]. split; [reflexivity|]. intros a' x Hx.
          unfold cache_get. rewrite Ec. cbn [ms_cache set_cache]. unfold upd.
          destruct (Z.eqb_spec a' a) as [->|Hna]; cbn [andb]; [|reflexivity].
          rewrite Em. destruct (inb x l) eqn:Eb.
          + apply inb_In, Il in Eb. destruct Eb as (_ & ->). now rewrite Z.eqb_refl.
          + apply inb_false in Eb. destruct (Z.eqb_spec (dom a x) (dom a c)); [|reflexivity].
            exfalso. apply Eb, Il. auto.
        - split; [split; reflexivity|]. split; [reflexivity|]. intros a' x Hx.
          unfold cache_get. rewrite Ec.
          destruct (Z.eqb_spec a' a) as [->|Hna]; cbn [andb]; [|reflexivity].
          rewrite Em. now destruct (_ =? _). }
      destruct Hr as (Hng & _). destruct sn; try exact Hpost. contradiction.
    - apply post_ret. split; [apply cache_only_refl|]. split; [reflexivity|].
      intros a' x Hx. unfold cache_get. rewrite Ec. now destruct (_ && _).
  Qed.

  Lemma cache_add_post a c v sn s :
    scope_right env a sn -> In c online ->
    post (cache_add env a c v sn) s
      (fun _ s' => cache_only s s' /\ ms_faults s' = ms_faults s /\
         forall a' x, In x online ->
           cache_get env s' a' x =
           if me_cache env && (a' =? a) && (dom a x =? dom a c) then Some v
           else cache_get env s a' x)
      (fun _ _ => False).
  Proof.
    intros Hr Hc. unfold cache_add. destruct (me_cache env) eqn:Ec; cbn [negb].
    - destruct (sibs_right a c sn Hr Hc) as (l & El & Il). rewrite El.
      unfold post, mbind, lift, modify. split; [split; reflexivity|]. split; [reflexivity|].
      intros a' x Hx. unfold cache_get. rewrite Ec. cbn [ms_cache set_cache andb]. unfold upd.
      destruct (Z.eqb_spec a' a) as [->|Hna]; cbn [andb]; [|reflexivity].
      destruct (inb x l) eqn:Eb.
      + apply inb_In, Il in Eb. destruct Eb as (_ & ->). now rewrite Z.eqb_refl.
      + apply inb_false in Eb. destruct (Z.eqb_spec (dom a x) (dom a c)).
        * exfalso. apply Eb, Il. auto.
        * now destruct (ms_cache s a).
    - apply post_ret. split; [apply cache_only_refl|]. split; [reflexivity|]. reflexivity.
  Qed.

  Lemma hw_read_post a c s :
    post (hw_read env a c) s
      (fun v s' => v = ms_hw s a (dom a c) /\ cache_only s s' /\ ms_cache s' = ms_cache s)
      (fun _ s' => cache_only s s' /\ ms_cache s' = ms_cache s).
  Proof.
    unfold hw_read, io, post, mbind, gets.
    destruct (ms_faults s) as [|[|] f]; cbn; repeat split; auto.
  Qed.

  Lemma cache_get_ext s s' a c : ms_cache s' = ms_cache s -> cache_get env s' a c = cache_get env s a c.
  Proof. intros H. unfold cache_get. now rewrite H. Qed.

  (** Reading one CPU, on any hardware. *)
  Lemma read_one_any a sn c s :
    scope_right env a sn -> In c online ->
    post (read_one env a sn c) s
      (fun cv s' => fst cv = c /\ cache_only s s' /\
         ((cache_get env s a c = Some (snd cv) /\ s' = s) \/
          (cache_get env s a c = None /\ snd cv = ms_hw s a (dom a c) /\
           forall a' x, In x online ->
             cache_get env s' a' x =
             if me_cache env && (a' =? a) && (dom a x =? dom a c) then Some (snd cv)
             else cache_get env s a' x)))
      (fun _ s' => cache_only s s' /\ ms_cache s' = ms_cache s).
  Proof.
    intros Hr Hc. unfold read_one. apply post_bind, post_gets.
    destruct (cache_get env s a c) as [v|] eqn:Eg.
    - apply post_ret. cbn [fst snd]. split; [reflexivity|]. split; [apply cache_only_refl|]. auto.
    - apply post_bind. eapply post_conseq; [apply hw_read_post| |auto].
      intros v s1 (-> & C1 & E1). apply post_bind.
      eapply post_conseq; [apply cache_add_post; eauto| |].
      + intros u s2 (C2 & F2 & G2). apply post_ret. cbn [fst snd]. split; [reflexivity|].
        split; [eapply cache_only_trans; eauto|]. right. split; [reflexivity|].
        split; [reflexivity|]. intros a' x Hx. rewrite G2 by exact Hx.
        now rewrite (cache_get_ext s s1 a' x E1).
      + intros e s2 [].
  Qed.

  (** Writing back and reading, on any hardware: a successful verification means that the register
      holds the value. *)
  Lemma removes_post a l sn s :
    scope_right env a sn -> (forall c, In c l -> In c online) ->
    post (mfor l (fun c => cache_remove env a c sn)) s
      (fun _ s' => cache_only s s' /\ ms_faults s' = ms_faults s /\
         forall a' x, In x online ->
           cache_get env s' a' x =
           if (a' =? a) && inb (dom a x) (doms a l) then None else cache_get env s a' x)
      (fun _ _ => False).
  Proof.
    intros Hr Hl.
    apply (post_mfor _ (fun p s' => cache_only s s' /\ ms_faults s' = ms_faults s /\
         forall a' x, In x online ->
           cache_get env s' a' x =
           if (a' =? a) && inb (dom a x) (doms a p) then None else cache_get env s a' x)).
    - intros p c r El s1 (C1 & F1 & G1). eapply post_conseq; [apply cache_remove_post; [exact Hr|]| |auto].
      { apply Hl. rewrite El. apply in_app_iff. right. now left. }
      intros u s2 (C2 & F2 & G2). split; [eapply cache_only_trans; eauto|]. split; [congruence|].
      intros a' x Hx. rewrite G2, G1 by exact Hx. unfold doms. rewrite map_app. cbn [map].
      destruct (a' =? a); cbn [andb]; [|reflexivity].
      destruct (Z.eqb_spec (dom a x) (dom a c)) as [E|E].
      + rewrite (proj2 (inb_In _ _)); [reflexivity|]. apply in_app_iff. right. left. auto.
      + destruct (inb (dom a x) (map (dom a) p)) eqn:Eb.
        * rewrite (proj2 (inb_In _ _)); [reflexivity|]. apply in_app_iff. left. now apply inb_In.
        * rewrite (proj2 (inb_false _ _)); [reflexivity|]. rewrite in_app_iff. cbn.
          apply inb_false in Eb. intros [H|[H|[]]]; congruence.
    - split; [apply cache_only_refl|]. split; [reflexivity|]. intros a' x Hx. cbn.
      now rewrite andb_false_r.
  Qed.

  Lemma verify_any a v l sn s :
    scope_right env a sn -> (forall c, In c l -> In c online) ->
    post (verify env a v l sn) s
      (fun _ s' => cache_only s s' /\ forall c, In c l -> ms_hw s' a (dom a c) = v)
      (fun _ s' => cache_only s s').
  Proof.
    intros Hr Hl. unfold verify. apply post_bind.
    eapply post_conseq; [apply removes_post; eauto| |intros e s1 []].
    intros u s1 (C1 & _ & G1).
    set (I := fun (p : list Z) s' => cache_only s s' /\
      (forall c x, In c l -> cache_get env s' a c = Some x -> x = ms_hw s a (dom a c)) /\
      forall c, In c p -> ms_hw s a (dom a c) = v).
    eapply post_conseq.
    - apply (post_mfor _ I (fun _ s' => cache_only s s')).
      + intros p c r El s2 (C2 & G2 & V2).
        assert (Hc : In c l) by (rewrite El; apply in_app_iff; right; now left).
        apply post_bind. eapply post_conseq; [apply read_one_any; eauto| |].
        * intros [c' x] s3 (Hcc & C3 & H3). cbn [fst snd] in *. subst c'.
          assert (Hx : x = ms_hw s a (dom a c)).
          { destruct H3 as [(E & _)|(_ & E & _)]; [eauto|]. rewrite E.
            now rewrite (co_hw _ _ C2). }
          destruct (Z.eqb_spec x v) as [Ev|Ev].
          -- apply post_ret. split; [eapply cache_only_trans; eauto|]. split.
             ++ intros y z Hy Ez. destruct H3 as [(_ & ->)|(_ & _ & G3)]; [eauto|].
                rewrite G3 in Ez by auto.
                destruct (me_cache env && (a =? a) && (dom a y =? dom a c)) eqn:Eb; [|eauto].
                injection Ez as <-. rewrite Hx.
                apply andb_prop in Eb. destruct Eb as (_ & Eb). apply Z.eqb_eq in Eb.
                now rewrite Eb.
             ++ intros y Hy. apply in_app_iff in Hy. destruct Hy as [Hy|[<-|[]]]; [auto|congruence].
          -- apply post_throw. eapply cache_only_trans; eauto.
        * intros e s3 (C3 & _). eapply cache_only_trans; eauto.
      + split; [exact C1|]. split; [|intros ? []].
        intros c x Hc Ex. rewrite G1 in Ex by auto. rewrite Z.eqb_refl in Ex. cbn [andb] in Ex.
        rewrite (proj2 (inb_In _ _)) in Ex; [discriminate|]. apply doms_In. eauto.
    - intros u2 s2 (C2 & _ & V2). split; [exact C2|]. intros c Hc. rewrite (co_hw _ _ C2). auto.
    - auto.
  Qed.
End Prims.

Section Coherence.
  Variable env : menv.
  Notation dom := (me_dom env).
  Notation ci := (me_ci env).
  Notation online := (ci_online (me_ci env)).
  Variable rep : Z -> Z -> Z.
  Variable sc : Z -> scope.
  Notation Coh := (Coh env rep sc).
  Notation CohX := (CohX env rep sc).
  Notation Buf := (Buf env rep sc).
  Hypothesis Hwf : wf_ci ci.
  Hypothesis Hsc : forall a, scope_right env a (sc a).

  (** Adding to the cache a value that is right. *)
  Lemma Coh_cache_change (X Y : Z -> Z -> Prop) s s' :
    cache_only s s' -> CohX X s ->
    (forall a x v, In x online -> cache_get env s' a x = Some v ->
                   cache_get env s a x = Some v \/ v = view env s a (dom a x)) ->
    (forall a x, In x online -> cache_get env s a x <> None -> cache_get env s' a x <> None \/ Y a (dom a x)) ->
    (forall a x, In x online -> X a (dom a x) -> Y a (dom a x) \/ cache_get env s' a x <> None) ->
    CohX Y s'.
  Proof.
    intros C H Hv Hk Hx. split.
    - eapply cache_only_Buf; [exact C|]. apply H.
    - intros a c v Hc E. rewrite (cache_only_view env _ _ _ _ C).
      destruct (Hv a c v Hc E) as [H1|H1]; [|auto]. now apply (c_val _ _ _ _ _ H).
    - intros a c t x Ht Hxo Hd. rewrite (cache_only_tentry _ _ _ _ C) in Ht.
      destruct (c_pend _ _ _ _ _ H a c t x Ht Hxo Hd) as [H1|H1].
      + rewrite <- Hd in *. apply Hx; auto.
      + destruct (Hk a x Hxo H1) as [H2|H2]; [now right|left; now rewrite <- Hd].
  Qed.

  Lemma read_one_post a c s :
    In c online -> Coh s ->
    post (read_one env a (sc a) c) s
      (fun cv s' => cv = (c, view env s a (dom a c)) /\ cache_only s s' /\ Coh s')
      (fun _ s' => cache_only s s' /\ Coh s').
  Proof.
    intros Hc H. eapply post_conseq; [apply (read_one_any env Hwf a (sc a) c s (Hsc a) Hc)| |].
    - intros [c' v] s' (Ec & C & Hcase). cbn [fst snd] in *. subst c'.
      destruct Hcase as [(E & ->)|(E & Ev & G)].
      + rewrite (c_val _ _ _ _ _ H a c v Hc E). auto.
      + assert (Evw : v = view env s a (dom a c)).
        { rewrite Ev. symmetry. eapply view_hw; [apply H|]. intros c1 t Ht Hd.
          destruct (c_pend _ _ _ _ _ H a c1 t c Ht Hc (eq_sym Hd)) as [[]|Hn]. contradiction. }
        split; [now rewrite Evw|]. split; [exact C|].
        eapply Coh_cache_change; [exact C|exact H| | |intros ? ? ? []].
        * intros a' x w Hx Ew. rewrite G in Ew by exact Hx.
          destruct (me_cache env && (a' =? a) && (dom a x =? dom a c)) eqn:Eb; [|auto].
          injection Ew as <-. right. rewrite Evw.
          apply andb_prop in Eb. destruct Eb as (Eb & Ed). apply andb_prop in Eb.
          destruct Eb as (_ & Ea). apply Z.eqb_eq in Ed, Ea. subst a'. now rewrite Ed.
        * intros a' x Hx Hn. left. rewrite G by exact Hx. destruct (_ && _ && _); [discriminate|auto].
    - intros e s' (C & Em). split; [exact C|].
      eapply Coh_cache_change; [exact C|exact H| | |intros ? ? ? []].
      + intros a' x w Hx Ew. rewrite (cache_get_ext env s s' a' x Em) in Ew. auto.
      + intros a' x Hx Hn. left. now rewrite (cache_get_ext env s s' a' x Em).
  Qed.

  Lemma normalized_online cpus l :
    normalize_cpus ci cpus false = Ok l -> forall c, In c l -> In c online.
  Proof.
    destruct cpus as [l0|]; intros E c Hc.
    - destruct (normalize_cpus_ok_l ci l0 false l E) as (_ & H & _). exact (H c Hc).
    - injection E as <-. now rewrite zsort_In in Hc.
  Qed.

  Lemma normalized_targets cpus l :
    normalize_cpus ci cpus false = Ok l -> forall c, In c l <-> In c (targets env cpus).
  Proof.
    destruct cpus as [l0|]; intros E c.
    - destruct (normalize_cpus_ok_l ci l0 false l E) as (H & _). apply H.
    - injection E as <-. apply zsort_In.
  Qed.

  Lemma normalized_find cpus l f :
    normalize_cpus ci cpus false = Ok l -> find f l = find f (ordered_targets env cpus).
  Proof.
    destruct cpus as [l0|]; intros E.
    - apply normalize_in_ok in E. destruct E as (-> & _). apply find_dedup.
    - injection E as <-. reflexivity.
  Qed.

  Lemma read_cpus_post a l s :
    (forall c, In c l -> In c online) -> Coh s ->
    post (read_cpus env a l (sc a)) s
      (fun r s' => r = map (fun c => (c, view env s a (dom a c))) l /\ cache_only s s' /\ Coh s')
      (fun _ s' => cache_only s s' /\ Coh s').
  Proof.
    intros Hl H. unfold read_cpus.
    apply (post_mmap _ (fun p q s' =>
      q = map (fun c => (c, view env s a (dom a c))) p /\ cache_only s s' /\ Coh s')).
    - intros p c r El q s1 (-> & C1 & H1).
      eapply post_conseq; [apply read_one_post; [|exact H1]| |].
      + apply Hl. rewrite El. apply in_app_iff. right. now left.
      + intros y s2 (-> & C2 & H2). split; [|split; [eapply cache_only_trans; eauto|exact H2]].
        rewrite map_app. cbn [map]. now rewrite (cache_only_view env _ _ _ _ C1).
      + intros e s2 (C2 & H2). split; [eapply cache_only_trans; eauto|exact H2].
    - split; [reflexivity|]. split; [apply cache_only_refl|exact H].
  Qed.

  Lemma read_post a cpus s :
    Coh s ->
    post (read env a cpus (sc a)) s
      (fun r s' => (exists l, normalize_cpus ci cpus false = Ok l /\
                    r = map (fun c => (c, view env s a (dom a c))) l) /\ cache_only s s' /\ Coh s')
      (fun _ s' => cache_only s s' /\ Coh s').
  Proof.
    intros H. unfold read. apply post_bind, post_lift.
    - intros l El. eapply post_conseq; [apply read_cpus_post; [|exact H]| |].
      + exact (normalized_online cpus l El).
      + intros r s' (-> & C & H'). eauto.
      + auto.
    - intros e _. split; [apply cache_only_refl|exact H].
  Qed.

  Lemma removes_Coh (X : Z -> Z -> Prop) a l s :
    (forall c, In c l -> In c online) -> CohX X s ->
    post (mfor l (fun c => cache_remove env a c (sc a))) s
      (fun _ s' => cache_only s s' /\
         CohX (fun a' d => X a' d \/ (a' = a /\ In d (doms env a l))) s' /\
         forall a' x, In x online ->
           cache_get env s' a' x =
           if (a' =? a) && inb (dom a x) (doms env a l) then None else cache_get env s a' x)
      (fun _ _ => False).
  Proof.
    intros Hl H. eapply post_conseq; [apply (removes_post env Hwf a l (sc a) s (Hsc a) Hl)| |auto].
    intros u s' (C & _ & G). split; [exact C|]. split; [|exact G].
    eapply Coh_cache_change; [exact C|exact H| | |].
    - intros a' x v Hx E. rewrite G in E by exact Hx. destruct (_ && _); [discriminate|auto].
    - intros a' x Hx Hn. rewrite G by exact Hx.
      destruct (Z.eqb_spec a' a) as [->|Hna]; cbn [andb]; [|auto].
      destruct (inb (dom a x) (doms env a l)) eqn:Eb; [|auto].
      right. right. apply inb_In in Eb. auto.
    - intros a' x Hx HX. left. left. exact HX.
  Qed.

  Lemma verify_post a v l s :
    (forall c, In c l -> In c online) -> Coh s -> ms_tbuf s = [] ->
    post (verify env a v l (sc a)) s
      (fun _ s' => cache_only s s' /\ Coh s' /\ forall c, In c l -> ms_hw s' a (dom a c) = v)
      (fun _ s' => cache_only s s' /\ Coh s').
  Proof.
    intros Hl H Hb.
    assert (P : post (verify env a v l (sc a)) s
      (fun _ s' => cache_only s s' /\ Coh s') (fun _ s' => cache_only s s' /\ Coh s')).
    { unfold verify. apply post_bind.
      eapply post_conseq; [apply removes_Coh; eauto| |intros e s1 []].
      intros u s1 (C1 & H1 & _).
      assert (H1' : Coh s1).
      { eapply CohX_nobuf; [|exact H1]. now rewrite (co_tbuf _ _ C1). }
      apply (post_mfor _ (fun p s' => cache_only s s' /\ Coh s')); [|auto].
      intros p c r El s2 (C2 & H2).
      apply post_bind. eapply post_conseq; [apply read_one_post; [|exact H2]| |].
      - apply Hl. rewrite El. apply in_app_iff. right. now left.
      - intros [c' x] s3 (_ & C3 & H3). destruct (x =? v).
        + apply post_ret. split; [eapply cache_only_trans; eauto|exact H3].
        + apply post_throw. split; [eapply cache_only_trans; eauto|exact H3].
      - intros e s3 (C3 & H3). split; [eapply cache_only_trans; eauto|exact H3]. }
    eapply post_conseq; [apply (post_and _ _ _ _ _ _ P (verify_any env Hwf a v l (sc a) s (Hsc a) Hl))| |].
    - intros u s' ((C & H') & (_ & V)). auto.
    - intros e s' (H' & _). exact H'.
  Qed.
End Coherence.
