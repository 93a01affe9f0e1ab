(** Lemmas about the properties cache (C77). *)
From Coq Require Import Ascii String.
From Verif Require Import Base M_Text M_CFreq M_PCache S_PCache L_Base L_Text L_Sysfs.
Open Scope list_scope.
Open Scope Z_scope.

Section Cache.
  Context {V : Type}.
  Notation cache := (cache V).

  Definition at_ (c : cache) (m p : str) (x : Z) : option V := match look c m p x with Ok v => Some v | Exn _ => None end.
  Definition sub (c : cache) (m p : str) : option (list (Z * V)) :=
    match dget str_eqb c m with None => None | Some ps => dget str_eqb ps p end.

  Lemma at_sub c m p x : at_ c m p x = match sub c m p with None => None | Some vs => dget Z.eqb vs x end.
  Proof.
    unfold at_, look, sub. destruct (dget str_eqb c m) as [ps|]; [|reflexivity]. destruct (dget str_eqb ps p) as [vs|]; [|reflexivity].
    destruct (dget Z.eqb vs x); reflexivity.
  Qed.

  Lemma look_at c m p x : look c m p x = match at_ c m p x with Some v => Ok v | None => Exn EKey end.
  Proof.
    unfold at_, look. destruct (dget str_eqb c m) as [ps|]; [|reflexivity]. destruct (dget str_eqb ps p) as [vs|]; [|reflexivity].
    destruct (dget Z.eqb vs x); reflexivity.
  Qed.

  Lemma str_dec' (a b : str) : {a = b} + {a <> b}.
  Proof. apply (list_eq_dec ascii_dec). Qed.

  Lemma pair_dec (m p m' p' : str) : {m' = m /\ p' = p} + {m' <> m \/ p' <> p}.
  Proof. destruct (str_dec' m' m); destruct (str_dec' p' p); auto. Qed.

  (** Replacing the dictionary of one property *)
  Lemma sub_put c m p ps X m' p' : dget str_eqb c m = Some ps ->
    sub (dset str_eqb c m (dset str_eqb ps p X)) m' p' = if pair_dec m p m' p' then Some X else sub c m' p'.
  Proof.
    intros E. unfold sub. destruct (str_dec' m' m) as [->|Nm].
    - rewrite (dget_dset_same _ str_eqb_eq), E. destruct (pair_dec m p m p') as [[_ ->]|[N|N]].
      + apply (dget_dset_same _ str_eqb_eq).
      + congruence.
      + rewrite (dget_dset_other _ str_eqb_eq); [reflexivity|congruence].
    - rewrite (dget_dset_other _ str_eqb_eq) by congruence. destruct (pair_dec m p m' p') as [[N _]|_]; [congruence|reflexivity].
  Qed.

  Lemma sub_del_item c m p x m' p' :
    sub (del_item c m p x) m' p' = if pair_dec m p m' p' then option_map (fun vs => ddel Z.eqb vs x) (sub c m p) else sub c m' p'.
  Proof.
    unfold del_item. destruct (dget str_eqb c m) as [ps|] eqn:E.
    - destruct (dget str_eqb ps p) as [vs|] eqn:Ep.
      + rewrite (sub_put _ _ _ _ _ _ _ E). unfold sub at 2. rewrite E, Ep. reflexivity.
      + destruct (pair_dec m p m' p') as [[-> ->]|_]; [|reflexivity]. unfold sub. rewrite E, Ep. reflexivity.
    - destruct (pair_dec m p m' p') as [[-> ->]|_]; [|reflexivity]. unfold sub. rewrite E. reflexivity.
  Qed.

  Lemma sub_set_item c m p x v m' p' :
    sub (set_item c m p x v) m' p' = if pair_dec m p m' p' then option_map (fun vs => dset Z.eqb vs x v) (sub c m p) else sub c m' p'.
  Proof.
    unfold set_item. destruct (dget str_eqb c m) as [ps|] eqn:E.
    - destruct (dget str_eqb ps p) as [vs|] eqn:Ep.
      + rewrite (sub_put _ _ _ _ _ _ _ E). unfold sub at 2. rewrite E, Ep. reflexivity.
      + destruct (pair_dec m p m' p') as [[-> ->]|_]; [|reflexivity]. unfold sub. rewrite E, Ep. reflexivity.
    - destruct (pair_dec m p m' p') as [[-> ->]|_]; [|reflexivity]. unfold sub. rewrite E. reflexivity.
  Qed.

  Lemma sub_prepare c m p m' p' :
    sub (prepare c m p) m' p' =
    if pair_dec m p m' p' then Some (match sub c m p with Some vs => vs | None => [] end) else sub c m' p'.
  Proof.
    unfold prepare. destruct (dget str_eqb c m) as [ps|] eqn:E.
    - rewrite E. destruct (dget str_eqb ps p) as [vs|] eqn:Ep.
      + destruct (pair_dec m p m' p') as [[-> ->]|_]; [|reflexivity]. unfold sub. rewrite E, Ep. reflexivity.
      + rewrite (sub_put _ _ _ _ _ _ _ E). unfold sub at 2. rewrite E, Ep. reflexivity.
    - rewrite (dget_dset_same _ str_eqb_eq). cbn [dget].
      rewrite (sub_put _ _ _ _ _ _ _ (dget_dset_same _ str_eqb_eq _ _ _)). unfold sub at 2. rewrite E.
      destruct (pair_dec m p m' p') as [_|N]; [reflexivity|]. unfold sub.
      destruct (str_dec' m' m) as [->|Nm]; [rewrite (dget_dset_same _ str_eqb_eq), E; reflexivity|].
      rewrite (dget_dset_other _ str_eqb_eq) by congruence. reflexivity.
  Qed.

  Lemma sub_dels l : forall c m p m' p',
    sub (fold_left (fun c x => del_item c m p x) l c) m' p' =
    if pair_dec m p m' p' then option_map (fun vs => fold_left (fun vs x => ddel Z.eqb vs x) l vs) (sub c m p) else sub c m' p'.
  Proof.
    induction l as [|x t IH]; intros c m p m' p'; cbn [fold_left].
    - destruct (pair_dec m p m' p') as [[-> ->]|_]; [|reflexivity]. destruct (sub c m p); reflexivity.
    - rewrite IH, !sub_del_item. destruct (pair_dec m p m p) as [_|[N|N]]; try congruence.
      destruct (pair_dec m p m' p') as [_|_]; [destruct (sub c m p); reflexivity|reflexivity].
  Qed.

  Lemma sub_sets l v : forall c m p m' p',
    sub (fold_left (fun c x => set_item c m p x v) l c) m' p' =
    if pair_dec m p m' p' then option_map (fun vs => fold_left (fun vs x => dset Z.eqb vs x v) l vs) (sub c m p) else sub c m' p'.
  Proof.
    induction l as [|x t IH]; intros c m p m' p'; cbn [fold_left].
    - destruct (pair_dec m p m' p') as [[-> ->]|_]; [|reflexivity]. destruct (sub c m p); reflexivity.
    - rewrite IH, !sub_set_item. destruct (pair_dec m p m p) as [_|[N|N]]; try congruence.
      destruct (pair_dec m p m' p') as [_|_]; [destruct (sub c m p); reflexivity|reflexivity].
  Qed.

  Lemma get_dels l : forall (vs : list (Z * V)) x, dget Z.eqb (fold_left (fun vs x => ddel Z.eqb vs x) l vs) x = if in_dec Z.eq_dec x l then None else dget Z.eqb vs x.
  Proof.
    induction l as [|y t IH]; intros vs x; cbn [fold_left]; [reflexivity|]. rewrite IH.
    destruct (in_dec Z.eq_dec x t) as [Hi|Hi]; destruct (in_dec Z.eq_dec x (y :: t)) as [Hj|Hj]; try reflexivity.
    - exfalso. apply Hj. right. exact Hi.
    - destruct Hj as [->|Hj]; [|contradiction]. apply dget_ddel_same.
    - apply (dget_ddel_other _ Z.eqb_eq). intros ->. apply Hj. left. reflexivity.
  Qed.

  Lemma get_sets l v : forall (vs : list (Z * V)) x, dget Z.eqb (fold_left (fun vs x => dset Z.eqb vs x v) l vs) x = if in_dec Z.eq_dec x l then Some v else dget Z.eqb vs x.
  Proof.
    induction l as [|y t IH]; intros vs x; cbn [fold_left]; [reflexivity|]. rewrite IH.
    destruct (in_dec Z.eq_dec x t) as [Hi|Hi]; destruct (in_dec Z.eq_dec x (y :: t)) as [Hj|Hj]; try reflexivity.
    - exfalso. apply Hj. right. exact Hi.
    - destruct Hj as [->|Hj]; [|contradiction]. apply (dget_dset_same _ Z.eqb_eq).
    - apply (dget_dset_other _ Z.eqb_eq). intros ->. apply Hj. left. reflexivity.
  Qed.

  (** The effect of a call *)
  Lemma call_at o c m p x :
    (forall v, puts o m p x v -> at_ (pc_call true o c) m p x = Some v) /\
    (drops o m p x -> at_ (pc_call true o c) m p x = None) /\
    ((forall v, ~ puts o m p x v) -> ~ drops o m p x -> at_ (pc_call true o c) m p x = at_ c m p x).
  Proof.
    destruct o as [[p' cpu v' m' s|p' cpu m' s] sib]; unfold pc_call, puts, drops, shares; cbn [fst snd].
    - unfold pc_add, mbind, lift, modify, ret. cbn [negb].
      destruct (sib cpu s) as [l|e]; cbn [snd].
      + rewrite !at_sub, sub_sets, sub_prepare. destruct (pair_dec m' p' m' p') as [_|[N|N]]; try congruence.
        cbn [option_map].
        destruct (pair_dec m' p' m p) as [[-> ->]|N].
        * rewrite get_sets. destruct (in_dec Z.eq_dec x l) as [Hi|Hi].
          -- split; [intros v (_ & _ & -> & _); reflexivity|]. split; [intros []|]. intros Hn. exfalso. apply (Hn v').
             repeat split. exists l. auto.
          -- split; [intros v (_ & _ & _ & l' & El & Hl); injection El as <-; contradiction|]. split; [intros []|]. intros _ _.
             destruct (sub c m' p'); reflexivity.
        * rewrite sub_prepare. destruct (pair_dec m' p' m p) as [[A B]|_]; [subst; destruct N; congruence|].
          split; [intros v (A & B & _); subst; destruct N; congruence|]. split; [intros []|]. reflexivity.
      + split; [intros v (_ & _ & _ & l' & El & _); discriminate|]. split; [intros []|]. reflexivity.
    - unfold pc_remove, mbind, lift, modify, ret, gets, throw. cbn [negb].
      destruct (scope_eqb s SGlobal) eqn:Es.
      + assert (s = SGlobal) as -> by (destruct s; try discriminate; reflexivity).
        split; [intros v []|]. rewrite !at_sub. unfold sub.
        destruct (dget str_eqb c m') as [ps|] eqn:E.
        * destruct (dget str_eqb ps p') as [vs|] eqn:Ep; cbn [snd].
          -- destruct (str_dec' m m') as [->|Nm].
             ++ rewrite (dget_dset_same _ str_eqb_eq), E. destruct (str_dec' p p') as [->|Np].
                ** rewrite dget_ddel_same. split; [reflexivity|]. intros _ Hn. exfalso. apply Hn. auto.
                ** rewrite (dget_ddel_other _ str_eqb_eq) by congruence. split; [intros (A & _); congruence|]. reflexivity.
             ++ rewrite (dget_dset_other _ str_eqb_eq) by congruence. split; [intros (_ & A & _); congruence|]. reflexivity.
          -- split; [|reflexivity]. intros (-> & -> & _). rewrite E, Ep. reflexivity.
        * cbn [snd]. split; [|reflexivity]. intros (-> & -> & _). rewrite E. reflexivity.
      + split; [intros v []|].
        assert (Ns : s <> SGlobal) by (intros ->; discriminate).
        destruct (sib cpu s) as [l|e]; cbn [snd].
        * rewrite !at_sub, sub_dels. destruct (pair_dec m' p' m p) as [[-> ->]|N].
          -- destruct (sub c m' p') as [vs|]; cbn [option_map].
             ++ rewrite get_dels. destruct (in_dec Z.eq_dec x l) as [Hi|Hi].
                ** split; [reflexivity|]. intros _ Hn. exfalso. apply Hn. repeat split. right. exists l. auto.
                ** split; [|reflexivity]. intros (_ & _ & [A|(l' & El & Hl)]); [congruence|]. injection El as <-. contradiction.
             ++ split; reflexivity.
          -- split; [intros (A & B & _); subst; destruct N; congruence|]. reflexivity.
        * split; [|reflexivity]. intros (_ & _ & [A|(l' & El & _)]); [congruence|discriminate].
  Qed.

  Lemma puts_dec (o : pcall V * (Z -> scope -> res (list Z))) m p x : (exists v, puts o m p x v) \/ (forall v, ~ puts o m p x v).
  Proof.
    destruct o as [[p' cpu v' m' s|p' cpu m' s] sib]; unfold puts, shares; cbn [fst snd]; [|right; intros v []].
    destruct (str_dec' p' p) as [->|N]; [|right; intros v (A & _); congruence].
    destruct (str_dec' m' m) as [->|N]; [|right; intros v (_ & A & _); congruence].
    destruct (sib cpu s) as [l|e] eqn:E; [|right; intros v (_ & _ & _ & l & A & _); congruence].
    destruct (in_dec Z.eq_dec x l) as [Hi|Hi].
    - left. exists v'. repeat split. exists l. auto.
    - right. intros v (_ & _ & _ & l' & A & B). injection A as <-. contradiction.
  Qed.

  Lemma drops_dec (o : pcall V * (Z -> scope -> res (list Z))) m p x : drops o m p x \/ ~ drops o m p x.
  Proof.
    destruct o as [[p' cpu v' m' s|p' cpu m' s] sib]; unfold drops, shares; cbn [fst snd]; [right; intros []|].
    destruct (str_dec' p' p) as [->|N]; [|right; intros (A & _); congruence].
    destruct (str_dec' m' m) as [->|N]; [|right; intros (_ & A & _); congruence].
    destruct (scope_eqb s SGlobal) eqn:Es.
    - left. repeat split. left. destruct s; try discriminate; reflexivity.
    - destruct (sib cpu s) as [l|e] eqn:E.
      + destruct (in_dec Z.eq_dec x l) as [Hi|Hi].
        * left. repeat split. right. exists l. auto.
        * right. intros (_ & _ & [A|(l' & A & B)]); [subst; discriminate|]. injection A as <-. contradiction.
      + right. intros (_ & _ & [A|(l' & A & _)]); [subst; discriminate|discriminate].
  Qed.

  Lemma run_snoc en (h : history V) o : pc_run en (h ++ [o]) = pc_call en o (pc_run en h).
  Proof. unfold pc_run. rewrite fold_left_app. reflexivity. Qed.

  Lemma puts_once (o : pcall V * (Z -> scope -> res (list Z))) m p x v v' : puts o m p x v -> puts o m p x v' -> v = v'.
  Proof. destruct o as [[p' cpu w m' s|p' cpu m' s] sib]; unfold puts; cbn [fst]; [intros (_ & _ & -> & _) (_ & _ & -> & _); reflexivity|intros []]. Qed.

  Lemma current_snoc (h : history V) o m p x v :
    current (h ++ [o]) m p x v <-> puts o m p x v \/ (current h m p x v /\ ~ drops o m p x /\ forall v', ~ puts o m p x v').
  Proof.
    split.
    - intros (pre & o1 & post & E & Hp & Hn). destruct post as [|o2 post] using rev_ind.
      + left. apply app_inj_tail in E as [_ ->]. exact Hp.
      + clear IHpost. right. rewrite app_comm_cons, app_assoc in E. apply app_inj_tail in E as [-> ->].
        split; [exists pre, o1, post; split; [reflexivity|]; split; [exact Hp|]; intros o' Ho; apply Hn; apply in_app_iff; left; exact Ho|].
        apply Hn. apply in_app_iff. right. left. reflexivity.
    - intros [Hp|((pre & o1 & post & -> & Hp & Hn) & Hd & Hq)].
      + exists h, o, []. split; [reflexivity|]. split; [exact Hp|]. intros o' [].
      + exists pre, o1, (post ++ [o]). split; [rewrite <- app_assoc; reflexivity|]. split; [exact Hp|].
        intros o' Ho. apply in_app_iff in Ho as [Ho|[<-|[]]]; [apply Hn; exact Ho|split; assumption].
  Qed.

  Lemma at_current (h : history V) m p x v : at_ (pc_run true h) m p x = Some v <-> current h m p x v.
  Proof.
    revert v. induction h as [|o h IH] using rev_ind; intros v.
    - cbn. split; [discriminate|]. intros (pre & o & post & E & _). destruct pre; discriminate.
    - rewrite run_snoc, current_snoc. destruct (call_at o (pc_run true h) m p x) as (A & B & C).
      destruct (puts_dec o m p x) as [(v' & Hp)|Hp].
      + rewrite (A v' Hp). split.
        * intros E. injection E as ->. left. exact Hp.
        * intros [Hq|(_ & _ & Hq)]; [rewrite (puts_once _ _ _ _ _ _ Hq Hp); reflexivity|destruct (Hq v' Hp)].
      + destruct (drops_dec o m p x) as [Hd|Hd].
        * rewrite (B Hd). split; [discriminate|]. intros [Hq|(_ & Hq & _)]; [destruct (Hp v Hq)|contradiction].
        * rewrite (C Hp Hd), IH. split; [intros Hc; right; auto|]. intros [Hq|(Hc & _)]; [destruct (Hp v Hq)|exact Hc].
  Qed.

  Lemma get_current (h : history V) p x m r c' : pc_get true p x m (pc_run true h) = (r, c') ->
    c' = pc_run true h /\ ((exists v, r = Ok v /\ current h m p x v) \/ (r = Exn ENotFound /\ forall v, ~ current h m p x v)).
  Proof.
    unfold pc_get, mbind, gets, throw, lift. rewrite look_at. destruct (at_ (pc_run true h) m p x) as [v|] eqn:E; intros H; injection H as <- <-.
    - split; [reflexivity|]. left. exists v. split; [reflexivity|]. apply at_current. exact E.
    - split; [reflexivity|]. right. split; [reflexivity|]. intros v Hv. apply at_current in Hv. congruence.
  Qed.

  Lemma is_cached_current (h : history V) p x m : exists b, pc_is_cached true p x m (pc_run true h) = (Ok b, pc_run true h) /\
    (b = true <-> exists v, current h m p x v).
  Proof.
    unfold pc_is_cached. destruct (pc_get true p x m (pc_run true h)) as [r c'] eqn:E. apply get_current in E as (-> & [(v & -> & Hv)|(-> & Hn)]).
    - exists true. split; [reflexivity|]. split; [intros _; exists v; exact Hv|reflexivity].
    - exists false. split; [reflexivity|]. split; [discriminate|]. intros (v & Hv). destruct (Hn v Hv).
  Qed.

  Lemma find_in_spec (h : history V) l p x :
    (exists pre m post v, l = pre ++ m :: post /\ find_in (pc_run true h) l p x = Ok (v, m) /\ current h m p x v /\
       forall m' v', In m' pre -> ~ current h m' p x v') \/
    (find_in (pc_run true h) l p x = Exn ENotFound /\ forall m v, In m l -> ~ current h m p x v).
  Proof.
    induction l as [|m t IH]; cbn [find_in].
    - right. split; [reflexivity|]. intros m v [].
    - rewrite look_at. destruct (at_ (pc_run true h) m p x) as [v|] eqn:E.
      + left. exists [], m, t, v. split; [reflexivity|]. split; [reflexivity|]. split; [apply at_current; exact E|]. intros m' v' [].
      + assert (Hn : forall v', ~ current h m p x v') by (intros v' Hv; apply at_current in Hv; congruence).
        destruct IH as [(pre & m1 & post & v & -> & Ef & Hc & Hp)|(Ef & Hp)].
        * left. exists (m :: pre), m1, post, v. split; [reflexivity|]. split; [exact Ef|]. split; [exact Hc|].
          intros m' v' [<-|Hi]; [apply Hn|apply Hp; exact Hi].
        * right. split; [exact Ef|]. intros m' v' [<-|Hi]; [apply Hn|apply Hp; exact Hi].
  Qed.

  Lemma current_key (h : history V) m p x v : current h m p x v -> In m (map fst (pc_run true h)).
  Proof.
    intros Hc. apply at_current in Hc. rewrite at_sub in Hc. unfold sub in Hc.
    destruct (dget str_eqb (pc_run true h) m) as [ps|] eqn:E; [|discriminate]. clear Hc.
    revert E. induction (pc_run true h) as [|[k w] t IH]; cbn [dget map fst]; [discriminate|].
    destruct (str_eqb m k) eqn:Ek; intros E; [left; apply str_eqb_eq in Ek; congruence|right; auto].
  Qed.

  Lemma find_given (h : history V) l p x r c' : pc_find true p x (Some l) (pc_run true h) = (r, c') ->
    c' = pc_run true h /\
    ((exists pre m post v, l = pre ++ m :: post /\ r = Ok (v, m) /\ current h m p x v /\ forall m' v', In m' pre -> ~ current h m' p x v') \/
     (r = Exn ENotFound /\ forall m v, In m l -> ~ current h m p x v)).
  Proof.
    unfold pc_find, mbind, gets, lift. intros H. injection H as <- <-. split; [reflexivity|].
    destruct (find_in_spec h l p x) as [(pre & m & post & v & El & Ef & Hc & Hp)|(Ef & Hp)].
    - left. exists pre, m, post, v. rewrite Ef. auto.
    - right. rewrite Ef. auto.
  Qed.

  Lemma find_any (h : history V) p x r c' : pc_find true p x None (pc_run true h) = (r, c') ->
    c' = pc_run true h /\
    ((exists m v, r = Ok (v, m) /\ current h m p x v) \/ (r = Exn ENotFound /\ forall m v, ~ current h m p x v)).
  Proof.
    unfold pc_find, mbind, gets, lift. intros H. injection H as <- <-. split; [reflexivity|].
    destruct (find_in_spec h (map fst (pc_run true h)) p x) as [(pre & m & post & v & El & Ef & Hc & Hp)|(Ef & Hp)].
    - left. exists m, v. rewrite Ef. auto.
    - right. rewrite Ef. split; [reflexivity|]. intros m v Hc. apply (Hp m v); [eapply current_key; exact Hc|exact Hc].
  Qed.

  Lemma add_result (en : bool) sib p cpu (v : V) m s c r c' : pc_add en sib p cpu v m s c = (r, c') ->
    r = Ok v \/ (en = true /\ (exists e, sib cpu s = Exn e /\ r = Exn e) /\ c' = c).
  Proof.
    unfold pc_add, mbind, lift, modify, ret. destruct en; cbn [negb].
    - destruct (sib cpu s) as [l|e] eqn:E; intros H; injection H as <- <-; [left; reflexivity|right; eauto].
    - intros H. injection H as <- <-. left. reflexivity.
  Qed.

  Lemma remove_result sib p cpu m s (c : cache) r c' : s <> SGlobal -> pc_remove true sib p cpu m s c = (r, c') ->
    r = Ok tt \/ (exists e, sib cpu s = Exn e /\ r = Exn e) /\ c' = c.
  Proof.
    intros Ns. unfold pc_remove, mbind, lift, modify, ret. cbn [negb]. destruct (scope_eqb s SGlobal) eqn:Es; [destruct s; try discriminate; congruence|].
    destruct (sib cpu s) as [l|e] eqn:E; intros H; injection H as <- <-; [left; reflexivity|right; eauto].
  Qed.

  Lemma remove_global_ok (h : history V) sib p cpu m x v : current h m p x v ->
    exists c', pc_remove true sib p cpu m SGlobal (pc_run true h) = (Ok tt, c').
  Proof.
    intros Hc. apply at_current in Hc. rewrite at_sub in Hc. unfold sub in Hc.
    unfold pc_remove, mbind, gets, modify. cbn [negb scope_eqb].
    destruct (dget str_eqb (pc_run true h) m) as [ps|]; [|discriminate]. destruct (dget str_eqb ps p) as [vs|]; [|discriminate].
    eexists. reflexivity.
  Qed.

  Lemma off (h : history V) : (forall p x m, pc_get false p x m (pc_run false h) = (Exn ENotFound, pc_run false h)) /\
    (forall p x l, pc_find false p x l (pc_run false h) = (Exn ENotFound, pc_run false h)) /\
    (forall p x m, pc_is_cached false p x m (pc_run false h) = (Ok false, pc_run false h)) /\
    (forall sib p cpu m s, pc_remove false sib p cpu m s (pc_run false h) = (Ok tt, pc_run false h)) /\ pc_run false h = [].
  Proof.
    repeat (split; [reflexivity|]). induction h as [|o h IH] using rev_ind; [reflexivity|]. rewrite run_snoc, IH.
    destruct o as [[p cpu v m s|p cpu m s] sib]; reflexivity.
  Qed.
End Cache.
