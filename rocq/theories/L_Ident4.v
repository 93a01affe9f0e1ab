(** Lemmas about the caches and the text about dies (C80). *)
From Coq Require Import Ascii String ZifyBool Lia.
From Verif Require Import Base M_Text S_Text M_Human S_Human S_Prelude M_CFreq M_Ident S_Ident L_Base L_Text L_Human L_Prelude L_Ident L_Ident2.
Open Scope list_scope.
Open Scope Z_scope.

Lemma jval_eqb_iff x y : jval_eqb x y = true <-> x = y.
Proof.
  destruct x, y; cbn [jval_eqb]; try (split; [discriminate|intros E; discriminate E]).
  - rewrite str_eqb_eq. split; congruence.
  - rewrite Z.eqb_eq. split; congruence.
  - split; reflexivity.
Qed.

Section Dict.
  Context {K V : Type} (eqb : K -> K -> bool).
  Hypothesis eqb_iff : forall x y, eqb x y = true <-> x = y.

  Lemma dget_absent (d : list (K * V)) k : ~ In k (map fst d) -> dget eqb d k = None.
  Proof.
    induction d as [|[k' v] d IH]; intros H; cbn [dget]; [reflexivity|]. cbn [map fst In] in H.
    destruct (eqb k k') eqn:E; [apply eqb_iff in E; subst; tauto|]. apply IH. tauto.
  Qed.

  Lemma dset_absent (d : list (K * V)) k v : ~ In k (map fst d) -> dset eqb d k v = d ++ [(k, v)].
  Proof.
    induction d as [|[k' v'] d IH]; intros H; cbn [dset app]; [reflexivity|]. cbn [map fst In] in H.
    destruct (eqb k k') eqn:E; [apply eqb_iff in E; subst; tauto|]. f_equal. apply IH. tauto.
  Qed.

  Lemma dset_last (d : list (K * V)) k v w : ~ In k (map fst d) -> dset eqb (d ++ [(k, v)]) k w = d ++ [(k, w)].
  Proof.
    induction d as [|[k' v'] d IH]; intros H; cbn [dset app].
    - now rewrite (proj2 (eqb_iff k k) eq_refl).
    - cbn [map fst In] in H. destruct (eqb k k') eqn:E; [apply eqb_iff in E; subst; tauto|]. f_equal. apply IH. tauto.
  Qed.

  Lemma dget_last (d : list (K * V)) k v : ~ In k (map fst d) -> dget eqb (d ++ [(k, v)]) k = Some v.
  Proof.
    induction d as [|[k' v'] d IH]; intros H; cbn [dget app].
    - now rewrite (proj2 (eqb_iff k k) eq_refl).
    - cbn [map fst In] in H. destruct (eqb k k') eqn:E; [apply eqb_iff in E; subst; tauto|]. apply IH. tauto.
  Qed.

  Lemma dget_in (d : list (K * V)) k v : NoDup (map fst d) -> In (k, v) d -> dget eqb d k = Some v.
  Proof.
    induction d as [|[k' v'] d IH]; intros Hn Hi; [destruct Hi|]. cbn [map fst] in Hn. inversion Hn as [|? ? Hk Hn']; subst. cbn [dget].
    destruct Hi as [[= -> ->]|Hi]; [now rewrite (proj2 (eqb_iff k k) eq_refl)|].
    destruct (eqb k k') eqn:E; [|now apply IH]. apply eqb_iff in E. subst k'. exfalso. apply Hk. apply (in_map fst) in Hi. exact Hi.
  Qed.
End Dict.

Lemma jconvert_reads v w : jreads v w -> jconvert v = Ok w.
Proof.
  intros H. destruct H as [s z H| |c s H|s H|n|]; cbn [jconvert]; try reflexivity.
  - apply py_int_text in H. now rewrite (is_int_num s z H), H.
  - now rewrite is_int_letter.
  - now rewrite is_int_odd.
Qed.

Lemma put_items name c : ~ In name (map fst c) -> forall i i', Forall2 (fun kv kw : str * jval => fst kv = fst kw /\ jreads (snd kv) (snd kw)) i i' ->
  forall done, NoDup (map fst done ++ map fst i) ->
  mfor i (fun kv => let! v := lift (jconvert (snd kv)) in modify (put_value name (fst kv) v)) (c ++ [(name, done)]) = (Ok tt, c ++ [(name, done ++ i')]).
Proof.
  intros Hn i i' H. induction H as [|[k v] [k' w] i i' [Hk Hv] H IH]; intros done Hd; cbn [mfor]; [unfold ret; now rewrite app_nil_r|].
  cbn [fst snd] in *. subst k'. unfold mbind at 1. unfold mbind at 1. unfold lift. rewrite (jconvert_reads _ _ Hv). unfold modify, put_value.
  rewrite (dget_last _ jval_eqb_iff) by exact Hn.
  assert (Hk : ~ In k (map fst done)).
  { intros Hi. cbn [map fst] in Hd. apply NoDup_remove_2 in Hd. apply Hd. apply in_or_app. now left. }
  rewrite (dset_absent _ str_eqb_eq) by exact Hk. rewrite (dset_last _ jval_eqb_iff) by exact Hn.
  specialize (IH (done ++ [(k, w)])). unfold modify in IH. rewrite <- app_assoc in IH. cbn [app] in IH. apply IH.
  rewrite map_app. cbn [map fst]. rewrite <- app_assoc. exact Hd.
Qed.

Lemma add_one c i x : cache_reads i x -> ~ In (fst x) (map fst c) -> add_cache i c = (Ok tt, c ++ [x]).
Proof.
  destruct x as [name i']. intros (Hi & Hn & H) Hx. cbn [fst snd] in *. unfold add_cache.
  rewrite (dget_in _ str_eqb_eq i _ _ Hn Hi). unfold mbind at 1. unfold gets. rewrite (dget_absent _ jval_eqb_iff) by exact Hx.
  unfold mbind at 1. unfold modify at 1. rewrite (dset_absent _ jval_eqb_iff) by exact Hx.
  rewrite (put_items name c Hx i i' H []); [reflexivity|exact Hn].
Qed.

Lemma add_all l cs : Forall2 cache_reads l cs -> forall c, NoDup (map fst c ++ map fst cs) -> mfor l add_cache c = (Ok tt, c ++ cs).
Proof.
  intros H. induction H as [|i x l cs Hi H IH]; intros c Hn; cbn [mfor]; [unfold ret; now rewrite app_nil_r|].
  unfold mbind. rewrite (add_one c i x Hi).
  - rewrite IH; [now rewrite <- app_assoc|]. rewrite map_app. cbn [map]. rewrite <- app_assoc. exact Hn.
  - cbn [map] in Hn. apply NoDup_remove_2 in Hn. intros X. apply Hn. apply in_or_app. now left.
Qed.

Lemma caches_l l cs : Forall2 cache_reads l cs -> NoDup (map fst cs) -> get_cache_info (Ok (Some l)) [] = (Ok cs, cs).
Proof.
  intros H Hn. unfold get_cache_info, mbind, gets, lift. rewrite (add_all l cs H [] Hn). reflexivity.
Qed.

Lemma caches_kept_l cs out : cs <> [] -> get_cache_info out cs = (Ok cs, cs).
Proof. intros H. unfold get_cache_info, mbind, gets, ret. destruct cs; [congruence|reflexivity]. Qed.

(** ** The text about dies *)
Lemma piece_ok x : snd x <> [] -> exists t, dies_piece x = Ok t /\ piece x t.
Proof.
  destruct x as [p [|d [|e l]]]; intros H; [now destruct H| |]; unfold dies_piece; cbn [fst snd]; eexists; (split; [reflexivity|constructor]).
Qed.

Lemma pieces_ok l : Forall (fun x => snd x <> []) l -> exists ps, rmap l dies_piece = Ok ps /\ Forall2 piece l ps.
Proof.
  induction 1 as [|x l Hx H IH]; [exists []; split; [reflexivity|constructor]|]. destruct (piece_ok x Hx) as (t & Et & Ht). destruct IH as (ps & Ep & Hp).
  exists (t :: ps). cbn [rmap]. rewrite Et, Ep. cbn [rbind]. split; [reflexivity|now constructor].
Qed.

Lemma tells_join l ps : Forall2 piece l ps -> (2 <= length l)%nat -> tells l (join_with (s2l ", ") (removelast ps) ++ s2l ", and " ++ last ps []).
Proof.
  intros H. induction H as [|x t l ps Hx H IH]; cbn [length]; [lia|]. intros Hl. destruct H as [|y u l ps Hy H]; [cbn in Hl; lia|].
  destruct H as [|z w l ps Hz H].
  - cbn [removelast join_with last]. now constructor.
  - assert (IH' := IH ltac:(cbn; lia)). clear IH.
    change (removelast (t :: u :: w :: ps)) with (t :: removelast (u :: w :: ps)). change (last (t :: u :: w :: ps) []) with (last (u :: w :: ps) []).
    assert (Hj : join_with (s2l ", ") (t :: removelast (u :: w :: ps)) = t ++ s2l ", " ++ join_with (s2l ", ") (removelast (u :: w :: ps))).
    { change (removelast (u :: w :: ps)) with (u :: removelast (w :: ps)). reflexivity. }
    rewrite Hj, <- !app_assoc. constructor; [exact Hx|exact IH'].
Qed.

Lemma dies_l dies : dies <> [] -> Forall (fun x => snd x <> []) dies -> exists t, dies_to_str dies = Ok t /\ tells dies t.
Proof.
  intros Hne H. destruct (pieces_ok dies H) as (ps & Ep & Hp). unfold dies_to_str. rewrite Ep. cbn [rbind].
  destruct Hp as [|x t l ps Hx Hp]; [congruence|]. destruct Hp as [|y u l ps Hy Hp].
  - exists t. split; [reflexivity|now constructor].
  - eexists. split; [reflexivity|]. apply tells_join; [constructor; [exact Hx|now constructor]|cbn; lia].
Qed.

Lemma dies_fails dies : dies = [] \/ Exists (fun x => snd x = []) dies -> dies_to_str dies = Exn EIndex.
Proof.
  intros [->|H]; [reflexivity|]. unfold dies_to_str. assert (E : rmap dies dies_piece = Exn EIndex); [|now rewrite E].
  induction H as [[p l] dies Hx|x dies H IH].
  - cbn [snd] in Hx. subst l. reflexivity.
  - cbn [rmap]. rewrite IH. destruct x as [p [|d [|e l]]]; reflexivity.
Qed.
