(** Proofs about the datasets and the TPMI specification directories (C78). *)
From Coq Require Import Ascii String Sorted Lia.
From Verif Require Import Base M_Text M_CPUIdle M_Yaml M_ProjFiles S_ProjFiles L_Text L_ProjFiles.
Open Scope list_scope.
Open Scope nat_scope.

Definition common : str := s2l "common".
Definition kept (names : list str) : list str := filter (fun n => negb (str_eqb n common)) names.

Lemma in_kept n names : In n (kept names) <-> In n names /\ n <> common.
Proof.
  unfold kept. rewrite filter_In. destruct (str_eqb n common) eqn:E.
  - apply str_eqb_eq in E. split; [intros [_ H]; discriminate H|intros [_ H]; congruence].
  - split; intros [H _]; (split; [exact H|]); [|reflexivity]. intros ->. unfold str_eqb in E. destruct list_eq_dec; [discriminate|congruence].
Qed.

Lemma plain_under b n : plain n -> pdiv b (mkpath n) = under b n.
Proof. intros H. unfold pdiv, under, pjoin. rewrite H. reflexivity. Qed.

Lemma existsb_in n l : existsb (str_eqb n) l = true <-> In n l.
Proof.
  rewrite existsb_exists. split.
  - intros (x & Hx & E). apply str_eqb_eq in E. subst. exact Hx.
  - intros H. exists n. split; [exact H|]. apply str_eqb_eq. reflexivity.
Qed.

Lemma place_names_ok b names : Forall plain names -> forall seen ys seen',
  place_names b names seen = (ys, Ok seen') ->
  ys = map (under b) (kept names) /\ (forall n, In n seen' <-> In n seen \/ In n (kept names)) /\
  NoDup (kept names) /\ (forall n, In n (kept names) -> ~ In n seen).
Proof.
  induction 1 as [|n t Hn _ IH]; intros seen ys seen' H; cbn [place_names] in H.
  - injection H as <- <-. cbn. repeat split; try tauto. constructor.
  - unfold kept. cbn [filter]. change (s2l "common") with common in H.
    destruct (str_eqb n common) eqn:Ec; cbn [negb]; [apply (IH _ _ _ H)|]. fold (kept t).
    destruct (existsb (str_eqb n) seen) eqn:Es; [discriminate H|].
    destruct (place_names b t (n :: seen)) as [ys1 r1] eqn:Ep. injection H as <- ->.
    destruct (IH _ _ _ Ep) as (-> & Hs & Hnd & Hx). rewrite (plain_under b n Hn). split; [reflexivity|].
    assert (Hns : ~ In n seen) by (rewrite <- existsb_in; congruence).
    split; [|split].
    + intros x. rewrite Hs. cbn [In]. tauto.
    + constructor; [|exact Hnd]. intros Hk. apply (Hx n Hk). now left.
    + intros x [<- |Hk]; [exact Hns|]. intros Hi. apply (Hx x Hk). now right.
Qed.

Lemma place_names_fine b names : Forall plain names -> forall seen,
  NoDup (kept names) -> (forall n, In n (kept names) -> ~ In n seen) ->
  exists ys seen', place_names b names seen = (ys, Ok seen').
Proof.
  induction 1 as [|n t Hn _ IH]; intros seen Hnd Hx; cbn [place_names]; [eauto|].
  unfold kept in Hnd, Hx. cbn [filter] in Hnd, Hx. change (s2l "common") with common.
  destruct (str_eqb n common) eqn:Ec; cbn [negb] in Hnd, Hx; [apply IH; assumption|]. fold (kept t) in Hnd, Hx.
  inversion Hnd as [|? ? Hni Hnd']; subst.
  destruct (existsb (str_eqb n) seen) eqn:Es; [apply existsb_in in Es; destruct (Hx n (or_introl eq_refl) Es)|].
  destruct (IH (n :: seen) Hnd') as (ys & seen' & E).
  { intros x Hk [<- |Hi]; [exact (Hni Hk)|]. exact (Hx x (or_intror Hk) Hi). }
  rewrite E. eauto.
Qed.

Lemma place_names_exn b names : forall seen ys e, place_names b names seen = (ys, Exn e) -> e = EError.
Proof.
  induction names as [|n t IH]; intros seen ys e H; cbn [place_names] in H; [discriminate H|].
  destruct (str_eqb n (s2l "common")); [exact (IH _ _ _ H)|].
  destruct (existsb (str_eqb n) seen); [now injection H as _ <-|].
  destruct (place_names b t (n :: seen)) as [ys1 r1] eqn:Ep. injection H as _ ->. exact (IH _ _ _ Ep).
Qed.

Lemma all_places_ok listdir bases : (forall b names, In b bases -> listdir b = Ok names -> Forall plain names) ->
  forall seen ys r, all_places listdir bases (Ok tt) seen = (ys, r) -> r = Ok tt ->
  exists nl, Forall2 (fun p n => exists b, In b bases /\ dataset_in listdir b n /\ p = under b n) ys nl /\
    NoDup nl /\ (forall n, In n nl -> ~ In n seen) /\
    (forall b n, In b bases -> dataset_in listdir b n -> In (under b n) ys).
Proof.
  intros Hp. induction bases as [|b t IH]; intros seen ys r H Hr; cbn [all_places] in H.
  - injection H as <- _. exists []. repeat split; try constructor; intros; try contradiction.
  - destruct (listdir b) as [names|e] eqn:El; [|injection H as _ <-; discriminate Hr].
    destruct (place_names b names seen) as [ys1 [seen'|e]] eqn:En; [|injection H as _ <-; discriminate Hr].
    destruct (all_places listdir t (Ok tt) seen') as [ys2 r2] eqn:Ea. injection H as <- <-.
    destruct (place_names_ok b names (Hp b names (or_introl eq_refl) El) _ _ _ En) as (-> & Hs & Hnd & Hx).
    destruct (IH (fun b' n' Hb' => Hp b' n' (or_intror Hb')) _ _ _ Ea Hr) as (nl & Hf & Hnl & Hns & Hall).
    exists (kept names ++ nl). split; [|split; [|split]].
    + apply Forall2_app.
      * assert (Hk : forall n, In n (kept names) -> dataset_in listdir b n).
        { intros n Hn. apply in_kept in Hn as [Hn Hc]. exists names. repeat split; assumption. }
        clear - Hk. induction (kept names) as [|n l IHl]; cbn [map]; constructor.
        -- exists b. repeat split; [now left|apply Hk; now left].
        -- apply IHl. intros x Hx. apply Hk. now right.
      * clear - Hf. induction Hf as [|p n l l' (b' & Hb' & Hd & Hu) _ IHf]; constructor; [|exact IHf].
        exists b'. repeat split; [now right|exact Hd|exact Hu].
    + clear - Hnd Hnl Hns Hs. induction (kept names) as [|n l IHl] in Hnd, Hs, Hns |- *; cbn [app]; [exact Hnl|].
      inversion Hnd as [|? ? Hni Hnd']; subst. constructor.
      * intros Hi. apply in_app_or in Hi as [Hi|Hi]; [exact (Hni Hi)|]. apply (Hns n Hi), Hs. right. now left.
      * assert (G : forall l', NoDup l' -> (forall x, In x l' -> ~ In x nl) -> NoDup (l' ++ nl)).
        { clear - Hnl. induction l' as [|x l' IH]; intros H1 H2; [exact Hnl|]. inversion H1; subst. cbn [app]. constructor.
          - intros Hi. apply in_app_or in Hi as [Hi|Hi]; [contradiction|]. exact (H2 x (or_introl eq_refl) Hi).
          - apply IH; [assumption|]. intros y Hy. apply H2. now right. }
        apply G; [exact Hnd'|]. intros x Hx Hi. apply (Hns x Hi), Hs. right. now right.
    + intros n Hn. apply in_app_or in Hn as [Hn|Hn]; [exact (Hx n Hn)|]. intros Hi. apply (Hns n Hn), Hs. now left.
    + intros b' n [<- |Hb'] Hd; apply in_or_app.
      * left. destruct Hd as (names' & El' & Hn & Hc). rewrite El in El'. injection El' as <-.
        apply in_map. apply in_kept. split; assumption.
      * right. apply Hall; assumption.
Qed.

Lemma all_places_fine listdir bases : (forall b, In b bases -> exists names, listdir b = Ok names /\ Forall plain names /\ NoDup names) ->
  NoDup bases ->
  (forall b b' n, In b bases -> In b' bases -> dataset_in listdir b n -> dataset_in listdir b' n -> b = b') ->
  forall seen, (forall b n, In b bases -> dataset_in listdir b n -> ~ In n seen) ->
  snd (all_places listdir bases (Ok tt) seen) = Ok tt.
Proof.
  induction bases as [|b t IH]; intros Hl Hnd Hu seen Hseen; cbn [all_places]; [reflexivity|].
  destruct (Hl b (or_introl eq_refl)) as (names & El & Hp & Hndn). rewrite El.
  assert (Hk : forall n, In n (kept names) -> dataset_in listdir b n).
  { intros n Hn. apply in_kept in Hn as [Hn Hc]. exists names. repeat split; assumption. }
  destruct (place_names_fine b names Hp seen) as (ys & seen' & En).
  { unfold kept. apply NoDup_filter, Hndn. }
  { intros n Hn. apply (Hseen b n (or_introl eq_refl)), Hk, Hn. }
  rewrite En. destruct (place_names_ok b names Hp _ _ _ En) as (_ & Hs & _ & _).
  inversion Hnd as [|? ? Hni Hnd']; subst.
  specialize (IH (fun b' Hb' => Hl b' (or_intror Hb')) Hnd'
    (fun b1 b2 n H1 H2 => Hu b1 b2 n (or_intror H1) (or_intror H2)) seen').
  destruct (all_places listdir t (Ok tt) seen') as [ys2 r2]. cbn [snd] in *. apply IH.
  intros b' n Hb' Hd Hi. apply Hs in Hi as [Hi|Hi]; [exact (Hseen b' n (or_intror Hb') Hd Hi)|].
  assert (b = b') as <- by (apply (Hu b b' n); [now left|now right|apply Hk, Hi|exact Hd]). exact (Hni Hb').
Qed.

Lemma dataset_dir prog h listdir d : ph_is_dir h (mkpath d) = Ok true -> get_next_dataset prog h listdir d = ([mkpath d], Ok tt).
Proof. intros H. unfold get_next_dataset. rewrite H. reflexivity. Qed.

Lemma dataset_named prog h listdir d ys r : ph_remote h = false -> ph_is_dir h (mkpath d) = Ok false -> d <> s2l "all" ->
  get_next_dataset prog h listdir d = (ys, r) ->
  exists x, first_of (data_place prog (ph_env h) (ph_env h) (s2l "pepc") [s2l "PEPC_DATA_PATH"]) (data_at h (s2l "tests/data/" ++ d)) x /\
    ((exists p, x = Ok p /\ ys = [p] /\ r = Ok tt) \/ (exists e, x = Exn e /\ ys = [] /\ r = Exn e)).
Proof.
  intros Hl Hd Ha H. unfold get_next_dataset in H. rewrite Hd in H.
  destruct (str_eqb d (s2l "all")) eqn:E; [apply str_eqb_eq in E; contradiction|].
  pose proof (find_data prog (ph_env h) h (s2l "pepc") (s2l "tests/data/" ++ d) (s2l "PEPC_DATA_PATH") I
                (up_name (s2l "pepc") "_DATA_PATH") (or_introl Hl)) as Hf.
  destruct (find_project_data _ _ _ _ _) as [p|e]; injection H as <- <-; eexists; (split; [exact Hf|]); eauto 6.
Qed.

Lemma bases_iff prog h ys r :
  ph_remote h = false -> (forall p, exists b, ph_exists h p = Ok b) ->
  search_project_data prog (ph_env h) h (s2l "pepc") (s2l "tests/data") [] = (ys, r) ->
  (forall b, In b ys <-> dataset_base prog h b) /\ r = match ys with [] => Exn ENotFound | _ => Ok tt end.
Proof.
  intros Hl Hok H.
  destruct (search_data prog (ph_env h) h (s2l "pepc") (s2l "tests/data") [] ys r I (or_introl Hl)) as (l & _ & Hi & Hf & Hr).
  { intros n q _. apply Hok. } { exact H. }
  assert (Hlen : l = [] <-> ys = []) by (destruct Hf; split; congruence).
  split.
  - intros b. split.
    + intros Hb.
      assert (G : exists n, In n l /\ exists q, data_place prog (ph_env h) (ph_env h) (s2l "pepc") [] n q /\ b = under q (s2l "tests/data")).
      { clear - Hf Hb. induction Hf as [|n p l ys Hq _ IH]; [destruct Hb|]. destruct Hb as [<- |Hb].
        - exists n. split; [now left|exact Hq].
        - destruct (IH Hb) as (m & Hm & Hq'). exists m. split; [now right|exact Hq']. }
      destruct G as (n & Hn & q & Hq & ->). apply Hi in Hn as (q' & Hq' & E).
      assert (q = q') as <-.
      { apply data_slots_place in Hq, Hq'. unfold slot in *. congruence. }
      exists n, q. repeat split; assumption.
    + intros (n & q & Hq & -> & E). assert (Hn : In n l) by (apply Hi; eauto).
      clear Hi Hr Hlen H. induction Hf as [|m p l ys Hp _ IH]; [destruct Hn|]. destruct Hn as [->|Hn]; [|right; exact (IH Hn)].
      left. destruct Hp as (q' & Hq' & ->). f_equal. apply data_slots_place in Hq, Hq'. unfold slot in *. congruence.
  - rewrite Hr. destruct l, ys; try reflexivity; [destruct Hlen as [H1 _]; discriminate (H1 eq_refl)|destruct Hlen as [_ H1]; discriminate (H1 eq_refl)].
Qed.

Lemma dataset_all prog h listdir ys r : ph_remote h = false -> ph_is_dir h (mkpath (s2l "all")) = Ok false ->
  (forall p, exists b, ph_exists h p = Ok b) -> (forall b names, listdir b = Ok names -> Forall plain names) ->
  get_next_dataset prog h listdir (s2l "all") = (ys, r) -> r = Ok tt ->
  (exists b, dataset_base prog h b) /\
  (forall p, In p ys <-> exists b n, dataset_base prog h b /\ dataset_in listdir b n /\ p = under b n) /\
  exists nl, NoDup nl /\ Forall2 (fun p n => exists b, dataset_base prog h b /\ dataset_in listdir b n /\ p = under b n) ys nl.
Proof.
  intros Hl Hd Hok Hpl H Hr. unfold get_next_dataset in H. rewrite Hd in H.
  change (str_eqb (s2l "all") (s2l "all")) with true in H. cbv iota in H.
  destruct (search_project_data prog (ph_env h) h (s2l "pepc") (s2l "tests/data") []) as [bases r0] eqn:Es.
  destruct (bases_iff prog h bases r0 Hl Hok Es) as [Hb Hr0].
  destruct bases as [|b0 t]; [subst r0; cbn in H; injection H as _ <-; discriminate Hr|]. subst r0.
  destruct (all_places_ok listdir (b0 :: t) (fun b names _ => Hpl b names) [] ys r H Hr) as (nl & Hf & Hnd & _ & Hall).
  split; [exists b0; apply Hb; now left|]. split.
  - intros p. split.
    + intros Hp. clear - Hf Hp Hb. induction Hf as [|x n l l' (b & Hi & Hdi & Hu) _ IH]; [destruct Hp|].
      destruct Hp as [<- |Hp]; [|exact (IH Hp)]. exists b, n. repeat split; [apply Hb, Hi|exact Hdi|exact Hu].
    + intros (b & n & Hbb & Hdi & ->). apply Hall; [apply Hb, Hbb|exact Hdi].
  - exists nl. split; [exact Hnd|]. clear - Hf Hb. induction Hf as [|x n l l' (b & Hi & Hdi & Hu) _ IH]; constructor; [|exact IH].
    exists b. repeat split; [apply Hb, Hi|exact Hdi|exact Hu].
Qed.

Lemma dataset_all_none prog h listdir : ph_remote h = false -> ph_is_dir h (mkpath (s2l "all")) = Ok false ->
  (forall p, exists b, ph_exists h p = Ok b) -> (forall b, ~ dataset_base prog h b) ->
  get_next_dataset prog h listdir (s2l "all") = ([], Exn ENotFound).
Proof.
  intros Hl Hd Hok Hno. unfold get_next_dataset. rewrite Hd. change (str_eqb (s2l "all") (s2l "all")) with true. cbv iota.
  destruct (search_project_data prog (ph_env h) h (s2l "pepc") (s2l "tests/data") []) as [bases r0] eqn:Es.
  destruct (bases_iff prog h bases r0 Hl Hok Es) as [Hb Hr0].
  destruct bases as [|b0 t]; [subst; reflexivity|]. destruct (Hno b0). apply Hb. now left.
Qed.

(** The places are different directories. *)
Lemma dataset_all_fine prog h listdir : ph_remote h = false -> ph_is_dir h (mkpath (s2l "all")) = Ok false ->
  (forall p, exists b, ph_exists h p = Ok b) ->
  (exists b, dataset_base prog h b) ->
  (forall b, dataset_base prog h b -> exists names, listdir b = Ok names /\ Forall plain names /\ NoDup names) ->
  (forall n q n' q', data_place prog (ph_env h) (ph_env h) (s2l "pepc") [] n q ->
     data_place prog (ph_env h) (ph_env h) (s2l "pepc") [] n' q' -> q = q' -> n = n') ->
  (forall b b' n, dataset_base prog h b -> dataset_base prog h b' -> dataset_in listdir b n -> dataset_in listdir b' n -> b = b') ->
  snd (get_next_dataset prog h listdir (s2l "all")) = Ok tt.
Proof.
  intros Hl Hd Hok [b1 Hb1] Hls Hinj Hu. unfold get_next_dataset. rewrite Hd. change (str_eqb (s2l "all") (s2l "all")) with true. cbv iota.
  destruct (search_project_data prog (ph_env h) h (s2l "pepc") (s2l "tests/data") []) as [bases r0] eqn:Es.
  destruct (bases_iff prog h bases r0 Hl Hok Es) as [Hb Hr0].
  destruct bases as [|b0 t] eqn:Eb; [destruct (proj2 (Hb b1) Hb1)|]. subst r0. rewrite <- Eb in *.
  apply all_places_fine.
  - intros b Hi. apply Hls, Hb, Hi.
  - destruct (search_data prog (ph_env h) h (s2l "pepc") (s2l "tests/data") [] bases (Ok tt) I (or_introl Hl)) as (l & Hso & _ & Hf & _).
    { intros n q _. apply Hok. } { exact Es. }
    clear - Hso Hf Hinj. induction Hf as [|n p l ys (q & Hq & Hp) Hf IH]; constructor.
    + intros Hi. inversion Hso as [|? ? _ Hlt]; subst.
      assert (G : exists m q', In m l /\ data_place prog (ph_env h) (ph_env h) (s2l "pepc") [] m q' /\ under q (s2l "tests/data") = under q' (s2l "tests/data")).
      { clear - Hf Hi. induction Hf as [|m p l ys (q' & Hq' & Hp') _ IH]; [destruct Hi|]. destruct Hi as [Hi|Hi].
        - exists m, q'. repeat split; [now left|exact Hq'|congruence].
        - destruct (IH Hi) as (m' & q2 & H1 & H2 & H3). exists m', q2. repeat split; [now right|exact H2|exact H3]. }
      destruct G as (m & q' & Hm & Hq' & Heq). rewrite Forall_forall in Hlt. specialize (Hlt m Hm).
      assert (n = m); [|lia]. apply (Hinj n q m q' Hq Hq').
      unfold under in Heq. injection Heq as H1 H2. apply app_inv_tail in H2. destruct q, q'; cbn in *; congruence.
    + apply IH. inversion Hso; assumption.
  - intros b b' n Hi Hi' . apply Hu; apply Hb; assumption.
  - intros b n _ _ [].
Qed.

Lemma spec_dirs_result prog h : ph_remote h = false ->
  exists std, first_of (data_place prog (ph_env h) (ph_env h) (s2l "pepc") [s2l "PEPC_DATA_PATH"]) (data_at h (s2l "tpmi")) std /\
  ((exists d, names (ph_env h) (s2l "PEPC_TPMI_DATA_PATH") d /\ ph_exists h d = Ok true /\ spec_dirs prog h = rbind std (fun s => Ok [d; s])) \/
   (((forall d, ~ names (ph_env h) (s2l "PEPC_TPMI_DATA_PATH") d) \/
     exists d, names (ph_env h) (s2l "PEPC_TPMI_DATA_PATH") d /\ ph_exists h d = Ok false) /\ spec_dirs prog h = rbind std (fun s => Ok [s])) \/
   (exists d e, names (ph_env h) (s2l "PEPC_TPMI_DATA_PATH") d /\ ph_exists h d = Exn e /\ spec_dirs prog h = Exn e)).
Proof.
  intros Hl. exists (find_project_data prog (ph_env h) h (s2l "pepc") (s2l "tpmi")). split.
  { apply find_data; [exact I|exact (up_name (s2l "pepc") "_DATA_PATH")|now left]. }
  unfold spec_dirs. destruct (env_path (ph_env h) (s2l "PEPC_TPMI_DATA_PATH")) as [d|] eqn:E.
  - apply env_path_names in E. destruct (ph_exists h d) as [[]|e] eqn:Ex; cbn [rbind].
    + left. exists d. repeat split; assumption.
    + right. left. split; [right; eauto|reflexivity].
    + right. right. exists d, e. repeat split; assumption.
  - right. left. split; [left; apply env_path_none, E|reflexivity].
Qed.
