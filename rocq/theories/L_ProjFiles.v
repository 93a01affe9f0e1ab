(** Proofs about the search for data directories, helper programs and datasets (C78). *)
From Coq Require Import Ascii String Sorted Lia.
From Verif Require Import Base M_Text M_CPUIdle M_Yaml M_ProjFiles S_ProjFiles L_Text.
Open Scope list_scope.
Open Scope nat_scope.

(** ** Slots: one per place, perhaps empty *)
Definition full (slots : list (option ppath)) : list ppath := flat_map olist slots.
Definition slot (slots : list (option ppath)) (n : nat) (q : ppath) : Prop := nth_error slots n = Some (Some q).

Fixpoint search1 (probe : ppath -> res (option ppath)) (l : list ppath) : res ppath :=
  match l with
  | [] => Exn ENotFound
  | p :: t => match probe p with Ok (Some x) => Ok x | Ok None => search1 probe t | Exn e => Exn e end
  end.

Lemma search1_first probe (at_ : ppath -> res (option ppath) -> Prop) slots :
  (forall q, at_ q (probe q)) ->
  first_of (slot slots) at_ (search1 probe (full slots)).
Proof.
  intros Hat. induction slots as [|o t IH]; cbn [full flat_map].
  - right. split; [|reflexivity]. intros n q H. destruct n; discriminate H.
  - destruct o as [p|]; cbn [olist app].
    + cbn [search1]. pose proof (Hat p) as Hp. destruct (probe p) as [[x|]|e] eqn:Ep.
      * left. exists 0%nat, p. split; [reflexivity|]. split; [intros; lia|]. left. eauto.
      * fold (full t). destruct IH as [(n & q & Hs & Hb & Hr)|[Hn Hr]].
        -- left. exists (S n), q. split; [exact Hs|]. split; [|exact Hr].
           intros m q' Hm Hq'. destruct m as [|m]; [injection Hq' as <-; exact Hp|]. apply (Hb m); [lia|exact Hq'].
        -- right. split; [|exact Hr]. intros n q Hq. destruct n as [|n]; [injection Hq as <-; exact Hp|]. exact (Hn n q Hq).
      * left. exists 0%nat, p. split; [reflexivity|]. split; [intros; lia|]. right. eauto.
    + fold (full t). destruct IH as [(n & q & Hs & Hb & Hr)|[Hn Hr]].
      * left. exists (S n), q. split; [exact Hs|]. split; [|exact Hr].
        intros m q' Hm Hq'. destruct m as [|m]; [discriminate Hq'|]. apply (Hb m); [lia|exact Hq'].
      * right. split; [|exact Hr]. intros n q Hq. destruct n as [|n]; [discriminate Hq|]. exact (Hn n q Hq).
Qed.

Lemma first_of_ext (P Q : nat -> ppath -> Prop) at_ r : (forall n q, P n q <-> Q n q) -> first_of P at_ r -> first_of Q at_ r.
Proof.
  intros H [(n & q & Hs & Hb & Hr)|[Hn Hr]].
  - left. exists n, q. split; [apply H, Hs|]. split; [|exact Hr]. intros m q' Hm Hq'. apply (Hb m); [exact Hm|apply H, Hq'].
  - right. split; [|exact Hr]. intros n q Hq. apply (Hn n), H, Hq.
Qed.

(** ** Paths and variables *)
Lemma relative_abs s : relative s -> pp_abs (mkpath s) = false.
Proof. unfold relative, mkpath. cbn [pp_abs]. destruct s as [|c s]; [reflexivity|]. intros H.
  destruct c as [[] [] [] [] [] [] [] []]; try reflexivity; destruct H. Qed.

Lemma pdiv_under d s : relative s -> pdiv d (mkpath s) = under d s.
Proof. intros H. unfold pdiv, under, pjoin. rewrite (relative_abs s H). reflexivity. Qed.

Lemma env_path_names e v d : env_path e v = Some d <-> names e v d.
Proof.
  unfold env_path, names. destruct (e v) as [[|c s]|]; split; try discriminate.
  - intros (s & H & Hn & _). injection H as <-. now destruct Hn.
  - intros H. injection H as <-. exists (c :: s). repeat split; discriminate.
  - intros (s' & H & _ & ->). injection H as <-. reflexivity.
  - intros (s & H & _). discriminate H.
Qed.

Lemma env_path_none e v : env_path e v = None <-> forall d, ~ names e v d.
Proof.
  split.
  - intros H d Hd. apply env_path_names in Hd. rewrite H in Hd. discriminate.
  - intros H. destruct (env_path e v) as [d|] eqn:E; [|reflexivity]. apply env_path_names in E. destruct (H d E).
Qed.

Lemma get_envar_set h vars v : vars_set h vars -> In v vars -> get_envar h v = env_path (ph_env h) v.
Proof.
  unfold get_envar. intros [->|H] Hv; [reflexivity|].
  destruct (H v Hv) as (s & Hs & Hn & Hst). unfold env_path. rewrite Hs, Hst.
  destruct (ph_remote h), s; try reflexivity; now destruct Hn.
Qed.

Lemma up_env c : env_char c (upper_char (dash_us c)).
Proof.
  unfold env_char, dash_us. destruct (Ascii.eqb_spec c "-"%char) as [->|Hc]; [left; split; reflexivity|].
  right. unfold upper_char. destruct ((97 <=? nat_of_ascii c) && (nat_of_ascii c <=? 122))%nat eqn:E.
  - apply andb_prop in E as [E1 E2]. apply Nat.leb_le in E1, E2. left. split; [lia|].
    rewrite nat_ascii_embedding by lia. lia.
  - right. split; [exact Hc|]. split; [|reflexivity]. intros [H1 H2].
    apply Nat.leb_le in H1, H2. rewrite H1, H2 in E. discriminate.
Qed.

Lemma env_char_fun c d d' : env_char c d -> env_char c d' -> d = d'.
Proof.
  unfold env_char. intros H H'.
  assert (Hd : nat_of_ascii "-"%char = 45) by reflexivity.
  destruct H as [[-> ->]|[[H1 H2]|[H1 [H2 ->]]]], H' as [[E ->]|[[E1 E2]|[E1 [E2 ->]]]]; try congruence; try (subst; lia); try lia.
  - rewrite <- (ascii_nat_embedding d), <- (ascii_nat_embedding d'). f_equal. lia.
Qed.

Lemma up_name prj suffix : env_name prj suffix (map upper_char (map dash_us prj) ++ s2l suffix).
Proof.
  exists (map upper_char (map dash_us prj)). split; [reflexivity|].
  induction prj as [|c t IH]; cbn [map]; constructor; [apply up_env|exact IH].
Qed.

Lemma env_name_fun prj suffix v v' : env_name prj suffix v -> env_name prj suffix v' -> v = v'.
Proof.
  intros (l & -> & H) (l' & -> & H'). f_equal. revert l' H'.
  induction H as [|c d t l Hc _ IH]; intros l' H'; inversion H'; subst; [reflexivity|].
  f_equal; [eapply env_char_fun; eauto|apply IH; assumption].
Qed.

(** ** Data *)
Definition var_slot ctl h v : option ppath :=
  match env_path (ph_env h) v with Some p => Some p | None => env_path ctl v end.
Definition omap {A B} (f : A -> B) (o : option A) : option B := match o with Some x => Some (f x) | None => None end.
Definition data_slots prog ctl h sub envars : list (option ppath) :=
  Some prog :: map (var_slot ctl h) envars ++
  [omap (fun d => under d (s2l ".local/share/" ++ sub)) (env_path (ph_env h) (s2l "HOME"));
   omap (fun d => under d (s2l "share/" ++ sub)) (env_path (ph_env h) (s2l "HOME"));
   omap (fun d => under d (s2l "share/" ++ sub)) (env_path (ph_env h) (s2l "VIRTUAL_ENV"));
   Some (mkpath (s2l "/usr/local/share/" ++ sub)); Some (mkpath (s2l "/usr/share/" ++ sub))].

Lemma var_slot_dir ctl h v d : var_slot ctl h v = Some d <-> var_dir ctl (ph_env h) v d.
Proof.
  unfold var_slot, var_dir. destruct (env_path (ph_env h) v) as [p|] eqn:E.
  - pose proof (proj1 (env_path_names _ _ _) E) as Hp. split.
    + intros H. injection H as <-. now left.
    + intros [H|[H _]]; [apply env_path_names in H; congruence|destruct (H p Hp)].
  - pose proof (proj1 (env_path_none _ _) E) as Hn. rewrite env_path_names. split; [right; split; assumption|].
    intros [H|[_ H]]; [destruct (Hn d H)|exact H].
Qed.

Lemma data_slots_place prog ctl h sub envars n q :
  slot (data_slots prog ctl h sub envars) n q <-> data_place prog ctl (ph_env h) sub envars n q.
Proof.
  unfold slot, data_slots. split.
  - destruct n as [|n]; cbn [nth_error]; [intros H; injection H as <-; constructor|].
    destruct (Nat.ltb_spec n (length envars)) as [Hn|Hn].
    + rewrite nth_error_app1 by (rewrite map_length; exact Hn). rewrite nth_error_map.
      destruct (nth_error envars n) as [v|] eqn:E; cbn [option_map]; [|discriminate].
      intros H. injection H as H. apply (DPVar _ _ _ _ _ n v q E). apply var_slot_dir, H.
    + rewrite nth_error_app2 by (rewrite map_length; exact Hn). rewrite map_length.
      remember (n - length envars)%nat as k eqn:Hk. assert (n = k + length envars)%nat as -> by lia. clear Hk Hn.
      do 5 (destruct k as [|k];
        [cbn [nth_error Nat.add]; intros H; injection H as H; try rewrite <- H;
         try (destruct (env_path _ _) as [d|] eqn:E; [|discriminate H]; cbn in H; injection H as <-; apply env_path_names in E);
         try (now constructor)|]).
      destruct k; discriminate.
  - intros H. destruct H as [|i v d Hv Hd|d Hd|d Hd|d Hd| |]; cbn [Nat.add]; try reflexivity;
      change (nth_error (?a :: ?l) (S ?n)) with (nth_error l n).
    + rewrite nth_error_app1 by (rewrite map_length; apply nth_error_Some; congruence).
      rewrite nth_error_map, Hv. cbn [option_map]. f_equal. apply var_slot_dir, Hd.
    + rewrite nth_error_app2 by (rewrite map_length; lia). rewrite map_length, Nat.sub_diag. cbn [nth_error].
      apply env_path_names in Hd. rewrite Hd. reflexivity.
    + rewrite nth_error_app2 by (rewrite map_length; lia). rewrite map_length.
      replace (S (length envars) - length envars)%nat with 1%nat by lia. cbn [nth_error].
      apply env_path_names in Hd. rewrite Hd. reflexivity.
    + rewrite nth_error_app2 by (rewrite map_length; lia). rewrite map_length.
      replace (S (S (length envars)) - length envars)%nat with 2%nat by lia. cbn [nth_error].
      apply env_path_names in Hd. rewrite Hd. reflexivity.
    + rewrite nth_error_app2 by (rewrite map_length; lia). rewrite map_length.
      replace (S (S (S (length envars))) - length envars)%nat with 3%nat by lia. reflexivity.
    + rewrite nth_error_app2 by (rewrite map_length; lia). rewrite map_length.
      replace (S (S (S (S (length envars)))) - length envars)%nat with 4%nat by lia. reflexivity.
Qed.

Lemma full_app a b : full (a ++ b) = full a ++ full b.
Proof. unfold full. apply flat_map_app. Qed.

Lemma data_paths_full prog ctl h sub envars :
  vars_set h (envars ++ [s2l "HOME"; s2l "VIRTUAL_ENV"]) ->
  data_paths prog ctl h sub envars = full (data_slots prog ctl h sub envars).
Proof.
  intros Hv. unfold data_paths, data_slots. change (full (?a :: ?b)) with (olist a ++ full b).
  cbn [olist app]. f_equal. rewrite full_app. f_equal.
  - assert (Hin : forall v, In v envars -> get_envar h v = env_path (ph_env h) v).
    { intros v H. apply (get_envar_set h _ v Hv). apply in_or_app. now left. }
    clear Hv. induction envars as [|v t IH]; [reflexivity|]. cbn [flat_map map]. change (full (?a :: ?b)) with (olist a ++ full b).
    f_equal; [|apply IH; intros; apply Hin; now right].
    unfold envar_paths, var_slot. rewrite (Hin v (or_introl eq_refl)). destruct (env_path (ph_env h) v); reflexivity.
  - assert (H1 : get_envar h (s2l "HOME") = env_path (ph_env h) (s2l "HOME")).
    { apply (get_envar_set h _ _ Hv). apply in_or_app. right. now left. }
    assert (H2 : get_envar h (s2l "VIRTUAL_ENV") = env_path (ph_env h) (s2l "VIRTUAL_ENV")).
    { apply (get_envar_set h _ _ Hv). apply in_or_app. right. right. now left. }
    rewrite H1, H2. clear.
    destruct (env_path (ph_env h) (s2l "HOME")), (env_path (ph_env h) (s2l "VIRTUAL_ENV"));
      cbn [full flat_map omap olist app]; rewrite ?pdiv_under by exact I; reflexivity.
Qed.

Definition data_probe h datadir (q : ppath) : res (option ppath) :=
  match ph_exists h (under q datadir) with Ok true => Ok (Some (under q datadir)) | Ok false => Ok None | Exn e => Exn e end.
Lemma data_probe_at h datadir q : data_at h datadir q (data_probe h datadir q).
Proof. unfold data_at, data_probe. destruct (ph_exists h (under q datadir)) as [[]|e]; eauto 6. Qed.

Lemma yield_search1 h datadir l found : relative datadir ->
  match yield_existing h (mkpath datadir) l found with
  | (p :: _, _) => search1 (data_probe h datadir) l = Ok p
  | ([], Exn e) => if found then e = ENotFound \/ search1 (data_probe h datadir) l = Exn e else search1 (data_probe h datadir) l = Exn e
  | ([], Ok _) => found = true
  end.
Proof.
  intros Hr. induction l as [|p t IH]; cbn [yield_existing search1]; [destruct found; reflexivity|].
  rewrite (pdiv_under p datadir Hr).
  assert (Hp : data_probe h datadir p = match ph_exists h (under p datadir) with Ok true => Ok (Some (under p datadir)) | Ok false => Ok None | Exn e => Exn e end) by reflexivity.
  rewrite Hp. clear Hp. destruct (ph_exists h (under p datadir)) as [[]|e] eqn:E.
  - destruct (yield_existing h (mkpath datadir) t true) as [ys r] eqn:Ey. reflexivity.
  - exact IH.
  - destruct found; [now right|reflexivity].
Qed.

Lemma find_data prog ctl h prj datadir v :
  relative datadir -> env_name prj "_DATA_PATH" v -> vars_set h [v; s2l "HOME"; s2l "VIRTUAL_ENV"] ->
  first_of (data_place prog ctl (ph_env h) prj [v]) (data_at h datadir) (find_project_data prog ctl h prj datadir).
Proof.
  intros Hr Hn Hv. assert (v = data_envar prj) as -> by (eapply env_name_fun; [exact Hn|apply up_name]).
  eapply first_of_ext; [apply data_slots_place|]. unfold find_project_data, search_project_data.
  rewrite (data_paths_full prog ctl h prj [data_envar prj] Hv).
  set (l := full _).
  pose proof (yield_search1 h datadir l false Hr) as Hy.
  pose proof (search1_first _ _ (data_slots prog ctl h prj [data_envar prj]) (data_probe_at h datadir)) as Hs. fold l in Hs.
  destruct (yield_existing h (mkpath datadir) l false) as [[|p ys] [u|e]]; try discriminate Hy; rewrite Hy in Hs; exact Hs.
Qed.

(** All the results *)
Lemma yield_all h datadir slots k found : relative datadir ->
  (forall n q, slot slots n q -> exists b, ph_exists h (under q datadir) = Ok b) ->
  exists l,
    StronglySorted lt l /\ (forall n, In n l -> k <= n) /\
    (forall n, In n l <-> exists m q, n = (k + m)%nat /\ slot slots m q /\ ph_exists h (under q datadir) = Ok true) /\
    Forall2 (fun n p => exists m q, n = (k + m)%nat /\ slot slots m q /\ p = under q datadir) l (fst (yield_existing h (mkpath datadir) (full slots) found)) /\
    snd (yield_existing h (mkpath datadir) (full slots) found) =
      match found, l with false, [] => Exn ENotFound | _, _ => Ok tt end.
Proof.
  intros Hr. revert k found. induction slots as [|o t IH]; intros k found Hok.
  - exists []. split; [constructor|]. split; [intros n []|]. split.
    + intros n. split; [intros []|]. intros (m & q & _ & H & _). destruct m; discriminate H.
    + split; [constructor|]. destruct found; reflexivity.
  - assert (Hok' : forall n q, slot t n q -> exists b, ph_exists h (under q datadir) = Ok b) by (intros n q H; exact (Hok (S n) q H)).
    assert (Hskip : forall f, 
      (o = None \/ exists p, o = Some p /\ ph_exists h (under p datadir) = Ok false) ->
      yield_existing h (mkpath datadir) (full (o :: t)) f = yield_existing h (mkpath datadir) (full t) f).
    { intros f [->|(p & -> & E)]; [reflexivity|]. change (full (Some p :: t)) with (p :: full t). cbn [yield_existing].
      rewrite (pdiv_under p datadir Hr), E. reflexivity. }
    assert (Hnone : (o = None \/ exists p, o = Some p /\ ph_exists h (under p datadir) = Ok false) -> exists l,
      StronglySorted lt l /\ (forall n, In n l -> k <= n) /\
      (forall n, In n l <-> exists m q, n = (k + m)%nat /\ slot (o :: t) m q /\ ph_exists h (under q datadir) = Ok true) /\
      Forall2 (fun n p => exists m q, n = (k + m)%nat /\ slot (o :: t) m q /\ p = under q datadir) l (fst (yield_existing h (mkpath datadir) (full (o :: t)) found)) /\
      snd (yield_existing h (mkpath datadir) (full (o :: t)) found) =
        match found, l with false, [] => Exn ENotFound | _, _ => Ok tt end).
    { intros Ho. rewrite (Hskip found Ho). destruct (IH (S k) found Hok') as (l & Hs & Hk & Hi & Hf & He).
      exists l. split; [exact Hs|]. split; [intros n Hn; specialize (Hk n Hn); lia|]. split; [|split; [|exact He]].
      - intros n. rewrite Hi. split.
        + intros (m & q & -> & Hq & E). exists (S m), q. repeat split; [lia|exact Hq|exact E].
        + intros (m & q & -> & Hq & E). destruct m as [|m].
          * injection Hq as ->. destruct Ho as [Ho|(p & Ho & E')]; [discriminate|]. injection Ho as <-. congruence.
          * exists m, q. repeat split; [lia|exact Hq|exact E].
      - clear - Hf. induction Hf as [|n p l ys H _ IHf]; constructor; [|exact IHf].
        destruct H as (m & q & -> & Hq & ->). exists (S m), q. repeat split; [lia|exact Hq]. }
    destruct o as [p|]; [|apply Hnone; now left].
    destruct (Hok 0%nat p eq_refl) as [[] E]; [|apply Hnone; right; eauto].
    change (full (Some p :: t)) with (p :: full t). cbn [yield_existing]. rewrite (pdiv_under p datadir Hr), E.
    destruct (IH (S k) true Hok') as (l & Hs & Hk & Hi & Hf & He).
    destruct (yield_existing h (mkpath datadir) (full t) true) as [ys r] eqn:Ey. cbn [fst snd] in *.
    exists (k :: l). split; [|split; [|split; [|split]]].
    + constructor; [exact Hs|]. apply Forall_forall. intros n Hn. specialize (Hk n Hn). lia.
    + intros n [<- |Hn]; [lia|]. specialize (Hk n Hn). lia.
    + intros n. cbn [In]. rewrite Hi. split.
      * intros [<- |(m & q & -> & Hq & E')]; [exists 0%nat, p; repeat split; [lia|exact E]|].
        exists (S m), q. repeat split; [lia|exact Hq|exact E'].
      * intros (m & q & -> & Hq & E'). destruct m as [|m]; [left; lia|]. right. exists m, q. repeat split; [lia|exact Hq|exact E'].
    + constructor; [exists 0%nat, p; repeat split; lia|].
      clear - Hf. induction Hf as [|n x l ys H _ IHf]; constructor; [|exact IHf].
      destruct H as (m & q & -> & Hq & ->). exists (S m), q. repeat split; [lia|exact Hq].
    + rewrite He. destruct found; reflexivity.
Qed.

Lemma search_data prog ctl h sub datadir envars ys r :
  relative datadir -> vars_set h (envars ++ [s2l "HOME"; s2l "VIRTUAL_ENV"]) ->
  (forall n q, data_place prog ctl (ph_env h) sub envars n q -> exists b, ph_exists h (under q datadir) = Ok b) ->
  search_project_data prog ctl h sub datadir envars = (ys, r) ->
  exists l, StronglySorted lt l /\
    (forall n, In n l <-> exists q, data_place prog ctl (ph_env h) sub envars n q /\ ph_exists h (under q datadir) = Ok true) /\
    Forall2 (fun n p => exists q, data_place prog ctl (ph_env h) sub envars n q /\ p = under q datadir) l ys /\
    r = match l with [] => Exn ENotFound | _ => Ok tt end.
Proof.
  intros Hr Hv Hok Hs. unfold search_project_data in Hs. rewrite (data_paths_full prog ctl h sub envars Hv) in Hs.
  destruct (yield_all h datadir (data_slots prog ctl h sub envars) 0 false Hr) as (l & H1 & _ & H2 & H3 & H4).
  { intros n q Hq. apply (Hok n q), data_slots_place, Hq. }
  rewrite Hs in H3, H4. cbn [fst snd] in *. exists l. split; [exact H1|]. split; [|split].
  - intros n. rewrite H2. split.
    + intros (m & q & -> & Hq & E). exists q. split; [apply data_slots_place, Hq|exact E].
    + intros (q & Hq & E). exists n, q. repeat split; [apply data_slots_place, Hq|exact E].
  - clear - H3. induction H3 as [|n p l ys H _ IHf]; constructor; [|exact IHf].
    destruct H as (m & q & -> & Hq & ->). exists q. split; [apply data_slots_place, Hq|reflexivity].
  - rewrite H4. destruct l; reflexivity.
Qed.

(** ** Helper programs *)
Definition helper_slots prog h v in_path : list (option ppath) :=
  [if ph_remote h then None else Some prog; env_path (ph_env h) v; in_path;
   omap (fun d => under d (s2l ".local/bin")) (env_path (ph_env h) (s2l "HOME"));
   omap (fun d => under d (s2l "bin")) (env_path (ph_env h) (s2l "HOME"));
   omap (fun d => under d (s2l "bin")) (env_path (ph_env h) (s2l "VIRTUAL_ENV"));
   Some (mkpath (s2l "/usr/local/bin")); Some (mkpath (s2l "/usr/bin"))].

Lemma helper_slots_place prog h v in_path n q :
  slot (helper_slots prog h v in_path) n q <-> helper_place prog (ph_env h) (ph_remote h) v in_path n q.
Proof.
  unfold slot, helper_slots. split.
  - do 8 (destruct n as [|n];
      [cbn [nth_error]; intros H; injection H as H; try rewrite <- H;
       try (destruct (ph_remote h) eqn:E; [discriminate H|injection H as <-; now constructor]);
       try (match type of H with omap _ (env_path _ _) = _ => idtac end;
            destruct (env_path _ _) as [d|] eqn:E; [|discriminate H]; cbn in H; injection H as <-; apply env_path_names in E);
       try apply env_path_names in H; try (now constructor)|]).
    destruct n; discriminate.
  - intros H. destruct H as [Hr|d Hd|p Hp|d Hd|d Hd|d Hd| |]; cbn [nth_error]; try reflexivity;
      try (apply env_path_names in Hd; rewrite Hd; reflexivity).
    + rewrite Hr. reflexivity.
    + rewrite Hp. reflexivity.
Qed.

Lemma helper_paths_full prog h prj in_path :
  vars_set h [helpers_envar prj; s2l "HOME"; s2l "VIRTUAL_ENV"] ->
  helper_paths prog h prj in_path = full (helper_slots prog h (helpers_envar prj) in_path).
Proof.
  intros Hv. unfold helper_paths, helper_slots.
  rewrite (get_envar_set h _ (helpers_envar prj) Hv (or_introl eq_refl)).
  rewrite (get_envar_set h _ (s2l "HOME") Hv (or_intror (or_introl eq_refl))).
  rewrite (get_envar_set h _ (s2l "VIRTUAL_ENV") Hv (or_intror (or_intror (or_introl eq_refl)))).
  unfold full. cbn [flat_map]. f_equal; [destruct (ph_remote h); reflexivity|]. f_equal. f_equal.
  destruct (env_path (ph_env h) (s2l "HOME")), (env_path (ph_env h) (s2l "VIRTUAL_ENV"));
    cbn [omap olist app]; rewrite ?pdiv_under by exact I; reflexivity.
Qed.

Definition helper_probe h helper (q : ppath) : res (option ppath) :=
  match ph_is_dir h q with
  | Exn e => Exn e
  | Ok d => let c := if d then under q helper else q in
            match ph_is_exe h c with Ok true => Ok (Some c) | Ok false => Ok None | Exn e => Exn e end
  end.
Lemma helper_probe_at h helper q : helper_at h helper q (helper_probe h helper q).
Proof.
  unfold helper_at, helper_probe. destruct (ph_is_dir h q) as [d|e]; [right|left; eauto]. exists d. split; [reflexivity|].
  cbv zeta. destruct (ph_is_exe h _) as [[]|e]; eauto 6.
Qed.

Lemma first_exe_search1 h helper l : relative helper -> first_exe h (mkpath helper) l = search1 (helper_probe h helper) l.
Proof.
  intros Hr. induction l as [|p t IH]; [reflexivity|]. cbn [first_exe search1]. unfold helper_probe at 1.
  rewrite (pdiv_under p helper Hr). destruct (ph_is_dir h p) as [d|e]; [|reflexivity]. cbn [rbind]. cbv zeta.
  destruct (ph_is_exe h _) as [[]|e]; [reflexivity|exact IH|reflexivity].
Qed.

Lemma find_helper prog h prj helper v in_path :
  relative helper -> env_name prj "_HELPERSPATH" v -> vars_set h [v; s2l "HOME"; s2l "VIRTUAL_ENV"] ->
  ph_which h helper = Ok in_path ->
  first_of (helper_place prog (ph_env h) (ph_remote h) v in_path) (helper_at h helper) (find_project_helper prog h prj helper).
Proof.
  intros Hr Hn Hv Hw. assert (v = helpers_envar prj) as -> by (eapply env_name_fun; [exact Hn|apply up_name]).
  eapply first_of_ext; [apply helper_slots_place|]. unfold find_project_helper. rewrite Hw. cbn [rbind].
  rewrite (helper_paths_full prog h prj in_path Hv), (first_exe_search1 h helper _ Hr). apply search1_first, helper_probe_at.
Qed.

Lemma find_helper_which prog h prj helper e : ph_which h helper = Exn e -> find_project_helper prog h prj helper = Exn e.
Proof. intros H. unfold find_project_helper. rewrite H. reflexivity. Qed.
