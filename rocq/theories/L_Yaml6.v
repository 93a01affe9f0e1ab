(** Lemmas for C67: the input of 'restore'. *)
From Coq Require Import Ascii String Relations ZifyBool.
From Verif Require Import Base M_Text M_Yaml S_Yaml L_Base L_Text L_Yaml L_Yaml2 L_Yaml3 L_Yaml4 L_Yaml5.

Lemma file_named_eq : forall t, mkpath t = file_named t.
Proof.
  intros t. unfold file_named. rewrite <- mkpath_parts. destruct t as [|c t]; [reflexivity|].
  unfold mkpath. cbn [pp_parts]. f_equal. destruct c as [[] [] [] [] [] [] [] []]; reflexivity.
Qed.

Lemma yload_text_eq : forall fs n name stdin, exists o,
  yload_text fs (S n) name stdin = loaded (load fs n) None (source fs name stdin) (YSt [] o) /\
  o = match name with Some t => [file_named t] | None => [] end.
Proof.
  intros fs n [t|] stdin; eexists; (split; [|reflexivity]); cbn [yload_text source].
  - rewrite file_named_eq. reflexivity.
  - reflexivity.
Qed.

Lemma text_sound : forall fs n name stdin d s, (forall p v, fs p = FDoc v -> proper_doc v) ->
  (forall v, stdin = FDoc v -> proper_doc v) -> yload_text fs (S n) name stdin = (inr d, s) ->
  exists bs ns, input_says fs n (source fs name stdin) bs ns /\ dict_of bs d.
Proof.
  intros fs n name stdin d s P Q H. destruct (yload_text_eq fs n name stdin) as (o & E & _). rewrite E in H.
  assert (P' : forall v, source fs name stdin = FDoc v -> proper_doc v).
  { intros v F. destruct name; cbn in F; [eapply P | eapply Q]; exact F. }
  destruct (loaded_sound fs n _ _ _ _ _ _ P' (load_sound fs P n) H) as (bs & ns & A & _ & B).
  exists bs, ns. split; [exact B | exact A].
Qed.
Lemma input_fun : forall fs n m src bs ns bs' ns', input_says fs n src bs ns -> input_says fs m src bs' ns' -> bs = bs' /\ ns = ns'.
Proof.
  intros fs n m src bs ns bs' ns' A B.
  (* both are what one path says in a world where the name leads to the document *)
  destruct A as [(v & F & Bl & -> & ->)|(l & F & I)]; destruct B as [(v' & F' & Bl' & -> & ->)|(l' & F' & I')].
  - auto.
  - rewrite F in F'. inversion F'; subst. destruct Bl as [X|[X|[X|[X|[X|X]]]]]; try discriminate X. inversion X; subst.
    inversion I'; auto.
  - rewrite F in F'. inversion F'; subst. destruct Bl' as [X|[X|[X|[X|[X|X]]]]]; try discriminate X. inversion X; subst.
    inversion I; auto.
  - rewrite F in F'. inversion F'; subst l'. clear F F'. revert m bs' ns' I'.
    induction I as [n b|n b k v t bs ns O H IH|n b v t bs ns B H IH|n b x q t bs ns bs1 ns1 X R E H IH]; intros m bs' ns' I'.
    + inversion I'; auto.
    + inversion I' as [|? ? ? ? ? ? ? O' J|? ? ? ? ? ? B' J|? ? ? ? ? ? ? ? ? X' R' E' J]; subst.
      * destruct (IH _ _ _ J) as [-> ->]. auto.
      * destruct O. congruence.
      * destruct O. congruence.
    + inversion I' as [|? ? ? ? ? ? ? O' J|? ? ? ? ? ? B' J|? ? ? ? ? ? ? ? ? X' R' E' J]; subst.
      * destruct O'. congruence.
      * eapply IH. exact J.
      * apply blank_iff in B. destruct x; [congruence | discriminate B].
    + inversion I' as [|? ? ? ? ? ? ? O' J|? ? ? ? ? ? B' J|? ? ? ? ? ? ? ? ? X' R' E' J]; subst.
      * destruct O'. congruence.
      * apply blank_iff in B'. destruct x; [congruence | discriminate B'].
      * apply the_name_iff in R. apply the_name_iff in R'. rewrite R in R'. inversion R'; subst.
        destruct (inlines_fun_expands fs _ _ _ _ E _ _ _ E') as [-> ->]. destruct (IH _ _ _ J) as [-> ->]. auto.
Qed.
Lemma text_run : forall fs n k name stdin bs ns, (forall p v, fs p = FDoc v -> proper_doc v) ->
  (forall v, stdin = FDoc v -> proper_doc v) -> input_says fs k (source fs name stdin) bs ns -> NoDup ns -> (k <= n)%nat ->
  exists d s, yload_text fs (S n) name stdin = (inr d, s) /\ dict_of bs d.
Proof.
  intros fs n k name stdin bs ns P Q I N L. destruct (yload_text_eq fs n name stdin) as (o & E & _).
  destruct (yload_text fs (S n) name stdin) as [r s] eqn:H.
  assert (K : exists d, r = inr d).
  { destruct I as [(v & F & B & -> & ->)|(l & F & I)]; rewrite F in E.
    - unfold loaded in E. assert (C : parse (FDoc v) = inr v).
      { destruct B as [-> | [-> | [-> | [-> | [-> | ->]]]]]; reflexivity. }
      rewrite C in E. apply blank_iff in B. rewrite B in E. cbn [negb] in E. inversion E; subst. eexists. reflexivity.
    - assert (P' : proper_doc (YMap l)).
      { destruct name; cbn in F; [eapply P | eapply Q]; exact F. }
      symmetry in E. refine (_ (loaded_run fs k None l bs ns P' I n _ _ _ _ E)).
      + intros [(_ & D & _)|(A & _)]; [exact D|]. exfalso. apply A. split; [exact N | intros q _ []].
      + intros m q bs' ns' M X. apply (load_run fs P n m q bs' ns'); [lia | exact X]. }
  destruct K as [d ->]. exists d, s. split; [reflexivity|].
  destruct (text_sound fs n name stdin d s P Q H) as (bs' & ns' & I' & D).
  destruct (input_fun _ _ _ _ _ _ _ _ I I') as [-> _]. exact D.
Qed.

(** *** The checks *)
Lemma has_iff : forall d s, has d s = true <-> under d s.
Proof.
  intros d s. unfold has, under. rewrite existsb_exists. split.
  - intros ([k v] & I & E). apply key_eqb_eq in E. cbn in E. subst. exists v. exact I.
  - intros [v I]. eexists. split; [exact I | apply key_eqb_refl].
Qed.
Lemma valid_item_iff : forall m, valid_item (YMap m) = true <-> proper_item m.
Proof.
  intros m. unfold valid_item, proper_item. rewrite andb_true_iff, has_iff, Nat.eqb_eq. cbn [filter].
  pose proof (has_iff m "CPU") as A. pose proof (has_iff m "die") as B. pose proof (has_iff m "package") as C.
  assert (F : forall s, has m s = false -> ~ under m s).
  { intros s H U. apply has_iff in U. congruence. }
  assert (Only : forall k, In k kinds -> under m k -> (forall k', In k' kinds -> k' <> k -> ~ under m k') ->
                 exists k, In k kinds /\ under m k /\ forall k', In k' kinds -> under m k' -> k' = k).
  { intros k I U N. exists k. split; [exact I | split; [exact U|]]. intros k' I' U'.
    destruct (string_dec k' k) as [E|E]; [exact E|]. exfalso. exact (N k' I' E U'). }
  destruct (has m "CPU") eqn:EA, (has m "die") eqn:EB, (has m "package") eqn:EC; cbn [Datatypes.length];
    (split; intros [V K]; (split; [exact V|])); try discriminate K; try reflexivity.
  all: try (exfalso; destruct K as (k & I & W & U)).
  - assert ("CPU"%string = k) by (apply U; [left; reflexivity | apply A; reflexivity]).
    assert ("die"%string = k) by (apply U; [right; left; reflexivity | apply B; reflexivity]). congruence.
  - assert ("CPU"%string = k) by (apply U; [left; reflexivity | apply A; reflexivity]).
    assert ("die"%string = k) by (apply U; [right; left; reflexivity | apply B; reflexivity]). congruence.
  - assert ("CPU"%string = k) by (apply U; [left; reflexivity | apply A; reflexivity]).
    assert ("package"%string = k) by (apply U; [right; right; left; reflexivity | apply C; reflexivity]). congruence.
  - apply (Only "CPU"%string); [left; reflexivity | apply A; reflexivity|]. intros k' [<-|[<-|[<-|[]]]] N; [congruence| |]; apply F; assumption.
  - assert ("die"%string = k) by (apply U; [right; left; reflexivity | apply B; reflexivity]).
    assert ("package"%string = k) by (apply U; [right; right; left; reflexivity | apply C; reflexivity]). congruence.
  - apply (Only "die"%string); [right; left; reflexivity | apply B; reflexivity|]. intros k' [<-|[<-|[<-|[]]]] N; [|congruence|]; apply F; assumption.
  - apply (Only "package"%string); [right; right; left; reflexivity | apply C; reflexivity|]. intros k' [<-|[<-|[<-|[]]]] N; [| |congruence]; apply F; assumption.
  - cbn in I. destruct I as [<-|[<-|[<-|[]]]]; [apply A in W | apply B in W | apply C in W]; discriminate.
Qed.
Lemma C67_valid_l : forall known d, validate known d = true <-> restorable known d.
Proof.
  intros known d. unfold validate, restorable. rewrite forallb_forall. split.
  - intros H k v I. specialize (H _ I). cbn [fst snd] in H. destruct v as [| | | |l|]; try discriminate H.
    apply andb_true_iff in H as [A B]. apply existsb_exists in A as (s & S & E). apply key_eqb_eq in E.
    exists s, l. split; [exact E | split; [exact S | split; [reflexivity|]]]. rewrite forallb_forall in B. intros i Hi.
    specialize (B _ Hi). destruct i as [| | | | |m]; try discriminate B. exists m. split; [reflexivity | apply valid_item_iff; exact B].
  - intros H [k v] I. destruct (H _ _ I) as (s & l & -> & S & -> & E). cbn [fst snd]. apply andb_true_iff. split.
    + apply existsb_exists. exists s. split; [exact S | apply key_eqb_refl].
    + apply forallb_forall. intros i Hi. destruct (E _ Hi) as (m & -> & Q). apply valid_item_iff. exact Q.
Qed.

Lemma yget_In : forall m s v, yget m s = Some v -> In (KText (s2l s), v) m.
Proof.
  intros m s v. unfold yget. induction m as [|[k w] t IH]; cbn [dget]; [discriminate|].
  destruct (key_eqb (KText (s2l s)) k) eqn:E; intros H; [|right; apply IH; exact H].
  apply key_eqb_eq in E. inversion H; subst. left. reflexivity.
Qed.
Lemma yget_under : forall m s, under m s -> exists v, yget m s = Some v.
Proof.
  intros m s [v I]. unfold yget. induction m as [|[k w] t IH]; [destruct I|]. cbn [dget].
  destruct (key_eqb (KText (s2l s)) k) eqn:E; [eexists; reflexivity|]. destruct I as [I|I]; [|apply IH; exact I].
  inversion I; subst. rewrite key_eqb_refl in E. discriminate.
Qed.
Lemma dispatch_says : forall m, proper_item m -> exists w v, dispatch m = Some (w, v) /\ says m w v.
Proof.
  intros m (V & k & I & U & _). destruct (yget_under _ _ V) as [v E]. unfold dispatch. rewrite E.
  destruct (yget_under _ _ U) as [x X].
  destruct (yget m "CPU") as [n|] eqn:A.
  { eexists. exists v. split; [reflexivity|]. split; [apply yget_In; exact E | apply yget_In; exact A]. }
  destruct (yget m "package") as [n|] eqn:B.
  { eexists. exists v. split; [reflexivity|]. split; [apply yget_In; exact E | apply yget_In; exact B]. }
  destruct (yget m "die") as [n|] eqn:C.
  { eexists. exists v. split; [reflexivity|]. split; [apply yget_In; exact E | apply yget_In; exact C]. }
  cbn in I. destruct I as [<-|[<-|[<-|[]]]]; congruence.
Qed.

Lemma settings_carried : forall known d, restorable known d -> carried_out d (settings d).
Proof.
  intros known d. induction d as [|[k v] t IH]; intros R.
  - exists []. split; [exists []; split; [reflexivity | constructor] | constructor].
  - destruct (R k v (or_introl eq_refl)) as (s & l & -> & S & -> & Q).
    destruct IH as (es & (ll & -> & F) & G); [intros k' v' I; apply R; right; exact I|].
    assert (Hm : exists ms, l = map YMap ms /\ Forall proper_item ms).
    { clear -Q. induction l as [|i l IH]; [exists []; split; [reflexivity | constructor]|].
      destruct IH as (ms & -> & H); [intros j J; apply Q; right; exact J|].
      destruct (Q i (or_introl eq_refl)) as (m & -> & P). exists (m :: ms). split; [reflexivity | constructor; assumption]. }
    destruct Hm as (ms & -> & Pm). exists (map (pair (KText s)) ms ++ concat ll). split.
    + exists (map (pair (KText s)) ms :: ll). split; [reflexivity|]. constructor; [|exact F]. exists ms. split; reflexivity.
    + unfold settings. cbn [flat_map fst snd]. apply Forall2_app; [|exact G]. rewrite map_map. clear -Pm.
      induction Pm as [|m ms P Pm IH]; cbn [map]; constructor; [|exact IH]. cbn [fst snd]. split; [reflexivity|].
      apply dispatch_says. exact P.
Qed.

Lemma C67_restore_l : forall fs known n infile stdin l, (forall p v, fs p = FDoc v -> proper_doc v) ->
  (forall v, stdin = FDoc v -> proper_doc v) -> restore_plan fs known (S n) infile stdin = inr l ->
  exists bs ns d, input_says fs n (source fs (input_name infile) stdin) bs ns /\ dict_of bs d /\ restorable known d /\ carried_out d l.
Proof.
  intros fs known n infile stdin l P Q H. unfold restore_plan in H. fold (input_name infile) in H.
  destruct (yload_text fs (S n) (input_name infile) stdin) as [[e|d] s] eqn:E; cbn [fst] in H; [discriminate|].
  destruct (validate known d) eqn:V; [|discriminate]. apply C67_valid_l in V. inversion H; subst.
  destruct (text_sound _ _ _ _ _ _ P Q E) as (bs & ns & A & B). exists bs, ns, d. split; [exact A | split; [exact B | split; [exact V|]]].
  eapply settings_carried. exact V.
Qed.
Lemma C67_restore_iff_l : forall fs known n k infile stdin bs ns, (forall p v, fs p = FDoc v -> proper_doc v) ->
  (forall v, stdin = FDoc v -> proper_doc v) -> input_says fs k (source fs (input_name infile) stdin) bs ns -> NoDup ns ->
  (k <= n)%nat ->
  exists d, dict_of bs d /\
    (restorable known d -> exists l, restore_plan fs known (S n) infile stdin = inr l /\ carried_out d l) /\
    (~ restorable known d -> restore_plan fs known (S n) infile stdin = inl YError).
Proof.
  intros fs known n k infile stdin bs ns P Q I N L. destruct (text_run fs n k _ stdin bs ns P Q I N L) as (d & s & E & D).
  exists d. split; [exact D|]. unfold restore_plan. fold (input_name infile). rewrite E. cbn [fst]. split.
  - intros R. pose proof (proj2 (C67_valid_l known d) R) as V. rewrite V. eexists. split; [reflexivity | eapply settings_carried; exact R].
  - intros R. destruct (validate known d) eqn:V; [|reflexivity]. apply C67_valid_l in V. contradiction.
Qed.

Lemma C67_reserved_l : forall fs n p v, fs p = FDoc v -> deep_reserved v -> fst (yload fs (S n) p) = inl YError.
Proof.
  intros fs n p v F D. unfold yload. cbn [load]. unfold loaded. rewrite F. unfold parse. rewrite (construct_reserved _ D). reflexivity.
Qed.
Lemma C67_missing_l : forall fs n p, fs p = FNone \/ fs p = FBad -> fst (yload fs (S n) p) = inl YError.
Proof. intros fs n p [F|F]; unfold yload; cbn [load]; unfold loaded; rewrite F; reflexivity. Qed.
