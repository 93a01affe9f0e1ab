(** Sorting the topology table; the lines of I/O dies. *)
From Verif Require Import Base L_Base L_Monad M_Text S_Text L_Text M_CPUInfo S_CPUInfo M_Topo S_Topo L_Topo L_Topo2.
From Coq Require Import ZifyBool Sorted Permutation.

Lemma Leqb_spec a b : level_eqb a b = true <-> a = b.
Proof.
  unfold level_eqb. rewrite Z.eqb_eq. split; [|now intros ->]. destruct a, b; cbn; congruence.
Qed.

(** ** Sorting *)
Lemma insert_by_ext {A} (le le' : A -> A -> bool) x l : (forall y, In y l -> le x y = le' x y) ->
  insert_by le x l = insert_by le' x l.
Proof.
  induction l as [|y t IH]; intros H; cbn [insert_by]; [reflexivity|].
  rewrite <- (H y) by now left. destruct (le x y); [reflexivity|]. rewrite IH; [reflexivity|]. intros z Hz. apply H. now right.
Qed.

Lemma sort_by_ext {A} (le le' : A -> A -> bool) l : (forall x y, In x l -> In y l -> le x y = le' x y) ->
  sort_by le l = sort_by le' l.
Proof.
  induction l as [|x t IH]; intros H; [reflexivity|]. cbn [sort_by fold_right]. fold (sort_by le t) (sort_by le' t).
  rewrite <- IH; [|intros a b Ha Hb; apply H; now right]. apply insert_by_ext. intros y Hy. apply H; [now left|right].
  exact (proj1 (sort_by_In le y t) Hy).
Qed.

Lemma sorted_weaken {A} (R R' : A -> A -> Prop) l : (forall a b, In a l -> In b l -> R a b -> R' a b) ->
  StronglySorted R l -> StronglySorted R' l.
Proof.
  intros H Hs. induction Hs as [|x t Ht IH Hall]; [constructor|]. constructor.
  - apply IH. intros a b Ha Hb. apply H; now right.
  - rewrite Forall_forall in *. intros y Hy. apply H; [now left|now right|auto].
Qed.

Lemma sorted_map {A} (R : A -> A -> Prop) (f : A -> A) l : (forall a b, In a l -> In b l -> R a b -> R (f a) (f b)) ->
  StronglySorted R l -> StronglySorted R (map f l).
Proof.
  intros H Hs. induction Hs as [|x t Ht IH Hall]; [constructor|]. cbn [map]. constructor.
  - apply IH. intros a b Ha Hb. apply H; now right.
  - rewrite Forall_forall in *. intros y Hy. apply in_map_iff in Hy as (z & <- & Hz). apply H; [now left|now right|auto].
Qed.

Lemma key_of_some ls t : (forall l, In l ls -> pget l t <> None) -> exists k, key_of ls t = Some k.
Proof.
  induction ls as [|l ls IH]; intros H; [now exists []|]. cbn [key_of].
  destruct (pget l t) as [v|] eqn:E; [|exfalso; apply (H l); [now left|exact E]].
  destruct IH as (k & ->); [intros; apply H; now right|]. eauto.
Qed.

Lemma lex_of_keys ls : forall a b x y, key_of ls a = Some x -> key_of ls b = Some y -> lexleb x y = true -> lex_le ls a b.
Proof.
  induction ls as [|l ls IH]; intros a b x y Ha Hb H; [exact I|]. cbn [key_of] in Ha, Hb. cbn [lex_le].
  destruct (pget l a) as [va|] eqn:Ea; [|discriminate]. destruct (key_of ls a) as [ka|] eqn:Ka; [|discriminate].
  destruct (pget l b) as [vb|] eqn:Eb; [|discriminate]. destruct (key_of ls b) as [kb|] eqn:Kb; [|discriminate].
  injection Ha as <-. injection Hb as <-. cbn [lexleb] in H. exists va, vb. split; [reflexivity|]. split; [reflexivity|].
  destruct (Z.ltb_spec va vb); [now left|]. destruct (Z.eqb_spec va vb); [|discriminate].
  right. split; [assumption|]. eapply IH; eassumption.
Qed.

Lemma skeys_spec o : skeys o = sort_levels o.
Proof. now destruct o. Qed.

Lemma order_in_skeys o : In o (skeys o).
Proof. destruct o; cbn; auto. Qed.
Lemma cpu_in_skeys o : In LCPU (skeys o).
Proof. destruct o; cbn; auto. Qed.
Lemma skeys_incl o ls : In o ls -> In LCPU ls -> In LPkg ls -> incl (skeys o) ls.
Proof. intros H1 H2 H3 l Hl. destruct o; cbn in Hl; intuition subst; assumption. Qed.

Lemma sorted_table o rows : (forall r l, In r rows -> In l (skeys o) -> pget l r <> None) ->
  StronglySorted (lex_le (sort_levels o)) (sort_by (pkey_leb o) rows).
Proof.
  intros H. set (kk := fun t => match key_of (skeys o) t with Some k => k | None => [] end).
  assert (Hk : forall r, In r rows -> key_of (skeys o) r = Some (kk r)).
  { intros r Hr. destruct (key_of_some (skeys o) r) as (k & E); [intros l Hl; now apply H|]. unfold kk. now rewrite E. }
  rewrite (sort_by_ext (pkey_leb o) (fun a b => lexleb (kk a) (kk b))).
  2:{ intros a b Ha Hb. unfold pkey_leb. now rewrite (Hk a Ha), (Hk b Hb). }
  eapply sorted_weaken; [|apply sort_by_sorted].
  - intros a b Ha Hb Hle. apply (proj1 (sort_by_In (fun a b => lexleb (kk a) (kk b)) _ _)) in Ha, Hb.
    rewrite <- skeys_spec. eapply lex_of_keys; [apply Hk; exact Ha|apply Hk; exact Hb|exact Hle].
  - intros a b. apply lexleb_total.
  - intros a b c. apply lexleb_trans.
Qed.

Lemma lex_same ls a a' b b' : (forall l, In l ls -> pget l a' = pget l a) -> (forall l, In l ls -> pget l b' = pget l b) ->
  lex_le ls a b -> lex_le ls a' b'.
Proof.
  induction ls as [|l ls IH]; intros Ha Hb H; [exact I|]. cbn [lex_le] in *. destruct H as (x & y & Hx & Hy & H).
  exists x, y. rewrite Ha, Hb by now left. split; [exact Hx|]. split; [exact Hy|].
  destruct H as [H|[H1 H2]]; [now left|right]. split; [exact H1|]. apply IH; auto; intros l' Hl; [apply Ha|apply Hb]; now right.
Qed.

(** ** I/O dies *)
Section IO.
  Variable m : machine.
  Variable on : list Z.
  Variable h : host.
  Hypothesis Hs : shows m on h.

  Lemma new_io_In comp dies p d : In (p, d) (new_io comp dies) <->
    dget Z.eqb comp p <> None /\ ~ in_dict comp p d /\ exists ds, In (p, ds) dies /\ In d ds.
  Proof.
    unfold new_io. rewrite in_flat_map. split.
    - intros ([q ds] & Hq & H). cbn [fst snd] in H. destruct (dget Z.eqb comp q) as [known|] eqn:E; [|contradiction].
      apply in_map_iff in H as (d' & [= <- <-] & Hd). apply filter_In in Hd as [Hd Hn].
      split; [congruence|]. split; [|eauto]. intros (l & Hl & Hi). rewrite E in Hl. injection Hl as <-.
      apply inb_In in Hi. rewrite Hi in Hn. discriminate.
    - intros (Hp & Hn & ds & Hq & Hd). exists (p, ds). split; [exact Hq|]. cbn [fst snd].
      destruct (dget Z.eqb comp p) as [known|] eqn:E; [|congruence]. apply in_map_iff. exists d. split; [reflexivity|].
      apply filter_In. split; [exact Hd|]. destruct (inb d known) eqn:Ei; [|reflexivity].
      exfalso. apply Hn. exists known. split; [exact E|now apply inb_In].
  Qed.

  Lemma fold_set_add l : forall io p d,
    in_dict (fold_left (fun io pd => set_add io (fst pd) (snd pd)) l io) p d <-> in_dict io p d \/ In (p, d) l.
  Proof.
    induction l as [|[q e] l IH]; intros io p d; cbn [fold_left fst snd In]; [tauto|].
    rewrite IH, set_add_in. split.
    - intros [[H|[-> ->]]|H]; auto.
    - intros [H|[[= -> ->]|H]]; auto.
  Qed.

  Lemma set_add_nodup d p x : NoDup (map fst d) -> NoDup (map fst (set_add d p x)).
  Proof.
    intros H. unfold set_add. destruct (dget Z.eqb d p) as [l|]; [destruct (inb x l); [exact H|]|];
      (apply dset_NoDup; [apply Zeqb_spec|exact H]).
  Qed.

  Lemma fold_set_nodup l : forall io, NoDup (map fst io) ->
    NoDup (map fst (fold_left (fun io pd => set_add io (fst pd) (snd pd)) l io)).
  Proof. induction l as [|x l IH]; intros io H; [exact H|]. cbn [fold_left]. apply IH. now apply set_add_nodup. Qed.

  (** The lines of I/O dies that are added. *)
  Definition found_io (comp : list (Z * list Z)) (p d : Z) : Prop :=
    uncore_die m p d /\ dget Z.eqb comp p <> None /\ ~ in_dict comp p d.

  Definition io_rows (P : Z -> Z -> Prop) (rows : list pline) : Prop :=
    forall r, In r rows <-> exists p d, r = io_line p d /\ P p d.

  Lemma add_io_post w : wok m w ->
    post (add_io_dies h) w
      (fun io w' => wok m w' /\ w_info w' = w_info w /\ w_comp w' = w_comp w /\
         io_rows (found_io (w_comp w)) io /\
         forall p d, in_dict (w_io w') p d <-> in_dict (w_io w) p d \/ found_io (w_comp w) p d)
      (fun _ w' => w' = w /\ ~ readable m on h).
  Proof.
    intros Hw. unfold add_io_dies. pose proof (sh_uncore m on h Hs) as G. destruct (m_dies m) as [dies|] eqn:Ed.
    - destruct G as (r & Hu & Hr). rewrite Hu. apply post_bind. apply post_lift.
      2:{ intros e He. split; [reflexivity|]. intros R. destruct (rd_uncore m on h R r Hu). congruence. }
      intros d Hd. rewrite (Hr d Hd). apply post_bind. apply post_gets. apply post_bind. apply post_modify. apply post_ret.
      assert (Hin : forall p x, In (p, x) (new_io (w_comp w) dies) <-> found_io (w_comp w) p x).
      { intros p x. rewrite new_io_In. unfold found_io, uncore_die. split.
        - intros (A & B & ds & C & D). split; [exists dies, ds; auto|auto].
        - intros ((dies' & ds & E & C & D) & A & B). rewrite Ed in E. injection E as <-. eauto. }
      split; [|split; [reflexivity|split; [reflexivity|split]]].
      + constructor; cbn [w_info w_comp w_io]; try apply Hw.
        * intros p x H. apply fold_set_add in H as [H|H]; [now apply (wk_io m w Hw)|]. apply Hin in H. apply H.
        * apply fold_set_nodup. apply (wk_iond m w Hw).
      + intros r'. rewrite in_map_iff. split.
        * intros ([p x] & <- & H). exists p, x. split; [reflexivity|]. now apply Hin.
        * intros (p & x & -> & H). exists (p, x). split; [reflexivity|]. now apply Hin.
      + intros p x. cbn [w_io]. rewrite fold_set_add, Hin. reflexivity.
    - rewrite G. apply post_ret. split; [exact Hw|]. split; [reflexivity|]. split; [reflexivity|].
      assert (Hno : forall p x, ~ found_io (w_comp w) p x).
      { intros p x ((dies & ds & E & _) & _). congruence. }
      split.
      + intros r. split; [contradiction|]. intros (p & d & _ & H). exact (Hno p d H).
      + intros p d. split; [now left|]. intros [H|H]; [exact H|]. contradiction (Hno p d H).
  Qed.

  Lemma cached_io_post w : wok m w -> io_rows (in_dict (w_io w)) (cached_io_lines (w_io w)).
  Proof.
    intros Hw r. unfold cached_io_lines. rewrite in_flat_map. split.
    - intros ([p ds] & Hp & H). cbn [fst snd] in H. apply in_map_iff in H as (d & <- & Hd). exists p, d. split; [reflexivity|].
      exists ds. split; [|exact Hd]. apply In_dget; [apply (wk_iond m w Hw)|exact Hp].
    - intros (p & d & -> & ds & Hp & Hd). exists (p, ds). split; [eapply dget_In; exact Hp|]. cbn [fst snd]. now apply in_map.
  Qed.
End IO.
