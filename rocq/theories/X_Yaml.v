(** Examples and counterexamples for C67. *)
From Coq Require Import Ascii String Relations ZifyBool.
From Verif Require Import Base M_Text M_Yaml S_Yaml L_Base L_Text L_Yaml L_Yaml2 L_Yaml3 L_Yaml4 L_Yaml5 L_Yaml6.

Local Open Scope string_scope.
Local Open Scope list_scope.

Definition T (s : string) : yval := YText (s2l s).
Definition K (s : string) : ykey := KText (s2l s).
Definition P (l : list string) : ppath := PP true (map s2l l).
Definition world (tab : list (ppath * yval)) (p : ppath) : file :=
  match dget path_eqb tab p with Some v => FDoc v | None => FNone end.

Lemma world_In : forall tab p v, world tab p = FDoc v -> In v (map snd tab).
Proof.
  intros tab p v. unfold world. induction tab as [|[q w] t IH]; cbn [dget map snd]; [discriminate|].
  destruct (path_eqb p q); intros H; [inversion H; left; reflexivity | right; apply IH; exact H].
Qed.
Lemma once_nodup : forall l : ydict, NoDup (map fst (filter (fun x => negb (is_include (fst x))) l)) -> once l.
Proof.
  intros l N a k v b w c ->. destruct (is_include k) eqn:E; [apply is_include_iff; exact E|]. exfalso.
  rewrite filter_app, map_app in N. cbn [filter fst] in N. rewrite E in N. cbn [negb map fst] in N. apply NoDup_remove_2 in N. apply N.
  rewrite in_app_iff. right. rewrite filter_app, map_app, in_app_iff. right. cbn [filter fst]. rewrite E. left. reflexivity.
Qed.
Lemma proper_doc_map : forall l, NoDup (map fst (filter (fun x => negb (is_include (fst x))) l)) ->
  Forall (fun x => proper (snd x)) l -> proper_doc (YMap l).
Proof. intros l N F m E. inversion E; subst. split; [apply once_nodup; exact N | exact F]. Qed.
Lemma world_proper : forall tab, Forall proper_doc (map snd tab) -> forall p v, world tab p = FDoc v -> proper_doc v.
Proof. intros tab F p v H. apply world_In in H. rewrite Forall_forall in F. apply F. exact H. Qed.

Lemma ord : forall s, is_include (K s) = false -> reserved (K s) = false -> ordinary (K s).
Proof. intros. apply ordinary_iff. auto. Qed.
Lemma inc_eq : include = K "include". Proof. reflexivity. Qed.

(** Settings with an included file *)
Definition item (cpus v : string) : yval := YSeq [YMap [(K "value", T v); (K "CPU", T cpus)]].
Lemma item_proper : forall c v, proper (item c v).
Proof.
  intros. apply pr_seq. constructor; [|constructor]. apply pr_map.
  - cbn [map fst]. constructor; [intros [H|[]]; discriminate H | constructor; [intros [] | constructor]].
  - constructor; [apply ord; vm_compute; reflexivity | constructor; [apply ord; vm_compute; reflexivity | constructor]].
  - constructor; [constructor | constructor; [constructor | constructor]].
Qed.
Definition x_tab : list (ppath * yval) :=
  [(P ["d"; "a.yaml"], YMap [(K "min_freq", item "0" "1GHz"); (include, T "b.yaml"); (K "epp", item "1" "5")]);
   (P ["d"; "b.yaml"], YMap [(K "min_freq", item "0-3" "2GHz"); (K "max_freq", item "0-3" "3GHz"); (include, T "/c.yaml")]);
   (P ["c.yaml"], YMap [(K "epp", item "0" "9"); (include, YNull)])].
Definition x_fs := world x_tab.
Definition x_bs : ydict :=
  [(K "min_freq", item "0" "1GHz"); (K "min_freq", item "0-3" "2GHz"); (K "max_freq", item "0-3" "3GHz"); (K "epp", item "0" "9");
   (K "epp", item "1" "5")].
Definition x_ns := [P ["d"; "b.yaml"]; P ["c.yaml"]].
Definition x_d : ydict := [(K "min_freq", item "0-3" "2GHz"); (K "max_freq", item "0-3" "3GHz"); (K "epp", item "1" "5")].

Ltac nodup := cbn; repeat (constructor; [cbn; intros H; repeat (destruct H as [H|H]; [discriminate H|]); destruct H|]); constructor.
Ltac props := repeat (constructor; [first [apply item_proper | constructor]|]); constructor.

Lemma x_proper : forall p v, x_fs p = FDoc v -> proper_doc v.
Proof.
  apply world_proper. cbn [x_tab map snd]. constructor; [|constructor; [|constructor; [|constructor]]].
  - apply proper_doc_map; [nodup | props].
  - apply proper_doc_map; [nodup | props].
  - apply proper_doc_map; [nodup | props].
Qed.
Lemma ref_in : forall b t q, the_name b t = Some q -> refers b t q.
Proof. intros. apply the_name_iff. assumption. Qed.
Lemma x_expands : expands x_fs 3 (P ["d"; "a.yaml"]) x_bs x_ns.
Proof.
  eapply exp_doc; [vm_compute; reflexivity|].
  change x_bs with ((K "min_freq", item "0" "1GHz") ::
    ([(K "min_freq", item "0-3" "2GHz"); (K "max_freq", item "0-3" "3GHz"); (K "epp", item "0" "9")] ++ [(K "epp", item "1" "5")])).
  apply in_key; [apply ord; vm_compute; reflexivity|].
  change x_ns with (P ["d"; "b.yaml"] :: [P ["c.yaml"]] ++ []).
  apply in_file; [discriminate | apply ref_in; vm_compute; reflexivity | |].
  - eapply exp_doc; [vm_compute; reflexivity|]. apply in_key; [apply ord; vm_compute; reflexivity|].
    apply in_key; [apply ord; vm_compute; reflexivity|].
    change [(K "epp", item "0" "9")] with ([(K "epp", item "0" "9")] ++ []).
    change [P ["c.yaml"]] with (P ["c.yaml"] :: [] ++ []).
    apply in_file; [discriminate | apply ref_in; vm_compute; reflexivity | | constructor].
    eapply exp_doc; [vm_compute; reflexivity|]. apply in_key; [apply ord; vm_compute; reflexivity|].
    apply in_blank; [left; reflexivity | constructor].
  - apply in_key; [apply ord; vm_compute; reflexivity | constructor].
Qed.
Lemma x_nodup : NoDup x_ns.
Proof. unfold x_ns. constructor; [intros [H|[]]; discriminate H | constructor; [intros [] | constructor]]. Qed.
Example x_loads : fst (yload x_fs 3 (P ["d"; "a.yaml"])) = inr x_d.
Proof. vm_compute. reflexivity. Qed.
Example C67_case_l : (forall p v, x_fs p = FDoc v -> proper_doc v) /\ expands x_fs 3 (P ["d"; "a.yaml"]) x_bs x_ns /\ NoDup x_ns /\
  dict_of x_bs x_d /\ fst (yload x_fs 3 (P ["d"; "a.yaml"])) = inr x_d /\
  (forall p, ~ In p (map fst x_tab) -> x_fs p = FNone).
Proof.
  split; [exact x_proper | split; [exact x_expands | split; [exact x_nodup|]]]. split; [|split; [exact x_loads|]].
  - destruct (C67_succeeds_l x_fs 3 3 _ _ _ x_proper x_expands x_nodup (le_n 3)) as (d & s & E & D & _).
    pose proof x_loads as L. rewrite E in L. cbn [fst] in L. inversion L; subst. exact D.
  - intros p N. unfold x_fs, world. destruct (dget path_eqb x_tab p) as [v|] eqn:E; [|reflexivity]. exfalso. apply N.
    revert E. generalize x_tab. intros tab. induction tab as [|[q w] t IH]; cbn [dget map fst]; [discriminate|].
    destruct (path_eqb p q) eqn:X; intros H; [left; symmetry; apply path_eqb_eq; exact X | right; apply IH; exact H].
Qed.

(** A restore *)
Definition r_tab : list (ppath * yval) :=
  [(P ["a.yaml"], YMap [(K "epp", item "0" "5"); (include, T "/b.yaml")]);
   (P ["b.yaml"], YMap [(K "min_freq", YSeq [YMap [(K "value", T "2GHz"); (K "die", YMap [(KNum 0, T "0-1")])]])])].
Definition r_known := [s2l "epp"; s2l "min_freq"].
Lemma r_proper : forall p v, world r_tab p = FDoc v -> proper_doc v.
Proof.
  apply world_proper. cbn [r_tab map snd]. constructor; [|constructor; [|constructor]].
  - apply proper_doc_map; [nodup | props].
  - apply proper_doc_map; [nodup|]. constructor; [|constructor]. cbn [snd]. apply pr_seq. constructor; [|constructor]. apply pr_map.
    + nodup.
    + constructor; [apply ord; vm_compute; reflexivity | constructor; [apply ord; vm_compute; reflexivity | constructor]].
    + constructor; [constructor | constructor; [|constructor]]. cbn [snd]. apply pr_map; [nodup | |].
      * constructor; [|constructor]. split; [discriminate | intros; discriminate].
      * constructor; [constructor | constructor].
Qed.
Example C67_restore_case_l : (forall p v, world r_tab p = FDoc v -> proper_doc v) /\
  restore_plan (world r_tab) r_known 2 (s2l "/a.yaml") FNone =
  inr [(K "epp", Some (WCPU (T "0"), T "5")); (K "min_freq", Some (WDie (YMap [(KNum 0, T "0-1")]), T "2GHz"))].
Proof. split; [exact r_proper | vm_compute; reflexivity]. Qed.
(** An unknown key after a known one: nothing is set *)
Example C67_restore_refused_case_l :
  restore_plan (world [(P ["a.yaml"], YMap [(K "epp", item "0" "5"); (K "eppp", item "0" "5")])]) r_known 2 (s2l "/a.yaml") FNone
  = inl YError.
Proof. vm_compute. reflexivity. Qed.

(** *** Counterexamples *)
(** An 'include' inside a value is not an include *)
Lemma C67_nested_refuted_l : exists fs p d, fs p = FDoc (YMap [(K "a", YMap [(include, T "b.yaml")])]) /\
  fst (yload fs 5 p) = inr d /\ d = [(K "a", YMap [(K "include_0", T "b.yaml")])].
Proof.
  exists (world [(P ["a.yaml"], YMap [(K "a", YMap [(include, T "b.yaml")])])]), (P ["a.yaml"]). eexists.
  split; [vm_compute; reflexivity | split; vm_compute; reflexivity].
Qed.
(** A key that is there again after the include *)
Lemma C67_again_refuted_l : exists fs p a b v w x, fs p = FDoc (YMap [(K "k", v); (include, T b); (K "k", w)]) /\
  fs (P [b]) = FDoc (YMap [(K "k", x)]) /\ p = P [a] /\ w <> x /\ fst (yload fs 5 p) = inr [(K "k", x)].
Proof.
  exists (world [(P ["a.yaml"], YMap [(K "k", YNum 1); (include, T "b.yaml"); (K "k", YNum 3)]); (P ["b.yaml"], YMap [(K "k", YNum 2)])]).
  exists (P ["a.yaml"]), "a.yaml"%string, "b.yaml"%string, (YNum 1), (YNum 3), (YNum 2).
  split; [vm_compute; reflexivity | split; [vm_compute; reflexivity | split; [reflexivity | split; [discriminate | vm_compute; reflexivity]]]].
Qed.
(** Two files include a third one *)
Definition dia : list (ppath * yval) :=
  [(P ["a"], YMap [(include, T "b"); (include, T "c")]); (P ["b"], YMap [(include, T "d")]);
   (P ["c"], YMap [(include, T "d")]); (P ["d"], YMap [(K "k", YNum 1)])].
Lemma dia_proper : forall p v, world dia p = FDoc v -> proper_doc v.
Proof.
  apply world_proper. cbn [dia map snd]. constructor; [|constructor; [|constructor; [|constructor; [|constructor]]]];
    (apply proper_doc_map; [nodup | props]).
Qed.
Lemma dia_d : expands (world dia) 1 (P ["d"]) [(K "k", YNum 1)] [].
Proof. eapply exp_doc; [vm_compute; reflexivity|]. apply in_key; [apply ord; vm_compute; reflexivity | constructor]. Qed.
Lemma dia_bc : forall x, x = "b"%string \/ x = "c"%string -> expands (world dia) 2 (P [x]) [(K "k", YNum 1)] [P ["d"]].
Proof.
  intros x Hx. eapply (exp_doc _ 1 (P [x]) [(include, T "d")]); [destruct Hx; subst; vm_compute; reflexivity|].
  change [(K "k", YNum 1)] with ([(K "k", YNum 1)] ++ []). change [P ["d"]] with (P ["d"] :: [] ++ []).
  apply in_file; [discriminate | apply ref_in; destruct Hx; subst; vm_compute; reflexivity | exact dia_d | constructor].
Qed.
Lemma dia_a : expands (world dia) 3 (P ["a"]) [(K "k", YNum 1); (K "k", YNum 1)] [P ["b"]; P ["d"]; P ["c"]; P ["d"]].
Proof.
  eapply exp_doc; [vm_compute; reflexivity|].
  change [(K "k", YNum 1); (K "k", YNum 1)] with ([(K "k", YNum 1)] ++ [(K "k", YNum 1)] ++ []).
  change [P ["b"]; P ["d"]; P ["c"]; P ["d"]] with (P ["b"] :: [P ["d"]] ++ P ["c"] :: [P ["d"]] ++ []).
  apply in_file; [discriminate | apply ref_in; vm_compute; reflexivity | apply dia_bc; left; reflexivity|].
  apply in_file; [discriminate | apply ref_in; vm_compute; reflexivity | apply dia_bc; right; reflexivity | constructor].
Qed.
Lemma C67_shared_refuted_l : exists fs p k bs ns, (forall p v, fs p = FDoc v -> proper_doc v) /\ expands fs k p bs ns /\
  (forall q, clos_refl_trans _ (includes fs) p q -> ~ clos_trans _ (includes fs) q q) /\
  forall n, (k <= n)%nat -> fst (yload fs n p) = inl YError.
Proof.
  exists (world dia), (P ["a"]), 3%nat. eexists. eexists. split; [exact dia_proper | split; [exact dia_a|]]. split.
  - intros q R. assert (X : exists m bs ns, expands (world dia) m q bs ns).
    { apply clos_rt_rt1n in R. pose proof dia_a as E. revert E. generalize 3%nat, [(K "k", YNum 1); (K "k", YNum 1)], [P ["b"]; P ["d"]; P ["c"]; P ["d"]].
      induction R as [p|p y z A B IH]; intros n bs ns E; [eauto|].
      destruct (expands_includes _ _ _ _ _ _ E A) as (m & bs' & ns' & _ & E'). eapply IH. exact E'. }
    destruct X as (m & bs & ns & X). eapply no_circle. exact X.
  - intros n L. eapply C67_repeated_refused_l; [exact dia_proper | exact dia_a | | exact L].
    intros N. inversion N as [|? ? _ N1]; subst. inversion N1 as [|? ? N2 _]; subst. apply N2. right. left. reflexivity.
Qed.

(** A file that includes itself by a longer and longer name *)
Definition loop_doc : yval := YMap [(include, T "../d/x")].
Definition loop_fs (p : ppath) : file := if list_eq_dec (list_eq_dec ascii_dec) (resolve p) (map s2l ["d"; "x"]%string) then FDoc loop_doc else FNone.
Lemma loop_runs : forall n dir s, resolve (PP true dir) = [s2l "d"] ->
  (forall q, In q (y_inc s) -> (length (pp_parts q) <= length dir + 1)%nat) ->
  fst (load loop_fs n (PP true (dir ++ [s2l "x"])) s) = inl YDeep.
Proof.
  induction n as [|n IH]; intros dir s R I; [reflexivity|]. cbn [load].
  assert (F : loop_fs (PP true (dir ++ [s2l "x"])) = FDoc loop_doc).
  { unfold loop_fs. unfold resolve in *. cbn [pp_parts] in *. rewrite fold_left_app. cbn [fold_left].
    apply (f_equal (@rev str)) in R. rewrite rev_involutive in R. rewrite R.
    match goal with |- context [list_eq_dec ?a ?b ?c] => destruct (list_eq_dec a b c) as [E|E] end; [reflexivity|].
    exfalso. apply E. vm_compute. reflexivity. }
  rewrite F. unfold loaded.
  change (parse (FDoc loop_doc)) with (@inr yexc yval (YMap [(K "include_0", T "../d/x")])).
  cbn [ytruthy negb]. cbn [items].
  change (reserved (K "include_0")) with true. cbn [negb]. change (ytruthy (T "../d/x")) with true. cbn [negb]. unfold T at 1. cbv zeta.
  change (mkpath (s2l "../d/x")) with (PP false [s2l ".."; s2l "d"; s2l "x"]). cbn [pp_abs option_map].
  unfold pjoin, pparent. cbn [pp_abs pp_parts y_inc y_opened]. rewrite removelast_last.
  destruct (existsb _ (y_inc s)) eqn:X.
  - apply inc_In in X. apply I in X. cbn [pp_parts] in X. rewrite app_length in X. cbn [Datatypes.length] in X. lia.
  - assert (Y : fst (load loop_fs n (PP true ((dir ++ [s2l ".."; s2l "d"]) ++ [s2l "x"]))
                       (YSt (PP true (dir ++ [s2l ".."; s2l "d"; s2l "x"]) :: y_inc s) (PP true (dir ++ [s2l "x"]) :: y_opened s))) = inl YDeep).
    { apply IH.
      - unfold resolve in *. cbn [pp_parts] in *. rewrite fold_left_app.
        apply (f_equal (@rev str)) in R. rewrite rev_involutive in R. rewrite R. vm_compute. reflexivity.
      - cbn [y_inc]. intros q [<-|Q]; [cbn [pp_parts]|apply I in Q]; rewrite !app_length in *; cbn [Datatypes.length] in *; lia. }
    rewrite <- app_assoc in Y. cbn [app] in Y.
    match goal with |- context [load loop_fs n ?a ?b] => change (fst (load loop_fs n a b) = inl YDeep) in Y; destruct (load loop_fs n a b) as [[e|d] s'] end;
      cbn [fst] in Y |- *; [exact Y | discriminate Y].
Qed.
Lemma C67_endless_refuted_l : exists fs p, (forall p q, resolve p = resolve q -> fs p = fs q) /\
  forall n, fst (yload fs n p) = inl YDeep.
Proof.
  exists loop_fs, (PP true [s2l "d"; s2l "x"]). split.
  - intros p q E. unfold loop_fs. rewrite E. reflexivity.
  - intros n. apply (loop_runs n [s2l "d"] (YSt [] [])); [vm_compute; reflexivity | intros q []].
Qed.

(** 'restore' of a file with a relative include *)
Definition rel : list (ppath * yval) :=
  [(P ["a.yaml"], YMap [(include, T "b.yaml")]); (P ["b.yaml"], YMap [(K "epp", item "0" "5")])].
Lemma C67_relative_refuted_l : exists fs infile d, fst (yload fs 2 (file_named infile)) = inr d /\ restorable r_known d /\
  forall n stdin, restore_plan fs r_known (S n) infile stdin = inl YAttr.
Proof.
  exists (world rel), (s2l "/a.yaml"). eexists. split; [vm_compute; reflexivity|]. split.
  - apply C67_valid_l. vm_compute. reflexivity.
  - intros n stdin. unfold restore_plan. change (str_eqb (s2l "/a.yaml") (s2l "-")) with false. cbv iota.
    unfold yload_text, loaded. change (parse (world rel (mkpath (s2l "/a.yaml")))) with (@inr yexc yval (YMap [(K "include_0", T "b.yaml")])).
    reflexivity.
Qed.
(** A document that is not a mapping *)
Lemma C67_list_refuted_l : exists fs infile, fs (file_named infile) = FDoc (YSeq [YNum 1]) /\
  forall n stdin, restore_plan fs r_known (S n) infile stdin = inl YAttr.
Proof.
  exists (world [(P ["a.yaml"], YSeq [YNum 1])]), (s2l "/a.yaml"). split; [vm_compute; reflexivity|].
  intros n stdin. unfold restore_plan. change (str_eqb (s2l "/a.yaml") (s2l "-")) with false. cbv iota.
  unfold yload_text, loaded.
  change (parse (world [(P ["a.yaml"], YSeq [YNum 1])] (mkpath (s2l "/a.yaml")))) with (@inr yexc yval (YSeq [YNum 1])).
  reflexivity.
Qed.
