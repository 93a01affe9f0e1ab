(** Lemmas about "pepc topology info": which columns are printed. *)
From Verif Require Import Base L_Base M_Text S_Text L_Text M_Osa S_Osa L_Osa M_CPUInfo S_CPUInfo M_OpTarget S_OpTarget
  M_TopoInfo S_TopoInfo L_TopoInfo.
From Coq Require Import Sorted ZifyBool.

(** ** Names *)
Lemma white_space c : is_space c = true <-> white c.
Proof. unfold is_space, white. lia. Qed.

Lemma lstrip_split p s : exists b, s = b ++ lstrip_by p s /\ forallb p b = true /\
  (lstrip_by p s = [] \/ p (hd "0"%char (lstrip_by p s)) = false).
Proof.
  induction s as [|c s (b & E & Hb & Hs)]; [exists []; cbn; auto|]. cbn [lstrip_by].
  destruct (p c) eqn:Ec.
  - exists (c :: b). cbn [app forallb]. rewrite <- E, Ec. auto.
  - exists []. cbn. auto.
Qed.

Lemma white_forall b : forallb is_space b = true <-> Forall white b.
Proof.
  rewrite forallb_forall, Forall_forall. split; intros H x Hx; apply white_space; auto.
Qed.

Lemma last_rev (s : str) d : last (rev s) d = hd d s.
Proof.
  destruct s as [|c s]; [reflexivity|]. cbn [rev hd]. apply last_last.
Qed.

Lemma trimmed_strip p : trimmed p (strip p).
Proof.
  unfold strip, strip_by.
  destruct (lstrip_split is_space p) as (b1 & E1 & H1 & S1).
  set (q := lstrip_by is_space p) in *.
  destruct (lstrip_split is_space (rev q)) as (b2 & E2 & H2 & S2).
  set (r := lstrip_by is_space (rev q)) in *.
  assert (Eq : q = rev r ++ rev b2) by (rewrite <- rev_app_distr, <- E2; now rewrite rev_involutive).
  exists b1, (rev b2). split; [rewrite <- Eq; exact E1|].
  split; [now apply white_forall|]. split; [apply white_forall; now rewrite forallb_rev|].
  destruct (list_eq_dec ascii_dec r []) as [->|Hr]; [now left|]. right.
  destruct S2 as [S2|S2]; [congruence|].
  assert (hd "0"%char (rev r) = hd "0"%char q) as Eh.
  { rewrite Eq. destruct (rev r) as [|c l] eqn:El; [|reflexivity].
    exfalso. apply Hr. rewrite <- (rev_involutive r), El. reflexivity. }
  split.
  - rewrite Eh. destruct S1 as [S1|S1].
    + exfalso. rewrite S1 in Eq. destruct (rev r) eqn:El; [|discriminate].
      apply Hr. rewrite <- (rev_involutive r), El. reflexivity.
    + intros W. apply white_space in W. congruence.
  - rewrite last_rev. intros W. apply white_space in W. congruence.
Qed.

Lemma lstrip_white b : forallb is_space b = true -> lstrip_by is_space b = [].
Proof. induction b as [|c b IH]; [reflexivity|]. cbn. intros H. apply andb_true_iff in H as [-> H]. auto. Qed.

Lemma trimmed_unique p n : trimmed p n -> n = strip p.
Proof.
  intros (b1 & b2 & -> & H1 & H2 & Hn). apply white_forall in H1, H2.
  destruct Hn as [->|[Hh Hl]].
  - unfold strip, strip_by. cbn [app]. rewrite (lstrip_white (b1 ++ b2)) by now rewrite forallb_app, H1. reflexivity.
  - destruct (list_eq_dec ascii_dec n []) as [->|Hn].
    + unfold strip, strip_by. cbn [app]. rewrite (lstrip_white (b1 ++ b2)) by now rewrite forallb_app, H1. reflexivity.
    + symmetry. apply strip_mid; auto.
      * destruct (is_space (hd "0"%char n)) eqn:E; [|reflexivity]. now apply white_space in E.
      * destruct (is_space (last n "0"%char)) eqn:E; [|reflexivity]. now apply white_space in E.
Qed.

Lemma items_strip ps ns : items_of ps ns <-> ns = map strip (filter nonemptyb ps).
Proof.
  split.
  - induction 1 as [|ps ns H IH|p ps n ns Hp Ht H IH]; cbn; [reflexivity|exact IH|].
    destruct p; [congruence|]. cbn [nonemptyb map]. apply trimmed_unique in Ht. now rewrite <- Ht, IH.
  - intros ->. induction ps as [|p ps IH]; cbn; [constructor|]. destruct p as [|c p]; cbn.
    + now constructor.
    + constructor; [discriminate|apply trimmed_strip|exact IH].
Qed.

Lemma split_on_nosep sep s : Forall (fun p => ~ In sep p) (split_on sep s).
Proof.
  induction s as [|c s IH]; cbn [split_on].
  - constructor; [intros []|constructor].
  - destruct (Ascii.eqb sep c) eqn:E.
    + constructor; [intros []|exact IH].
    + destruct (split_on sep s) as [|w ws]; [constructor|].
      * intros [->|[]]. now rewrite Ascii.eqb_refl in E.
      * constructor.
      * inversion IH; subst. constructor; [|assumption].
        intros [->|X]; [now rewrite Ascii.eqb_refl in E|auto].
Qed.

Lemma split_on_cons sep s : exists w ws, split_on sep s = w :: ws.
Proof.
  destruct s as [|c s]; cbn [split_on]; [eauto|]. destruct (Ascii.eqb sep c); [eauto|].
  destruct (split_on sep s); eauto.
Qed.

Lemma commas_split s : commas (split_on ","%char s) = s.
Proof.
  induction s as [|c s IH]; [reflexivity|]. cbn [split_on].
  destruct (split_on_cons ","%char s) as (w & ws & E). rewrite E in *.
  destruct (Ascii.eqb ","%char c) eqn:Ec.
  - apply Ascii.eqb_eq in Ec. subst c. cbn [commas app]. now rewrite <- IH.
  - destruct ws as [|v ws]; cbn [commas app] in *; now rewrite IH.
Qed.

Lemma toks_commas ps : Forall (fun p => ~ In ","%char p) ps -> toks "," (commas ps) = filter nonemptyb ps.
Proof.
  intros H. rewrite commas_join, toks_join. induction H as [|p ps Hp H IH]; [reflexivity|].
  cbn [flat_map filter]. rewrite IH. unfold toks. rewrite split_on_none by now apply has_char_false.
  destruct p; reflexivity.
Qed.

Lemma lists_iff text names : lists text names <-> names = split_csv_line "," false false text.
Proof.
  rewrite split_csv_toks. cbn zeta. split.
  - intros (ps & Hc & -> & Hi). apply items_strip in Hi. rewrite toks_commas by exact Hc. exact Hi.
  - intros ->. exists (split_on ","%char text). split; [apply split_on_nosep|].
    split; [symmetry; apply commas_split|]. now apply items_strip.
Qed.

(** ** Levels *)
Lemma find_level_iff n l : find_level n = Some l <-> names_level n l.
Proof.
  assert (H : forall k, str_eqb (lower n) (lower (s2l (level_name k))) = true <-> names_level n k).
  { intros k. rewrite str_eqb_eq. apply (C40_case_l n). }
  unfold find_level, levels_all. split.
  - intros E. apply find_some in E as [_ E]. now apply H.
  - intros Hl. apply H in Hl. apply str_eqb_eq in Hl. rewrite Hl. destruct l; vm_compute; reflexivity.
Qed.

Lemma find_level_none n : find_level n = None <-> forall l, ~ names_level n l.
Proof.
  split.
  - intros E l Hl. apply find_level_iff in Hl. congruence.
  - intros H. destruct (find_level n) as [l|] eqn:E; [|reflexivity]. apply find_level_iff in E. now apply H in E.
Qed.

Lemma hybrid_no_level l : ~ names_level (s2l "hybrid") l.
Proof. intros H. apply find_level_iff in H. destruct l; vm_compute in H; discriminate. Qed.

Lemma parse_columns_ok names : forall ls hy, parse_columns names = Ok (ls, hy) ->
  exists cs, Forall2 names_column names cs /\ level_cols cs = map CLvl ls /\ (hy = true <-> In CHyb cs).
Proof.
  induction names as [|n t IH]; intros ls hy E; cbn [parse_columns] in E.
  - injection E as <- <-. exists []. split; [constructor|]. split; [reflexivity|]. split; [discriminate|intros []].
  - destruct (find_level n) as [l|] eqn:El.
    + destruct (parse_columns t) as [[ls' hy']|e]; cbn in E; [|discriminate]. injection E as <- <-.
      destruct (IH _ _ eq_refl) as (cs & H1 & H2 & H3). exists (CLvl l :: cs).
      split; [constructor; [now apply find_level_iff|exact H1]|]. cbn. split; [now rewrite <- H2|].
      rewrite H3. split; [auto|]. intros [X|X]; [discriminate|exact X].
    + destruct (str_eqb n (s2l "hybrid")) eqn:Eh; [|discriminate]. apply str_eqb_eq in Eh.
      destruct (parse_columns t) as [[ls' hy']|e]; cbn in E; [|discriminate]. injection E as <- <-.
      destruct (IH _ _ eq_refl) as (cs & H1 & H2 & H3). exists (CHyb :: cs).
      split; [constructor; [exact Eh|exact H1]|]. split; [exact H2|]. split; [now left|reflexivity].
Qed.

Lemma parse_columns_live names cs : Forall2 names_column names cs -> exists r, parse_columns names = Ok r.
Proof.
  induction 1 as [|n c ns cs Hc H (r & IH)]; [eexists; reflexivity|]. cbn [parse_columns]. rewrite IH. destruct r as [ls hy].
  destruct c as [l|]; cbn in Hc.
  - apply find_level_iff in Hc. rewrite Hc. cbn. eauto.
  - subst n. rewrite (proj2 (find_level_none _)) by apply hybrid_no_level.
    vm_compute. eauto.
Qed.

(** A name means one column. *)
Lemma names_column_unique n c d : names_column n c -> names_column n d -> c = d.
Proof.
  destruct c as [l|], d as [k|]; cbn; intros H1 H2; auto.
  - apply find_level_iff in H1, H2. congruence.
  - subst. now apply hybrid_no_level in H1.
  - subst. now apply hybrid_no_level in H2.
Qed.

(** ** Default columns *)
Lemma modules_loop lines : StronglySorted (fun t u => t_module t <= t_module u) lines ->
  forall m k p, Forall (fun t => m <= t_module t) lines ->
  (one_core_per_module (Some (m, k, p)) lines = true <->
   (forall t, In t lines -> t_module t = m -> t_core t = k /\ t_pkg t = p) /\
   (forall t u, In t lines -> In u lines -> t_module t = t_module u -> t_core t = t_core u /\ t_pkg t = t_pkg u)).
Proof.
  induction 1 as [|t lines Hs IH Hall]; intros m k p Hm; cbn [one_core_per_module].
  - split; [|reflexivity]. intros _. split; [intros t []|intros t u []].
  - inversion Hm as [|x l Hm1 Hm2]; subst. rewrite Forall_forall in Hall, Hm2.
    destruct (Z.eqb_spec m (t_module t)) as [Em|Em]; cbn [negb].
    + destruct (Z.eqb_spec k (t_core t)) as [Ek|Ek]; cbn [negb orb];
        [destruct (Z.eqb_spec p (t_pkg t)) as [Ep|Ep]; cbn [negb]|].
      * rewrite IH by (apply Forall_forall; exact Hm2). split.
        -- intros [H1 H2]. split; [intros u [<- |Hu] E; [now subst|now apply H1]|].
           intros u v [<- |Hu] [<- |Hv] E.
           ++ now split.
           ++ destruct (H1 v Hv); [congruence|]. subst. auto.
           ++ destruct (H1 u Hu); [congruence|]. subst. auto.
           ++ auto.
        -- intros [H1 H2]. split; [intros u Hu; apply H1; now right|intros u v Hu Hv; apply H2; now right].
      * split; [discriminate|]. intros [H1 _]. destruct (H1 t); [now left|auto|congruence].
      * split; [discriminate|]. intros [H1 _]. destruct (H1 t); [now left|auto|congruence].
    + rewrite IH by (apply Forall_forall; exact Hall). split.
      * intros [H1 H2]. split; [intros u [<- |Hu] E; [congruence|specialize (Hall u Hu); lia]|].
        intros u v [<- |Hu] [<- |Hv] E.
        -- now split.
        -- destruct (H1 v Hv); auto.
        -- destruct (H1 u Hu); auto.
        -- auto.
      * intros [H1 H2]. split; [intros u Hu E; apply H2; [now right|now left|exact E]|].
        intros u v Hu Hv; apply H2; now right.
Qed.

Lemma modules_loop0 lines : StronglySorted (fun t u => t_module t <= t_module u) lines ->
  (one_core_per_module None lines = true <->
   (forall t u, In t lines -> In u lines -> t_module t = t_module u -> t_core t = t_core u /\ t_pkg t = t_pkg u)).
Proof.
  intros H. destruct lines as [|t lines]; cbn [one_core_per_module].
  - split; [intros _ t u []|reflexivity].
  - inversion H as [|x l Hs Hall]; subst. rewrite modules_loop by (auto; eauto using Forall_impl). split.
    + intros [H1 H2] u v [<- |Hu] [<- |Hv] E; [now split| | |auto].
      * destruct (H1 v Hv); auto.
      * destruct (H1 u Hu); auto.
    + intros H1. split; [intros u Hu E; apply H1; [now right|now left|exact E]|].
      intros u v Hu Hv; apply H1; now right.
Qed.

Lemma dies_loop lines : StronglySorted (fun t u => t_pkg t <= t_pkg u) lines ->
  forall p d, Forall (fun t => p <= t_pkg t) lines ->
  (one_die_per_package (Some (p, d)) lines = true <->
   (forall t, In t lines -> t_pkg t = p -> t_die t = d) /\
   (forall t u, In t lines -> In u lines -> t_pkg t = t_pkg u -> t_die t = t_die u)).
Proof.
  induction 1 as [|t lines Hs IH Hall]; intros p d Hm; cbn [one_die_per_package].
  - split; [|reflexivity]. intros _. split; [intros t []|intros t u []].
  - inversion Hm as [|x l Hm1 Hm2]; subst. rewrite Forall_forall in Hall, Hm2.
    destruct (Z.eqb_spec p (t_pkg t)) as [Em|Em]; cbn [negb].
    + destruct (Z.eqb_spec d (t_die t)) as [Ek|Ek]; cbn [negb].
      * rewrite IH by (apply Forall_forall; exact Hm2). split.
        -- intros [H1 H2]. split; [intros u [<- |Hu] E; [now subst|now apply H1]|].
           intros u v [<- |Hu] [<- |Hv] E.
           ++ reflexivity.
           ++ rewrite (H1 v Hv); congruence.
           ++ rewrite (H1 u Hu); congruence.
           ++ auto.
        -- intros [H1 H2]. split; [intros u Hu; apply H1; now right|intros u v Hu Hv; apply H2; now right].
      * split; [discriminate|]. intros [H1 _]. exfalso. apply Ek. rewrite (H1 t); auto. now left.
    + rewrite IH by (apply Forall_forall; exact Hall). split.
      * intros [H1 H2]. split; [intros u [<- |Hu] E; [congruence|specialize (Hall u Hu); lia]|].
        intros u v [<- |Hu] [<- |Hv] E.
        -- reflexivity.
        -- rewrite (H1 v Hv); auto.
        -- rewrite (H1 u Hu); auto.
        -- auto.
      * intros [H1 H2]. split; [intros u Hu E; apply H2; [now right|now left|exact E]|].
        intros u v Hu Hv; apply H2; now right.
Qed.

Lemma dies_loop0 lines : StronglySorted (fun t u => t_pkg t <= t_pkg u) lines ->
  (one_die_per_package None lines = true <->
   (forall t u, In t lines -> In u lines -> t_pkg t = t_pkg u -> t_die t = t_die u)).
Proof.
  intros H. destruct lines as [|t lines]; cbn [one_die_per_package].
  - split; [intros _ t u []|reflexivity].
  - inversion H as [|x l Hs Hall]; subst. rewrite dies_loop by (auto; eauto using Forall_impl). split.
    + intros [H1 H2] u v [<- |Hu] [<- |Hv] E; [reflexivity| | |auto].
      * rewrite (H1 v Hv); auto.
      * rewrite (H1 u Hu); auto.
    + intros H1. split; [intros u Hu E; apply H1; [now right|now left|exact E]|].
      intros u v Hu Hv; apply H1; now right.
Qed.

Lemma sorted_impl {A} (P Q : A -> A -> Prop) l : (forall x y, P x y -> Q x y) -> StronglySorted P l -> StronglySorted Q l.
Proof. intros H. induction 1; constructor; auto. eapply Forall_impl; [|eassumption]. auto. Qed.

Lemma sorted_filter {A} (P : A -> A -> Prop) f l : StronglySorted P l -> StronglySorted P (filter f l).
Proof.
  induction 1 as [|x l Hs IH Hall]; cbn; [constructor|]. destruct (f x); [|exact IH]. constructor; [exact IH|].
  rewrite Forall_forall in *. intros y Hy. apply Hall. now apply filter_In in Hy.
Qed.

Lemma topo_sorted ci order : StronglySorted (fun t u => lexleb (tkey order t) (tkey order u) = true) (get_topology ci order).
Proof.
  unfold get_topology. apply (sort_by_sorted (fun a b => lexleb (tkey order a) (tkey order b))).
  - intros x y. apply lexleb_total.
  - intros x y z. apply lexleb_trans.
Qed.

Lemma topo_In ci order t : In t (get_topology ci order) <-> In t (ci_topo ci).
Proof. apply sort_by_In. Qed.

Lemma lexleb_head x y a b : lexleb (x :: a) (y :: b) = true -> x <= y.
Proof. cbn. destruct (Z.ltb_spec x y); [lia|]. destruct (Z.eqb_spec x y); [lia|discriminate]. Qed.

Lemma Z4_dec (a b c d : Z) : {a = b /\ c = d} + {a <> b \/ c <> d}.
Proof. destruct (Z.eq_dec a b), (Z.eq_dec c d); auto. Qed.

Lemma find_bad {A} (P : A -> A -> Prop) (dec : forall x y, {P x y} + {~ P x y}) (l : list A) :
  (exists x y, In x l /\ In y l /\ ~ P x y) \/ (forall x y, In x l -> In y l -> P x y).
Proof.
  destruct (existsb (fun x => existsb (fun y => if dec x y then false else true) l) l) eqn:E.
  - left. apply existsb_exists in E as (x & Hx & E). apply existsb_exists in E as (y & Hy & E).
    exists x, y. destruct (dec x y); [discriminate|]. auto.
  - right. intros x y Hx Hy. destruct (dec x y) as [H|H]; [exact H|]. exfalso.
    assert (existsb (fun x => existsb (fun y => if dec x y then false else true) l) l = true); [|congruence].
    apply existsb_exists. exists x. split; [exact Hx|]. apply existsb_exists. exists y. split; [exact Hy|].
    destruct (dec x y); [contradiction|reflexivity].
Qed.

Lemma default_ok ci : default_levels ci (default_colnames ci).
Proof.
  unfold default_colnames.
  set (cl := filter (fun t => negb (t_cpu t =? NA)) (get_topology ci LModule)).
  assert (Hcl : forall t, In t cl <-> In t (ci_topo ci) /\ cpu_line t).
  { intros t. unfold cl, cpu_line. rewrite filter_In, topo_In, negb_true_iff, Z.eqb_neq. reflexivity. }
  assert (Hm : one_core_per_module None cl = true <-> ~ shared_module ci).
  { rewrite modules_loop0.
    - split.
      + intros H (t & u & Ht & Hu & Ct & Cu & Em & Hd). destruct (H t u); auto; try (apply Hcl; auto); tauto.
      + intros H t u Ht Hu Em. apply Hcl in Ht as [Ht Ct]. apply Hcl in Hu as [Hu Cu].
        destruct (Z4_dec (t_core t) (t_core u) (t_pkg t) (t_pkg u)) as [X|X]; [exact X|]. exfalso. apply H.
        exists t, u. tauto.
    - apply sorted_filter. eapply sorted_impl; [|apply topo_sorted]. intros x y. apply lexleb_head. }
  assert (Hd : one_die_per_package None (get_topology ci LPkg) = true <-> ~ several_dies ci).
  { rewrite dies_loop0.
    - split.
      + intros H (t & u & Ht & Hu & Em & Hd). apply Hd, H; auto; now apply topo_In.
      + intros H t u Ht Hu Em. apply topo_In in Ht, Hu.
        destruct (Z.eq_dec (t_die t) (t_die u)) as [X|X]; [exact X|]. exfalso. apply H. exists t, u. tauto.
    - eapply sorted_impl; [|apply topo_sorted]. intros x y. apply lexleb_head. }
  assert (Hm' : one_core_per_module None cl = false -> shared_module ci).
  { intros E. destruct (find_bad (fun t u => t_module t = t_module u -> t_core t = t_core u /\ t_pkg t = t_pkg u)
      ltac:(intros x y; destruct (Z.eq_dec (t_module x) (t_module y)), (Z4_dec (t_core x) (t_core y) (t_pkg x) (t_pkg y));
            [left; auto|right; tauto|left; auto|left; tauto]) cl) as [(x & y & Hx & Hy & H)|H].
    - apply Hcl in Hx as [Hx Cx]. apply Hcl in Hy as [Hy Cy]. exists x, y.
      destruct (Z.eq_dec (t_module x) (t_module y)); [|tauto].
      destruct (Z4_dec (t_core x) (t_core y) (t_pkg x) (t_pkg y)); tauto.
    - assert (one_core_per_module None cl = true); [|congruence]. apply Hm. intros (t & u & Ht & Hu & Ct & Cu & Em & X).
      destruct (H t u); auto; try (apply Hcl; auto); tauto. }
  assert (Hd' : one_die_per_package None (get_topology ci LPkg) = false -> several_dies ci).
  { intros E. destruct (find_bad (fun t u => t_pkg t = t_pkg u -> t_die t = t_die u)
      ltac:(intros x y; destruct (Z.eq_dec (t_pkg x) (t_pkg y)), (Z.eq_dec (t_die x) (t_die y));
            [left; auto|right; tauto|left; auto|left; tauto]) (ci_topo ci)) as [(x & y & Hx & Hy & H)|H].
    - exists x, y. destruct (Z.eq_dec (t_pkg x) (t_pkg y)); [|tauto]. destruct (Z.eq_dec (t_die x) (t_die y)); tauto.
    - assert (one_die_per_package None (get_topology ci LPkg) = true); [|congruence]. apply Hd.
      intros (t & u & Ht & Hu & Em & X). apply X, H; auto. }
  destruct (one_core_per_module None cl), (one_die_per_package None (get_topology ci LPkg)); cbn;
    [apply (DL ci [] [])|apply (DL ci [] [LDie])|apply (DL ci [LModule] [])|apply (DL ci [LModule] [LDie])];
    try (left; split; [auto|reflexivity]); right; (split; [|reflexivity]); [now apply Hm|now apply Hd|now apply Hm|now apply Hd].
Qed.
