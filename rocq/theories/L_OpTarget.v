(** Lemmas about operation targets: resolving the constructor arguments. *)
From Coq Require Import ZifyBool.
From Verif Require Import Base L_Base M_CPUInfo S_CPUInfo L_CPUInfo L_CPUInfo2 M_OpTarget S_OpTarget.

Lemma truthy_spec {A} (l : list A) : truthy l = true <-> l <> [].
Proof. destruct l; cbn; split; congruence. Qed.
Lemma truthy_false {A} (l : list A) : truthy l = false <-> l = [].
Proof. destruct l; cbn; split; congruence. Qed.
Lemma given_nums_spec a : given_nums a = true <-> names a.
Proof. destruct a as [[l|]|]; cbn; [apply truthy_spec|tauto|]. split; [discriminate|tauto]. Qed.
Lemma given_units_spec a : given_units a = true <-> names_units a.
Proof.
  destruct a as [|[l|]|d]; cbn; [|apply truthy_spec|tauto|apply truthy_spec].
  split; [discriminate|tauto].
Qed.
Lemma given_nums_false a : given_nums a = false <-> ~ names a.
Proof. rewrite <- given_nums_spec. destruct (given_nums a); split; congruence. Qed.
Lemma given_units_false a : given_units a = false <-> ~ names_units a.
Proof. rewrite <- given_units_spec. destruct (given_units a); split; congruence. Qed.
Lemma units_all_spec a : units_all a = true <-> a = UNums None.
Proof. destruct a as [|[l|]|d]; cbn; split; congruence. Qed.

(** ** Mapping with failures *)

Lemma rmap_ok {A B} (f : A -> res B) l r :
  rmap l f = Ok r -> Forall2 (fun x y => f x = Ok y) l r.
Proof.
  revert r. induction l as [|x t IH]; cbn; intros r H; [injection H as <-; constructor|].
  destruct (f x) as [y|] eqn:E; [|discriminate]. cbn in H.
  destruct (rmap t f) as [ys|] eqn:E'; [|discriminate]. cbn in H. injection H as <-.
  constructor; auto.
Qed.
Lemma rmap_succeeds {A B} (f : A -> res B) l :
  (forall x, In x l -> exists y, f x = Ok y) -> exists r, rmap l f = Ok r.
Proof.
  induction l as [|x t IH]; cbn; intros H; [eauto|].
  destruct (H x) as (y & ->); [now left|]. destruct IH as (ys & ->); [auto|]. cbn. eauto.
Qed.
Lemma Forall2_In_l {A B} (P : A -> B -> Prop) l m x :
  Forall2 P l m -> In x l -> exists y, In y m /\ P x y.
Proof. induction 1; cbn; [tauto|]. intros [<-|H1]; [eauto|]. destruct (IHForall2 H1) as (?&?&?); eauto. Qed.
Lemma Forall2_In_r {A B} (P : A -> B -> Prop) l m y :
  Forall2 P l m -> In y m -> exists x, In x l /\ P x y.
Proof. induction 1; cbn; [tauto|]. intros [<-|H1]; [eauto|]. destruct (IHForall2 H1) as (?&?&?); eauto. Qed.

(** ** Units of packages *)

(** The (package, unit) pairs of a dictionary. *)
Definition in_dict (d : list (Z * list Z)) (p u : Z) : Prop := exists l, In (p, l) d /\ In u l.

Lemma index_package_ok pn nums : forall seen l s,
  index_package pn nums seen = Ok (l, s) ->
  (forall u, In u l <-> In u nums /\ In u pn) /\
  (forall u, In u s <-> In u seen \/ In u l) /\
  (forall u, In u l -> ~ In u seen).
Proof.
  induction nums as [|n t IH]; cbn; intros seen l s H.
  - injection H as <- <-. cbn. intuition.
  - destruct (inb n pn) eqn:E.
    + destruct (inb n seen) eqn:E'; [discriminate|].
      destruct (index_package pn t (n :: seen)) as [[l' s']|] eqn:E2; [|discriminate].
      cbn in H. injection H as <- <-. apply IH in E2 as (A & B & C).
      apply inb_In in E. apply inb_false in E'. split; [|split].
      * intros u. cbn. rewrite A. intuition (subst; auto).
      * intros u. rewrite B. cbn. intuition.
      * intros u [<-|Hu]; [auto|]. intros Hs. apply (C u Hu). now right.
    + apply IH in H as (A & B & C). apply inb_false in E. split; [|split; auto].
      intros u. rewrite A. intuition (subst; tauto).
Qed.

Lemma index_package_succeeds pn nums : forall seen,
  NoDup nums -> (forall u, In u nums -> In u pn -> ~ In u seen) ->
  exists l s, index_package pn nums seen = Ok (l, s).
Proof.
  induction nums as [|n t IH]; cbn; intros seen Hnd H; [eauto|].
  inversion Hnd as [|? ? Hni Hnd']; subst.
  destruct (inb n pn) eqn:E.
  - replace (inb n seen) with false by (symmetry; apply inb_false; apply H; [auto|now apply inb_In]).
    destruct (IH (n :: seen)) as (l & s & ->); [auto| |cbn; eauto].
    intros u Hu Hp [<-|Hs]; [auto|]. apply (H u); auto.
  - apply IH; auto.
Qed.

Lemma index_packages_ok L : forall nums seen r,
  NoDup (map fst L) -> index_packages L nums seen = Ok r ->
  (forall p u, in_dict r p u <-> in_dict L p u /\ In u nums) /\
  (forall p l, In (p, l) r -> l <> [] /\ In p (map fst L)) /\
  (forall p u, in_dict L p u -> In u nums -> ~ In u seen) /\
  (forall p q u, in_dict L p u -> in_dict L q u -> In u nums -> p = q).
Proof.
  induction L as [|[p pn] rest IH]; cbn [index_packages]; intros nums seen r Hnd H.
  - injection H as <-. unfold in_dict. cbn. repeat split; intros; repeat match goal with
      | H : exists _, _ |- _ => destruct H | H : _ /\ _ |- _ => destruct H | H : False |- _ => destruct H end.
  - destruct (index_package pn nums seen) as [[l s]|] eqn:E1; [|discriminate]. cbn in H.
    destruct (index_packages rest nums s) as [r'|] eqn:E2; [|discriminate]. cbn in H.
    injection H as <-. inversion Hnd as [|? ? Hni Hnd']; subst. cbn in Hni, Hnd'.
    apply index_package_ok in E1 as (A & B & C).
    destruct (IH _ _ _ Hnd' E2) as (I1 & I2 & I3 & I4).
    assert (Hd : forall q u, in_dict ((p, pn) :: rest) q u <-> (q = p /\ In u pn) \/ in_dict rest q u).
    { intros q u. unfold in_dict. split.
      - intros (l' & [[= <- <-]|Hi] & Hu); [auto|]. right. eauto.
      - intros [(-> & Hu)|(l' & Hi & Hu)]; [exists pn; cbn; auto|exists l'; cbn; auto]. }
    assert (Hr : forall q u, in_dict (if truthy l then (p, l) :: r' else r') q u <->
                             (q = p /\ In u l) \/ in_dict r' q u).
    { intros q u. destruct (truthy l) eqn:T.
      - unfold in_dict. split.
        + intros (l' & [[= <- <-]|Hi] & Hu); [auto|]. right. eauto.
        + intros [(-> & Hu)|(l' & Hi & Hu)]; [exists l; cbn; auto|exists l'; cbn; auto].
      - apply truthy_false in T. subst l. cbn. tauto. }
    assert (Hk : forall q u, in_dict rest q u -> q <> p).
    { intros q u (l' & Hi & _) ->. apply Hni. now apply (in_map fst) in Hi. }
    split; [|split; [|split]].
    + intros q u. rewrite Hr, Hd, I1, A. tauto.
    + intros q l' Hin. destruct (truthy l) eqn:T.
      * destruct Hin as [[= <- <-]|Hin]; [|destruct (I2 _ _ Hin); cbn; auto].
        split; [now apply truthy_spec|cbn; auto].
      * destruct (I2 _ _ Hin); cbn; auto.
    + intros q u Hi Hu. rewrite Hd in Hi. destruct Hi as [(-> & Hp)|Hi].
      * apply C. now rewrite A.
      * intros Hs. apply (I3 q u Hi Hu). rewrite B. now left.
    + intros q q' u Hi Hi' Hu. rewrite Hd in Hi, Hi'.
      destruct Hi as [(-> & Hp)|Hi], Hi' as [(-> & Hp')|Hi'].
      * reflexivity.
      * exfalso. apply (I3 q' u Hi' Hu). rewrite B, A. auto.
      * exfalso. apply (I3 q u Hi Hu). rewrite B, A. auto.
      * eauto.
Qed.

Lemma index_packages_succeeds L : forall nums seen,
  NoDup (map fst L) -> NoDup nums ->
  (forall p u, in_dict L p u -> In u nums -> ~ In u seen) ->
  (forall p q u, in_dict L p u -> in_dict L q u -> In u nums -> p = q) ->
  exists r, index_packages L nums seen = Ok r.
Proof.
  induction L as [|[p pn] rest IH]; cbn [index_packages]; intros nums seen Hnd Hn H1 H2; [eauto|].
  inversion Hnd as [|? ? Hni Hnd']; subst. cbn in Hni, Hnd'.
  destruct (index_package_succeeds pn nums seen) as (l & s & E); [auto| |].
  { intros u Hu Hp. apply (H1 p u); [exists pn; cbn; auto|auto]. }
  rewrite E. cbn [rbind]. apply index_package_ok in E as (A & B & C).
  assert (Hm : forall q u, in_dict rest q u -> in_dict ((p, pn) :: rest) q u).
  { intros q u (l' & Hi & Hu). exists l'. cbn; auto. }
  destruct (IH nums s Hnd' Hn) as (r & ->); [| |cbn; eauto].
  - intros q u Hi Hu Hs. rewrite B in Hs. destruct Hs as [Hs|Hs].
    + exact (H1 q u (Hm _ _ Hi) Hu Hs).
    + rewrite A in Hs. assert (p = q).
      { apply (H2 p q u); auto. exists pn. cbn; tauto. }
      subst q. apply Hni. destruct Hi as (l' & Hi & _). now apply (in_map fst) in Hi.
  - intros q q' u Hi Hi' Hu. eapply H2; eauto.
Qed.

Section Units.
Variable ci : cpuinfo.
Variable pkg_units : Z -> res (list Z).
Variable U : Z * Z -> Prop.
Hypothesis wf : wf_ci ci.
Hypothesis Upkg : forall p u, U (p, u) -> is_pkg (ci_topo ci) p.
Hypothesis Ulist : forall p, is_pkg (ci_topo ci) p ->
  exists r, pkg_units p = Ok r /\ NoDup r /\ forall u, In u r <-> U (p, u).

Definition normU (n : nums_t) (p : Z) : res (list Z) :=
  let? avail := pkg_units p in
  match n with None => Ok avail | Some l => normalize_in avail l end.

Lemma pkg2nums_ok :
  exists pkgs L, get_packages ci = Ok pkgs /\
    rmap pkgs (fun p => let? l := pkg_units p in Ok (p, l)) = Ok L /\
    NoDup (map fst L) /\ (forall p u, in_dict L p u <-> U (p, u)).
Proof.
  destruct (get_packages_l ci wf) as (pkgs & E & Hnd & Hin). exists pkgs.
  destruct (rmap_succeeds (fun p => let? l := pkg_units p in Ok (p, l)) pkgs) as (L & EL).
  { intros p Hp. apply Hin in Hp. destruct (Ulist p Hp) as (r & -> & _). cbn. eauto. }
  exists L. split; [exact E|]. split; [exact EL|]. apply rmap_ok in EL.
  assert (Ek : map fst L = pkgs).
  { clear - EL. induction EL as [|p e l m H H' IH]; cbn; [reflexivity|].
    destruct (pkg_units p) as [r|]; [|discriminate]. cbn in H. injection H as <-. cbn. now f_equal. }
  split; [now rewrite Ek|]. intros p u. split.
  - intros (l & Hi & Hu). destruct (Forall2_In_r _ _ _ _ EL Hi) as (q & Hq & Eq).
    apply Hin in Hq. destruct (Ulist q Hq) as (r & Er & _ & Hr). rewrite Er in Eq. cbn in Eq.
    injection Eq as -> ->. now apply Hr.
  - intros Hu. pose proof (Upkg p u Hu) as Hp. apply Hin in Hp.
    destruct (Forall2_In_l _ _ _ _ EL Hp) as (e & He & Ee).
    destruct (Ulist p) as (r & Er & _ & Hr); [now apply Hin|]. rewrite Er in Ee. cbn in Ee.
    injection Ee as <-. exists r. split; [exact He|]. now apply Hr.
Qed.

Lemma build_indexed_ok nums r :
  build_indexed ci pkg_units nums = Ok r ->
  (forall p u, in_dict r p u <-> U (p, u) /\ In u nums) /\
  (forall p l, In (p, l) r -> l <> []) /\
  (forall u, In u nums -> exists p, U (p, u) /\ forall q, U (q, u) -> q = p).
Proof.
  unfold build_indexed. destruct pkg2nums_ok as (pkgs & L & -> & E & Hnd & Hin). cbn [rbind].
  rewrite E. cbn [rbind]. destruct (subsetb nums (flat_map snd L)) eqn:Es; [|discriminate].
  intros H. destruct (index_packages_ok L nums [] r Hnd H) as (A & B & _ & D).
  split; [|split].
  - intros p u. rewrite A, Hin. tauto.
  - intros p l Hi. now apply (B p l).
  - intros u Hu. apply subsetb_incl in Es. apply Es in Hu as Hf. apply in_flat_map in Hf.
    destruct Hf as ((p & l) & Hl & Hul). cbn in Hul. exists p.
    assert (Hp : in_dict L p u) by (exists l; auto). split; [now apply Hin|].
    intros q Hq. apply (D q p u); auto. now apply Hin.
Qed.

Lemma build_indexed_succeeds nums :
  NoDup nums -> (forall u, In u nums -> exists p, U (p, u) /\ forall q, U (q, u) -> q = p) ->
  exists r, build_indexed ci pkg_units nums = Ok r.
Proof.
  intros Hn H. unfold build_indexed. destruct pkg2nums_ok as (pkgs & L & -> & E & Hnd & Hin).
  cbn [rbind]. rewrite E. cbn [rbind].
  replace (subsetb nums (flat_map snd L)) with true.
  - apply index_packages_succeeds; auto. intros p q u Hp Hq Hu.
    destruct (H u Hu) as (x & _ & Hx). rewrite (Hx p), (Hx q); auto; now apply Hin.
  - symmetry. apply subsetb_incl. intros u Hu. destruct (H u Hu) as (p & Hp & _).
    apply Hin in Hp as (l & Hl & Hul). apply in_flat_map. exists (p, l). auto.
Qed.

Lemma normU_ok n p r : is_pkg (ci_topo ci) p -> normU n p = Ok r ->
  (forall u, In u r <-> U (p, u) /\ nums_has n u) /\
  (forall l, n = Some l -> forall u, In u l -> U (p, u)).
Proof.
  intros Hp. destruct (Ulist p Hp) as (av & E & _ & Hav). unfold normU. rewrite E. cbn [rbind].
  destruct n as [l|].
  - intros H. apply normalize_in_ok in H as (-> & H). split.
    + intros u. rewrite dedup_In. cbn. split; [|tauto]. intros Hu. split; [now apply Hav, H|auto].
    + intros l' [= <-] u Hu. now apply Hav, H.
  - intros [= <-]. split; [|discriminate]. intros u. rewrite Hav. cbn. tauto.
Qed.
Lemma normU_succeeds n p : is_pkg (ci_topo ci) p ->
  (forall l, n = Some l -> forall u, In u l -> U (p, u)) -> exists r, normU n p = Ok r.
Proof.
  intros Hp H. destruct (Ulist p Hp) as (av & E & _ & Hav). unfold normU. rewrite E. cbn [rbind].
  destruct n as [l|]; [|eauto]. rewrite normalize_in_succeeds; [eauto|].
  intros u Hu. apply Hav. now apply (H l).
Qed.

Lemma normalize_packages_ok n r : normalize_packages ci n = Ok r ->
  (forall p, In p r <-> is_pkg (ci_topo ci) p /\ nums_has n p) /\
  (forall l, n = Some l -> forall p, In p l -> is_pkg (ci_topo ci) p).
Proof.
  unfold normalize_packages. destruct (get_packages_l ci wf) as (av & E & _ & Hav).
  rewrite E. cbn [rbind]. destruct n as [l|].
  - intros H. apply normalize_in_ok in H as (-> & H). split.
    + intros u. rewrite dedup_In. cbn. split; [|tauto]. intros Hu. split; [now apply Hav, H|auto].
    + intros l' [= <-] u Hu. now apply Hav, H.
  - intros [= <-]. split; [|discriminate]. intros u. rewrite Hav. cbn. tauto.
Qed.
Lemma normalize_packages_succeeds n :
  (forall l, n = Some l -> forall p, In p l -> is_pkg (ci_topo ci) p) ->
  exists r, normalize_packages ci n = Ok r.
Proof.
  intros H. unfold normalize_packages. destruct (get_packages_l ci wf) as (av & E & _ & Hav).
  rewrite E. cbn [rbind]. destruct n as [l|]; [|eauto]. rewrite normalize_in_succeeds; [eauto|].
  intros u Hu. apply Hav. now apply (H l).
Qed.

Lemma resolve_dict_ok d r :
  resolve_dict ci normU d = Ok r ->
  (forall p u, in_dict r p u <-> in_dict d p u) /\
  (forall p l, In (p, l) r -> is_pkg (ci_topo ci) p) /\
  (forall p l, In (p, l) d -> is_pkg (ci_topo ci) p /\ forall u, In u l -> U (p, u)) /\
  ((forall p l, In (p, l) d -> l <> []) -> d <> [] -> r <> []) /\ (r <> [] -> d <> []).
Proof.
  unfold resolve_dict. destruct (rmap d _) as [ls|] eqn:E; [|discriminate]. cbn [rbind].
  intros [= <-]. apply rmap_ok in E. induction E as [|[p nums] y d ls H E IH].
  - cbn. unfold in_dict. repeat split; try tauto; intros; try tauto.
  - destruct (normalize_packages ci (Some [p])) as [ps|] eqn:Ep; [|discriminate]. cbn [rbind] in H.
    destruct (normalize_packages_ok _ _ Ep) as (_ & Hp). specialize (Hp _ eq_refl p (or_introl eq_refl)).
    assert (Hy : (forall u, in_dict y p u <-> In u nums) /\ (forall q l, In (q, l) y -> q = p) /\
                 (forall u, In u nums -> U (p, u)) /\ (nums <> [] -> y <> [])).
    { destruct (truthy nums) eqn:T.
      - destruct (normU (Some nums) p) as [l|] eqn:El; [|discriminate]. cbn in H. injection H as <-.
        destruct (normU_ok _ _ _ Hp El) as (A & B). specialize (B _ eq_refl). repeat split.
        + intros (l' & [[= <-]|[]] & Hu). now apply A in Hu.
        + intros Hu. exists l. split; [now left|]. apply A. cbn. auto.
        + intros q l' [[= <- <-]|[]]. reflexivity.
        + exact B.
        + discriminate.
      - apply truthy_false in T. subst nums. injection H as <-. cbn.
        repeat split; try tauto. intros (l & [] & _). }
    destruct Hy as (Y1 & Y2 & Y3 & Y4). destruct IH as (I1 & I2 & I3 & I4 & I5). cbn [concat].
    split; [|split; [|split; [|split]]].
    + intros q u. split.
      * intros (l & Hi & Hu). apply in_app_or in Hi as [Hi|Hi].
        -- assert (q = p) by eauto. subst q. exists nums. split; [now left|]. apply Y1. exists l. auto.
        -- destruct (proj1 (I1 q u)) as (l' & ? & ?); [exists l; auto|]. exists l'. cbn; auto.
      * intros (l & [[= <- <-]|Hi] & Hu).
        -- apply Y1 in Hu as (l & Hi & Hu). exists l. split; [apply in_or_app; auto|auto].
        -- destruct (proj2 (I1 q u)) as (l' & ? & ?); [exists l; auto|]. exists l'.
           split; [apply in_or_app; auto|auto].
    + intros q l Hi. apply in_app_or in Hi as [Hi|Hi]; [|eauto]. now rewrite (Y2 _ _ Hi).
    + intros q l [[= <- <-]|Hi]; [auto|eauto].
    + intros Hne _ Hnil. apply app_eq_nil in Hnil as (Hnil & _). apply Y4; [|exact Hnil].
      apply (Hne p nums). now left.
    + discriminate.
Qed.

Lemma resolve_dict_succeeds d :
  (forall p l, In (p, l) d -> is_pkg (ci_topo ci) p /\ forall u, In u l -> U (p, u)) ->
  exists r, resolve_dict ci normU d = Ok r.
Proof.
  intros H. unfold resolve_dict.
  destruct (rmap_succeeds (fun e => let '(p, nums) := e in
                  let? _ := normalize_packages ci (Some [p]) in
                  if truthy nums then let? l := normU (Some nums) p in Ok [(p, l)] else Ok []) d)
    as (r & ->); [|cbn; eauto].
  intros (p & l) Hi. destruct (H p l Hi) as (Hp & Hu).
  destruct (normalize_packages_succeeds (Some [p])) as (ps & ->).
  { intros l' [= <-] q [<-|[]]. exact Hp. }
  cbn [rbind]. destruct (truthy l); [|eauto].
  destruct (normU_succeeds (Some l) p Hp) as (r & ->); [|cbn; eauto]. intros l' [= <-]. exact Hu.
Qed.

(** The packages in effect, [pg]: there are any. *)
Variable a : otargs.
Variable pg : bool.
Variable pkgs : list Z.
Hypothesis Hpg : pg = true <-> everything a \/ qualified a.
Hypothesis Hpkgs : pg = true -> forall p, In p pkgs <-> is_pkg (ci_topo ci) p /\ wants_pkg a p.

Lemma wants_pkg_qual ua p : (ua = oa_cores a \/ ua = oa_dies a \/ (ua = UNums None /\ everything a)) -> names_units ua -> pg = true ->
  (wants_pkg a p <-> chosen (oa_packages a) p \/ ~ names (oa_packages a)).
Proof.
  intros Hua Hn Hg. unfold wants_pkg. apply Hpg in Hg. split; [tauto|].
  intros [H|H]; [auto|]. right. split; [exact H|]. destruct Hg as [Hg|Hg]; [|auto]. auto.
Qed.

Lemma resolve_units_ok ua r :
  (ua = oa_cores a \/ ua = oa_dies a \/ (ua = UNums None /\ everything a)) ->
  resolve_units ci pkg_units normU ua pg pkgs = Ok r ->
  (forall p u, in_dict r p u <-> U (p, u) /\ wants_unit a ua (p, u)) /\
  (forall p l, In (p, l) r -> is_pkg (ci_topo ci) p) /\
  valid_units ci U a ua /\
  (r <> [] -> names_units ua) /\
  (uarg_proper ua -> names_units ua -> r = [] -> pkgs = []).
Proof.
  intros Hua. unfold resolve_units. destruct (given_units ua) eqn:G.
  - apply given_units_spec in G. destruct ua as [|n|d]; [destruct G| |].
    + assert (HW : forall p, pg = true -> (wants_pkg a p <-> chosen (oa_packages a) p \/ ~ names (oa_packages a)))
        by (intros p; now apply (wants_pkg_qual (UNums n))).
      destruct pg eqn:Epg.
      * specialize (Hpkgs eq_refl). intros H.
        destruct (rmap pkgs _) as [r'|] eqn:E; [|discriminate]. injection H as ->.
        apply rmap_ok in E.
        assert (Hp : forall p, In p pkgs -> is_pkg (ci_topo ci) p /\ exists l, normU (parse_nums n) p = Ok l /\ In (p, l) r).
        { intros p Hi. split; [now apply Hpkgs|]. destruct (Forall2_In_l _ _ _ _ E Hi) as (y & Hy & Ey).
          destruct (normU (parse_nums n) p) as [l|]; [|discriminate]. cbn in Ey. injection Ey as <-. eauto. }
        assert (Hr : forall p l, In (p, l) r -> In p pkgs /\ normU (parse_nums n) p = Ok l).
        { intros p l Hi. destruct (Forall2_In_r _ _ _ _ E Hi) as (q & Hq & Eq).
          destruct (normU (parse_nums n) q) as [l'|] eqn:En; [|discriminate]. cbn in Eq.
          injection Eq as <- <-. auto. }
        assert (Hparse : forall u, nums_has (parse_nums n) u <-> nums_has n u).
        { intros u. destruct n; cbn; [apply dedup_In|tauto]. }
        split; [|split; [|split; [|split]]].
        -- intros p u. split.
           ++ intros (l & Hi & Hu). destruct (Hr _ _ Hi) as (Hq & En).
              destruct (Hp _ Hq) as (Hpk & _). destruct (normU_ok _ _ _ Hpk En) as (A & _).
              apply A in Hu as (Hu & Hn). split; [exact Hu|]. cbn. rewrite Hparse in Hn.
              split; [exact Hn|]. apply Hpkgs in Hq as (_ & Hw).
              now apply HW.
           ++ intros (Hu & Hn & Hw). cbn in Hn, Hw.
              assert (Hq : In p pkgs).
              { apply Hpkgs. split; [eauto|]. now apply HW. }
              destruct (Hp _ Hq) as (Hpk & l & En & Hi). exists l. split; [exact Hi|].
              destruct (normU_ok _ _ _ Hpk En) as (A & _). apply A. now rewrite Hparse.
        -- intros p l Hi. apply Hr in Hi as (Hi & _). now apply Hpkgs.
        -- destruct n as [l|]; [|exact I]. cbn. intros u Hu. split.
           ++ intros Hq p Hw Hpk. assert (Hi : In p pkgs) by (apply Hpkgs; auto).
              destruct (Hp _ Hi) as (_ & l' & En & _). destruct (normU_ok _ _ _ Hpk En) as (_ & B).
              apply (B (dedup l)); [reflexivity|]. now rewrite dedup_In.
           ++ intros Hq. exfalso. destruct (proj1 Hpg eq_refl) as [He|He]; [|auto].
              destruct He as (_ & H1 & _ & H2 & _). destruct Hua as [E'|[E'|(E' & _)]]; [rewrite <- E' in H1; auto|rewrite <- E' in H2; auto|discriminate].
        -- intros _. exact G.
        -- intros _ _ ->. inversion E. reflexivity.
      * destruct n as [l|]; [|discriminate]. cbn [parse_nums option_map]. intros H.
        apply build_indexed_ok in H as (A & B & C).
        assert (Hnq : ~ (everything a \/ qualified a)) by (rewrite <- Hpg; discriminate).
        assert (Hnn : ~ names (oa_packages a)) by (unfold qualified in Hnq; tauto).
        split; [|split; [|split; [|split]]].
        -- intros p u. rewrite A, dedup_In. cbn. tauto.
        -- intros p l' Hi. destruct l' as [|u t]; [now apply B in Hi|].
           destruct (proj1 (A p u)) as (Hu & _); [exists (u :: t); cbn; auto|]. eauto.
        -- cbn. intros u Hu. split; [tauto|]. intros _. apply C. now rewrite dedup_In.
        -- intros _. exact G.
        -- intros _ _ ->. exfalso. cbn in G. destruct l as [|u t]; [congruence|].
           destruct (C u) as (p & Hp & _); [rewrite dedup_In; now left|].
           destruct (proj2 (A p u)) as (l' & [] & _). rewrite dedup_In. split; [exact Hp|now left].
    + intros H. apply resolve_dict_ok in H as (A & B & C & D & D').
      split; [|split; [|split; [|split]]].
      * intros p u. rewrite A. cbn. split; [|tauto]. intros (l & Hi & Hu). split; [|exists l; auto].
        destruct (C p l Hi). auto.
      * exact B.
      * exact C.
      * exact D'.
      * cbn. intros Hpr Hd ->. exfalso. now apply D.
  - apply given_units_false in G. intros [= <-].
    assert (Hw : forall pu, ~ wants_unit a ua pu).
    { intros pu. destruct ua as [|[l|]|d]; cbn in *; try tauto.
      - destruct l; [cbn; tauto|]. exfalso. apply G. discriminate.
      - destruct d; [intros (l & [] & _)|]. exfalso. apply G. discriminate. }
    split; [|split; [|split; [|split]]].
    + intros p u. split; [intros (l & [] & _)|]. intros (_ & H). now apply Hw in H.
    + intros p l [].
    + destruct ua as [|[l|]|d]; cbn in *; auto.
      * destruct l; [intros u []|]. exfalso. apply G. discriminate.
      * destruct d; [intros p l []|]. exfalso. apply G. discriminate.
    + congruence.
    + tauto.
Qed.

Lemma resolve_units_succeeds ua :
  (ua = oa_cores a \/ ua = oa_dies a \/ (ua = UNums None /\ everything a)) -> valid_units ci U a ua ->
  exists r, resolve_units ci pkg_units normU ua pg pkgs = Ok r.
Proof.
  intros Hua V. unfold resolve_units. destruct (given_units ua) eqn:G; [|eauto].
  apply given_units_spec in G. destruct ua as [|n|d]; [eauto| |now apply resolve_dict_succeeds].
  destruct pg eqn:Epg.
  - specialize (Hpkgs eq_refl). apply rmap_succeeds. intros p Hp.
    assert (Hk : is_pkg (ci_topo ci) p) by now apply Hpkgs.
    destruct (normU_succeeds (parse_nums n) p Hk) as (r & ->); [|cbn; eauto].
    intros l El u Hu. destruct n as [l0|]; [|discriminate]. cbn in El. injection El as <-.
    rewrite dedup_In in Hu. cbn in V. destruct (V u Hu) as (V1 & _). apply V1; [|now apply Hpkgs|exact Hk].
    destruct (proj1 Hpg eq_refl) as [He|He]; [|exact He]. exfalso.
    destruct He as (_ & H1 & _ & H2 & _). destruct Hua as [E|[E|(E & _)]]; [rewrite <- E in H1; auto|rewrite <- E in H2; auto|discriminate].
  - assert (Hnq : ~ (everything a \/ qualified a)) by (rewrite <- Hpg; discriminate).
    destruct n as [l|].
    + cbn [parse_nums option_map]. apply build_indexed_succeeds; [apply NoDup_dedup|].
      intros u Hu. rewrite dedup_In in Hu. cbn in V. destruct (V u Hu) as (_ & V2). apply V2. tauto.
    + exfalso. apply Hnq. unfold qualified.
      destruct Hua as [E|[E|(_ & E)]]; [right; right; right|right; right; left|left]; auto.
Qed.
End Units.
