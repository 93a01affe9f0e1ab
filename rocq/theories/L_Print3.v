(** Printing succeeds when reading does; the printer of a class. *)
From Coq Require Import Ascii String ZifyBool.
From Verif Require Import Base L_Base L_Monad M_CPUInfo S_CPUInfo L_CPUInfo L_CPUInfo2 M_Text L_Text M_Props S_Props L_Props L_Props2 L_Props3 M_OpTarget M_Print S_Print L_Print L_Print2.

Section Live.
  Context {V : Type}.
  Variable veqb : V -> V -> bool.
  Hypothesis veqb_spec : forall x y, veqb x y = true <-> x = y.

  Definition sn_is (sn : rsname) (pname : Z) (ap : @aggr V) : Prop :=
    forall m d sn' vals, dget Z.eqb ap m = Some d -> dget Z.eqb d pname = Some (sn', vals) -> sn' = sn.

  Lemma add_num_live o k : goodo (num_sname k) o -> exists n, add_num o k = Ok n.
  Proof.
    destruct o as [[l|d]|], k as [c|p x|p]; cbn [goodo good num_sname add_num]; intros G; try (destruct G; fail); eauto.
  Qed.

  Lemma add_items_live pname skip sn items : Forall (fun it => num_sname (fst (fst it)) = sn) items ->
    forall ap, wfa veqb ap -> only pname ap -> sn_is sn pname ap -> exists ap', add_items veqb pname skip ap items = Ok ap'.
  Proof.
    induction 1 as [|it t Hsn _ IH]; intros ap W O Sn; cbn [add_items]; [eauto|].
    assert (exists a1, add_item veqb pname skip ap it = Ok a1 /\ sn_is sn pname a1) as (a1 & E1 & Sn1).
    { destruct it as [[num val] mname]. cbn [fst] in Hsn. subst sn. unfold add_item.
      destruct (skip && match val with None => true | _ => false end); [eauto|].
      set (md := match dget Z.eqb ap mname with Some md => md | None => [] end).
      destruct (match dget Z.eqb md pname with Some pi => pi | None => (num_sname num, []) end) as [sname vals] eqn:Ev.
      assert (sname = num_sname num /\ (vals = [] \/ wfv veqb (num_sname num) vals)) as (-> & Wv).
      { unfold md in Ev. destruct (dget Z.eqb ap mname) as [d|] eqn:Ea.
        - destruct (dget Z.eqb d pname) as [[sn' vs]|] eqn:Ed.
          + pose proof (Sn _ _ _ _ Ea Ed) as ->. injection Ev as <- <-. split; [reflexivity|]. right.
            destruct W as (_ & W). exact (proj2 (proj2 (W _ _ Ea)) _ _ _ Ed).
          + injection Ev as <- <-. split; [reflexivity|now left].
        - cbn [dget] in Ev. injection Ev as <- <-. split; [reflexivity|now left]. }
      assert (goodo (num_sname num) (dget (oveqb veqb) vals val)) as Go.
      { destruct (dget (oveqb veqb) vals val) as [n|] eqn:E; [|exact I]. destruct Wv as [-> |Wv]; [discriminate|].
        exact (proj2 (proj2 Wv) _ _ E). }
      destruct (add_num_live _ _ Go) as (ns & En). rewrite En. cbn [rbind].
      assert (rsname_eqb (num_sname num) (num_sname num) = true) as -> by (now destruct (num_sname num)).
      eexists. split; [reflexivity|]. intros m d sn' vals' E1 E2. destruct (Z.eq_dec m mname) as [-> |N].
      - rewrite (dget_dset_same _ Zeqb_spec) in E1. injection E1 as <-. rewrite (dget_dset_same _ Zeqb_spec) in E2. now injection E2 as <- _.
      - rewrite (dget_dset_other _ Zeqb_spec) in E1 by exact N. exact (Sn _ _ _ _ E1 E2). }
    rewrite E1. cbn [rbind]. destruct (add_item_ok veqb veqb_spec _ _ _ _ _ W O E1) as (W1 & O1 & _). exact (IH a1 W1 O1 Sn1).
  Qed.

  Lemma build_live {S} (rd : Z -> bool -> M S (list (@pitem V))) props skip_ro skip pnames s l s' :
    reading rd props skip_ro pnames s l s' ->
    (forall p items, In (p, items) l -> exists sn, Forall (fun it => num_sname (fst (fst it)) = sn) items) ->
    forall a, exists a', build_loop veqb rd props pnames skip_ro skip a s = (Ok a', s').
  Proof.
    induction 1 as [s|p d rest s l s' Hro Hd Hw _ IH|p d rest s items s1 l s' Hd Hw Hr _ IH|p d rest s s1 items s2 l s' Hd Hw Hr1 Hr2 _ IH];
      intros Hh a; cbn [build_loop].
    - exists a. reflexivity.
    - rewrite Hd, Hw, Hro. cbn [negb andb]. rewrite Hro in IH. exact (IH Hh a).
    - rewrite Hd. assert (skip_ro && negb (pd_writable d) = false) as -> by (destruct skip_ro; [rewrite Hw by reflexivity|]; reflexivity).
      destruct (Hh p items (or_introl eq_refl)) as (sn & Hsn).
      destruct (add_items_live p skip sn items Hsn [] (wfa_nil veqb) (only_nil p)) as (ap & E); [intros m d' sn' vals X; discriminate X|].
      unfold mbind, build_pname, lift. unfold mbind. rewrite Hr, E. exact (IH (fun p' i I => Hh p' i (or_intror I)) (merge a ap)).
    - rewrite Hd. assert (skip_ro && negb (pd_writable d) = false) as -> by (destruct skip_ro; [rewrite Hw by reflexivity|]; reflexivity).
      destruct (Hh p items (or_introl eq_refl)) as (sn & Hsn).
      destruct (add_items_live p skip sn items Hsn [] (wfa_nil veqb) (only_nil p)) as (ap & E); [intros m d' sn' vals X; discriminate X|].
      unfold mbind, build_pname, lift. unfold mbind. rewrite Hr1, Hr2, E. exact (IH (fun p' i I => Hh p' i (or_intror I)) (merge a ap)).
  Qed.
End Live.

Lemma normalize_pnames_ok props pnames ro l : normalize_pnames props pnames ro = Ok l -> NoDup (asked_pnames props pnames) ->
  NoDup l /\ forall p, In p l <-> In p (asked_pnames props pnames) /\
    (ro = true -> exists d, dget Z.eqb props p = Some d /\ pd_writable d = true).
Proof.
  unfold normalize_pnames. intros H ND.
  match type of H with rbind ?r _ = _ => destruct r as [l0|] eqn:E0 end; cbn [rbind] in H; [|discriminate H].
  assert (l0 = asked_pnames props pnames) as ->.
  { destruct pnames as [l1|]; cbn [asked_pnames]; [|now injection E0 as <-].
    match type of E0 with rbind ?r _ = _ => destruct r end; cbn [rbind] in E0; [now injection E0 as <-|discriminate E0]. }
  clear E0. revert H ND. generalize (asked_pnames props pnames). intros l0 H ND. destruct ro.
  - match type of H with rbind ?r _ = _ => destruct r as [ll|] eqn:E end; cbn [rbind] in H; [|discriminate H]. injection H as <-.
    revert ll E. induction l0 as [|p t IH]; cbn [rmap]; intros ll E.
    + injection E as <-. cbn [concat]. split; [constructor|]. intros p. cbn. tauto.
    + inversion ND as [|? ? Ni ND']; subst. destruct (dget Z.eqb props p) as [d|] eqn:Ed; cbn [rbind] in E; [|discriminate E].
      match type of E with rbind ?r _ = _ => destruct r as [ys|] eqn:E2 end; cbn [rbind] in E; [|discriminate E]. injection E as <-.
      destruct (IH ND' ys eq_refl) as (N1 & N2). cbn [concat]. destruct (pd_writable d) eqn:Ew; cbn [app].
      * split; [constructor; [|exact N1]; intros I; apply N2 in I; destruct I; contradiction|].
        intros q. cbn [In]. rewrite N2. split.
        -- intros [<- |(I & J)]; [split; [now left|intros _; eauto]|split; [now right|exact J]].
        -- intros ([<- |I] & J); [now left|right; now split].
      * split; [exact N1|]. intros q. cbn [In]. rewrite N2. split.
        -- intros (I & J). split; [now right|exact J].
        -- intros ([<- |I] & J); [|now split]. destruct (J eq_refl) as (d' & E' & W'). congruence.
  - injection H as <-. split; [exact ND|]. intros p. split; [intros I; split; [exact I|discriminate]|tauto].
Qed.

Lemma normalize_pnames_live props pnames ro : (forall p, In p (asked_pnames props pnames) -> exists d, dget Z.eqb props p = Some d) ->
  exists l, normalize_pnames props pnames ro = Ok l.
Proof.
  intros H. unfold normalize_pnames.
  assert (exists l0, (match pnames with
           | Some l => let? _ := rmap l (fun p => match dget Z.eqb props p with Some _ => Ok tt | None => Exn EError end) in Ok l
           | None => Ok (map fst props) end) = Ok l0 /\ l0 = asked_pnames props pnames) as (l0 & -> & ->).
  { destruct pnames as [l1|]; cbn [asked_pnames] in *; [|eauto].
    destruct (rmap_total (fun p => match dget Z.eqb props p with Some _ => Ok tt | None => Exn EError end) l1) as (y & ->); [|cbn; eauto].
    intros p I. destruct (H p I) as (d & ->). eauto. }
  cbn [rbind]. destruct ro; [|eauto].
  match goal with |- context [rmap ?l ?f] => destruct (rmap_total f l) as (y & ->) end; [|cbn; eauto].
  intros p I. destruct (H p I) as (d & ->). eauto.
Qed.

Section Cls.
  Context {St V : Type}.
  Variable cls : pclass St V.
  Hypothesis veqb_spec : forall x y, pc_veqb cls x y = true <-> x = y.

  Lemma reading_items {S} (rd : Z -> bool -> M S (list (@pitem V))) props ro pnames s l s' p items :
    reading rd props ro pnames s l s' -> In (p, items) l -> exists ov s1 s2, rd p ov s1 = (Ok items, s2).
  Proof.
    induction 1; intros I; [destruct I|auto|destruct I as [[= <- <-]|I]; eauto|destruct I as [[= <- <-]|I]; eauto].
  Qed.

  Lemma print_ok mnames pnames ro skip s a s' : one_value_per_cpu cls -> NoDup (asked_pnames (pc_props cls) pnames) ->
    aggr_props (pc_veqb cls) (get_prop_sname cls mnames) (pc_props cls) pnames ro skip s = (Ok a, s') ->
    exists names l, (forall p, In p names <-> In p (asked_pnames (pc_props cls) pnames) /\
                                 (ro = true -> exists d, dget Z.eqb (pc_props cls) p = Some d /\ pd_writable d = true)) /\
      reading (get_prop_sname cls mnames) (pc_props cls) ro names s l s' /\ no_repeats a /\
      (forall m p v k, listed a m p v k <-> exists items, In (p, items) l /\ In (k, v, m) items /\ shown skip v) /\
      (forall m d p sn vals v n, In (m, d) a -> In (p, (sn, vals)) d -> In (v, n) vals -> each_once sn n) /\
      (forall m p v m' v' k, listed a m p v k -> listed a m' p v' k -> m = m' /\ v = v').
  Proof.
    intros Hone ND H. unfold aggr_props in H. apply lift_bind in H as [(names & Hn & H)|(e & _ & [=] & _)].
    destruct (normalize_pnames_ok _ _ _ _ Hn ND) as (NDn & Hin).
    destruct (build_partition _ veqb_spec _ _ _ _ _ _ _ _ NDn H) as (l & R & NR & L & Once). exists names, l.
    split; [exact Hin|]. split; [exact R|]. split; [exact NR|]. split; [exact L|].
    assert (forall p items, In (p, items) l -> read_once items) as RO.
    { intros p items I. destruct (reading_items _ _ _ _ _ _ _ _ _ R I) as (ov & s1 & s2 & E). exact (sname_once cls _ _ _ _ _ _ Hone E). }
    split.
    - intros m d p sn vals v n I1 I2 I3. destruct NR as (_ & NR). destruct (NR _ _ I1) as (_ & _ & NR2).
      destruct (NR2 _ _ _ I2) as (_ & _ & NR3). destruct (NR3 _ _ I3) as (k & Hk).
      assert (listed a m p v k) as Lk by (exists d, sn, vals, n; auto). apply L in Lk. destruct Lk as (items & I & _).
      exact (proj1 (Once _ _ I (RO _ _ I)) _ _ _ _ _ _ I1 I2 I3).
    - intros m p v m' v' k H1 H2. pose proof H1 as H1'. apply L in H1'. destruct H1' as (items & I & _).
      exact (proj2 (Once _ _ I (RO _ _ I)) _ _ _ _ _ H1 H2).
  Qed.

  Lemma print_printable mnames pnames ro skip s a s' : one_value_per_cpu cls -> wf_ci (pc_ci cls) -> NoDup (asked_pnames (pc_props cls) pnames) ->
    aggr_props (pc_veqb cls) (get_prop_sname cls mnames) (pc_props cls) pnames ro skip s = (Ok a, s') -> printable (pc_ci cls) a.
  Proof.
    intros Hone W ND H. destruct (print_ok _ _ _ _ _ _ _ Hone ND H) as (names & l & _ & R & _ & L & Once & _).
    intros m p sn v n (d & vals & A & B & C). split; [exact (Once _ _ _ _ _ _ _ A B C)|].
    intros k Hk. destruct (proj1 (L m p v k)) as (items & I & J & _); [exists d, sn, vals, n; auto|].
    destruct (reading_items _ _ _ _ _ _ _ _ _ R I) as (ov & s1 & s2 & E). exact (sname_exist cls _ _ _ _ _ _ Hone W E _ _ _ J).
  Qed.

  Lemma print_live mnames pnames ro skip s : (forall p, In p (asked_pnames (pc_props cls) pnames) -> exists d, dget Z.eqb (pc_props cls) p = Some d) ->
    exists names, normalize_pnames (pc_props cls) pnames ro = Ok names /\
    forall l s', reading (get_prop_sname cls mnames) (pc_props cls) ro names s l s' ->
    exists a, aggr_props (pc_veqb cls) (get_prop_sname cls mnames) (pc_props cls) pnames ro skip s = (Ok a, s').
  Proof.
    intros H. destruct (normalize_pnames_live (pc_props cls) pnames ro H) as (names & Hn). exists names. split; [exact Hn|].
    intros l s' R. unfold aggr_props, mbind, lift. rewrite Hn. apply (build_live _ veqb_spec _ _ _ _ _ _ _ _ R).
    intros p items I. destruct (reading_items _ _ _ _ _ _ _ _ _ R I) as (ov & s1 & s2 & E). exact (sname_same cls _ _ _ _ _ _ E).
  Qed.
End Cls.
