(** Lines, files, and restoring. *)
From Coq Require Import Ascii String ZifyBool Permutation.
From Verif Require Import Base L_Base L_Monad M_CPUInfo S_CPUInfo L_CPUInfo L_CPUInfo2 M_Text L_Text M_Props M_OpTarget M_Print S_Print
  L_Print4.

Section Human.
  Context {V : Type}.
  Variable ci : cpuinfo.
  Variable global : Z -> bool.
  Variable blank : V -> bool.

  Definition sfx_of (p : Z) (sn : rsname) (n : nums) (sfx : option str) : Prop :=
    (if global p then Ok None else let? x := fmt_nums ci sn n in Ok (Some x)) = Ok sfx.

  Definition blankb (v : option V) : bool := match v with Some v => blank v | None => false end.

  Lemma human_vals_ok p sn vals ls : human_vals ci (global p) blank p sn vals = Ok ls ->
    (forall q v sfx, In (q, v, sfx) ls -> q = p /\ exists n, In (v, n) vals /\ blankb v = false /\ sfx_of p sn n sfx) /\
    (forall v n, In (v, n) vals -> blankb v = false -> exists sfx, In (p, v, sfx) ls /\ sfx_of p sn n sfx).
  Proof.
    revert ls. induction vals as [|[v0 n0] t IH]; intros ls; cbn [human_vals].
    - intros [= <-]. split; intros *; intros [].
    - match goal with |- rbind ?r _ = _ -> _ => destruct r as [sf|] eqn:Es end; cbn [rbind]; [|discriminate].
      destruct (human_vals ci (global p) blank p sn t) as [rest|]; cbn [rbind]; [|discriminate]. destruct (IH _ eq_refl) as (I1 & I2). clear IH.
      fold (blankb v0). intros [= <-]. split.
      + intros q v sfx I. assert (In (q, v, sfx) rest \/ blankb v0 = false /\ (p, v0, sf) = (q, v, sfx)) as [J|(Hb & [= <- <- <-])].
        { destruct (blankb v0); [now left|]. destruct I as [I|I]; [right; auto|now left]. }
        * destruct (I1 _ _ _ J) as (-> & n & In1 & H). split; [reflexivity|]. exists n. split; [now right|exact H].
        * split; [reflexivity|]. exists n0. split; [now left|]. split; [exact Hb|exact Es].
      + intros v n [[= -> ->]|I] Hb.
        * exists sf. rewrite Hb. split; [now left|exact Es].
        * destruct (I2 v n I Hb) as (sfx & J & H). exists sfx. split; [|exact H]. destruct (blankb v0); [exact J|now right].
  Qed.

  Lemma human_props_ok d ls : human_props ci global blank d = Ok ls ->
    (forall p v sfx, In (p, v, sfx) ls -> exists sn vals n, In (p, (sn, vals)) d /\ In (v, n) vals /\ blankb v = false /\ sfx_of p sn n sfx) /\
    (forall p sn vals v n, In (p, (sn, vals)) d -> In (v, n) vals -> blankb v = false -> exists sfx, In (p, v, sfx) ls /\ sfx_of p sn n sfx).
  Proof.
    revert ls. induction d as [|[p0 [sn0 vals0]] t IH]; intros ls; cbn [human_props].
    - intros [= <-]. split; intros *; intros [].
    - destruct (human_vals ci (global p0) blank p0 sn0 vals0) as [l0|] eqn:E0; cbn [rbind]; [|discriminate].
      destruct (human_vals_ok _ _ _ _ E0) as (A1 & A2).
      destruct (human_props ci global blank t) as [rest|]; cbn [rbind]; [|discriminate]. destruct (IH _ eq_refl) as (I1 & I2).
      intros [= <-]. split.
      + intros p v sfx I. apply in_app_or in I. destruct I as [I|I].
        * destruct (A1 _ _ _ I) as (-> & n & H1 & H2). exists sn0, vals0, n. split; [now left|]. now split.
        * destruct (I1 _ _ _ I) as (sn & vals & n & H1 & H2). exists sn, vals, n. split; [now right|exact H2].
      + intros p sn vals v n [[= -> -> ->]|I] J Hb.
        * destruct (A2 v n J Hb) as (sfx & H1 & H2). exists sfx. split; [apply in_or_app; now left|exact H2].
        * destruct (I2 p sn vals v n I J Hb) as (sfx & H1 & H2). exists sfx. split; [apply in_or_app; now right|exact H2].
  Qed.

  Lemma print_human_ok a out : print_human ci global blank a = Ok out ->
    map fst out = map fst a /\
    (forall m ls p v sfx, In (m, ls) out -> In (p, v, sfx) ls ->
       exists sn n, entry a m p sn v n /\ blankb v = false /\ sfx_of p sn n sfx) /\
    (forall m p sn v n, entry a m p sn v n -> blankb v = false -> exists ls sfx, In (m, ls) out /\ In (p, v, sfx) ls /\ sfx_of p sn n sfx).
  Proof.
    revert out. induction a as [|[m0 d0] t IH]; intros out; cbn [print_human].
    - intros [= <-]. split; [reflexivity|]. split; [intros m ls p v sfx []|]. intros m p sn v n (d & vals & [] & _).
    - destruct (human_props ci global blank d0) as [l0|] eqn:E0; cbn [rbind]; [|discriminate].
      destruct (human_props_ok _ _ E0) as (A1 & A2).
      destruct (print_human ci global blank t) as [rest|]; cbn [rbind]; [|discriminate]. destruct (IH _ eq_refl) as (I0 & I1 & I2).
      intros [= <-]. split; [cbn; now rewrite I0|]. split.
      + intros m ls p v sfx [[= <- <-]|I] J.
        * destruct (A1 _ _ _ J) as (sn & vals & n & H1 & H2 & H3). exists sn, n. split; [|exact H3]. exists d0, vals. split; [now left|]. now split.
        * destruct (I1 _ _ _ _ _ I J) as (sn & n & (d & vals & H1 & H2) & H3). exists sn, n. split; [|exact H3]. exists d, vals. split; [now right|exact H2].
      + intros m p sn v n (d & vals & [[= -> ->]|I] & J1 & J2) Hb.
        * destruct (A2 _ _ _ _ _ J1 J2 Hb) as (sfx & H1 & H2). exists l0, sfx. split; [now left|]. now split.
        * destruct (I2 m p sn v n) as (ls & sfx & H1 & H2); [exists d, vals; auto|exact Hb|]. exists ls, sfx. split; [now right|exact H2].
  Qed.

  Lemma print_human_live a : (forall m p sn v n, entry a m p sn v n -> exists t, fmt_nums ci sn n = Ok t) ->
    exists out, print_human ci global blank a = Ok out.
  Proof.
    induction a as [|[m0 d0] t IH]; intros H; cbn [print_human]; [eauto|].
    assert (exists l, human_props ci global blank d0 = Ok l) as (l & ->).
    { assert (forall p sn vals, In (p, (sn, vals)) d0 -> forall v n, In (v, n) vals -> exists t, fmt_nums ci sn n = Ok t) as H0.
      { intros p sn vals I v n J. apply (H m0 p sn v n). exists d0, vals. split; [now left|]. now split. }
      clear - H0. induction d0 as [|[p [sn vals]] d IHd]; cbn [human_props]; [eauto|].
      assert (exists l, human_vals ci (global p) blank p sn vals = Ok l) as (l & ->).
      { specialize (H0 p sn vals (or_introl eq_refl)). clear - H0. induction vals as [|[v n] vals IHv]; cbn [human_vals]; [eauto|].
        assert (exists o : option str, (if global p then Ok None else let? x := fmt_nums ci sn n in Ok (Some x)) = Ok o) as (o & ->).
        { destruct (global p); [eauto|]. destruct (H0 v n (or_introl eq_refl)) as (t & ->). cbn. eauto. }
        cbn [rbind]. destruct IHv as (l & ->); [intros v' n' I; apply (H0 v' n'); now right|]. cbn [rbind]. eauto. }
      cbn [rbind]. destruct IHd as (r & ->); [intros p' sn' vals' I; apply (H0 p' sn' vals'); now right|]. cbn. eauto. }
    cbn [rbind]. destruct IH as (r & ->); [|cbn; eauto]. intros m p sn v n (d & vals & I & J). apply (H m p sn v n).
    exists d, vals. split; [now right|exact J].
  Qed.

  Lemma human_l a out : wf_ci ci -> even_dies ci -> (forall k, exists_num ci k -> nonneg_num k) -> printable ci a ->
    print_human ci global blank a = Ok out ->
    map fst out = map fst a /\
    (forall m ls p v sfx, In (m, ls) out -> In (p, v, sfx) ls ->
       ~ is_blank blank v /\ exists sn n, entry a m p sn v n /\ line_says ci global p sn n sfx) /\
    (forall m p sn v n, entry a m p sn v n -> ~ is_blank blank v ->
       exists ls sfx, In (m, ls) out /\ In (p, v, sfx) ls /\ line_says ci global p sn n sfx).
  Proof.
    intros W EV NN PR H. destruct (print_human_ok _ _ H) as (H0 & H1 & H2).
    assert (forall m p sn v n sfx, entry a m p sn v n -> sfx_of p sn n sfx -> line_says ci global p sn n sfx) as HS.
    { intros m p sn v n sfx He. unfold sfx_of, line_says. destruct (global p).
      - now intros [= <-].
      - destruct (fmt_nums ci sn n) as [t|] eqn:Et; cbn [rbind]; [|discriminate]. intros [= <-]. split; [reflexivity|].
        destruct (PR _ _ _ _ _ He) as (O & X). exact (fmt_nums_ok ci sn n t W EV NN O X Et). }
    assert (forall v, blankb v = false <-> ~ is_blank blank v) as HB.
    { intros v. unfold blankb, is_blank. split.
      - intros Hb (x & -> & Hx). congruence.
      - intros Hb. destruct v as [x|]; [|reflexivity]. destruct (blank x) eqn:E; [|reflexivity]. elim Hb. eauto. }
    split; [exact H0|]. split.
    - intros m ls p v sfx I J. destruct (H1 _ _ _ _ _ I J) as (sn & n & He & Hb & Hs). split; [now apply HB|].
      exists sn, n. split; [exact He|]. exact (HS _ _ _ _ _ _ He Hs).
    - intros m p sn v n He Hb. destruct (H2 _ _ _ _ _ He (proj2 (HB v) Hb)) as (ls & sfx & A1 & A2 & A3).
      exists ls, sfx. split; [exact A1|]. split; [exact A2|]. exact (HS _ _ _ _ _ _ He A3).
  Qed.

  Lemma human_live_l a : wf_ci ci -> (forall k, exists_num ci k -> nonneg_num k) -> is_pkg (ci_topo ci) 0 -> printable ci a ->
    exists out, print_human ci global blank a = Ok out.
  Proof.
    intros W NN P0 PR. apply print_human_live. intros m p sn v n He. destruct (PR _ _ _ _ _ He) as (O & X).
    now apply fmt_nums_live.
  Qed.
End Human.

(** ** Files *)
Lemma parse_ynums_ok sn n : each_once sn n -> (forall k, holds sn n k -> nonneg_num k) ->
  exists n', parse_ynums (yaml_nums n) = Ok n' /\ forall k, holds sn n' k <-> holds sn n k.
Proof.
  destruct sn, n as [l|d]; cbn [each_once]; intros O NN; try (destruct O; fail).
  1, 3: destruct (rangify_gives l) as (l' & E & H); [intros x I|exact (proj2 O)|].
  1: exact (NN (NumCPU x) I). 2: exact (NN (NumPkg x) I).
  1, 2: exists (NList l'); split; [cbn [yaml_nums parse_ynums]; now rewrite E|]; intros [c|p x|p]; cbn [holds]; try tauto; symmetry; apply H.
  destruct O as (_ & _ & O). cbn [yaml_nums parse_ynums].
  assert (exists d', rmap (map (fun pd => (fst pd, rangify (snd pd))) d)
             (fun pt => let? l := parse_int_list "," true [NStr (snd pt)] in Ok (fst pt, l)) = Ok d' /\
           Forall2 (fun pl pl' => fst pl = fst pl' /\ forall x, In x (snd pl) <-> In x (snd pl')) d d') as (d' & E & F).
  { assert (forall p l, In (p, l) d -> gives_nums (rangify l) l) as G.
    { intros p l I. apply rangify_gives; [|exact (proj2 (O p l I))]. intros x J. apply (NN (NumDie p x)). exists l. auto. }
    clear O NN. induction d as [|[p l] t IH]; cbn [map rmap]; [exists []; split; [reflexivity|constructor]|].
    destruct (G p l (or_introl eq_refl)) as (l' & E & H). destruct IH as (t' & Et & Ft); [intros p' l0 I; apply (G p' l0); now right|].
    cbn [fst snd]. rewrite E. cbn [rbind]. rewrite Et. cbn [rbind]. eexists. split; [reflexivity|]. constructor; [now split|exact Ft]. }
  rewrite E. cbn [rbind]. eexists. split; [reflexivity|]. intros [c|p x|p]; cbn [holds]; try tauto.
  split; intros (l & I & J).
  - assert (exists l0, In (p, l0) d /\ In x l0) as (l0 & K & L); [|eauto]. clear - F I J.
    induction F as [|[p1 l1] [p2 l2] d d' (H1 & H2) _ IH]; [destruct I|]. cbn [fst snd] in *. destruct I as [[= -> ->]|I].
    + subst p1. exists l1. split; [now left|]. now apply H2.
    + destruct (IH I) as (l0 & K & L). exists l0. split; [now right|exact L].
  - assert (exists l0, In (p, l0) d' /\ In x l0) as (l0 & K & L); [|eauto]. clear - F I J.
    induction F as [|[p1 l1] [p2 l2] d d' (H1 & H2) _ IH]; [destruct I|]. cbn [fst snd] in *. destruct I as [[= -> ->]|I].
    + subst p2. exists l2. split; [now left|]. now apply H2.
    + destruct (IH I) as (l0 & K & L). exists l0. split; [now right|exact L].
Qed.

Section Yaml.
  Context {V : Type}.

  (** The entries of a file. *)
  Definition yent (f : @ydict V) (p : Z) (y : @yval V) : Prop := exists ys, In (p, ys) f /\ In y ys.

  Lemma yaml_add1 (f : @ydict V) pname y0 p y : NoDup (map fst f) ->
    let f' := dset Z.eqb f pname ((match dget Z.eqb f pname with Some l => l | None => [] end) ++ [y0]) in
    NoDup (map fst f') /\ (yent f' p y <-> yent f p y \/ p = pname /\ y = y0).
  Proof.
    intros ND. cbn zeta. split; [now apply (dset_NoDup Z.eqb Zeqb_spec)|].
    assert (forall q (x : list yval), In (q, x) f <-> dget Z.eqb f q = Some x) as HI.
    { intros q x. split; [now apply (In_dget Z.eqb Zeqb_spec)|apply (dget_In Z.eqb Zeqb_spec)]. }
    assert (NoDup (map fst (dset Z.eqb f pname ((match dget Z.eqb f pname with Some l => l | None => [] end) ++ [y0])))) as ND'
      by (now apply (dset_NoDup Z.eqb Zeqb_spec)).
    unfold yent. split.
    - intros (ys & I & J). apply (In_dget Z.eqb Zeqb_spec _ _ _ ND') in I. destruct (Z.eq_dec p pname) as [->|N].
      + rewrite (dget_dset_same Z.eqb Zeqb_spec) in I. injection I as <-. apply in_app_or in J. destruct J as [J|[<-|[]]]; [|now right].
        left. destruct (dget Z.eqb f pname) as [l|] eqn:E; [|destruct J]. exists l. split; [now apply HI|exact J].
      + rewrite (dget_dset_other Z.eqb Zeqb_spec) in I by auto. left. exists ys. split; [now apply HI|exact J].
    - intros [(ys & I & J)|(-> & ->)].
      + apply HI in I. destruct (Z.eq_dec p pname) as [->|N].
        * exists (ys ++ [y0]). split; [|apply in_or_app; now left]. apply (dget_In Z.eqb Zeqb_spec). now rewrite (dget_dset_same Z.eqb Zeqb_spec), I.
        * exists ys. split; [|exact J]. apply (dget_In Z.eqb Zeqb_spec). now rewrite (dget_dset_other Z.eqb Zeqb_spec) by auto.
      + eexists. split; [apply (dget_In Z.eqb Zeqb_spec); now rewrite (dget_dset_same Z.eqb Zeqb_spec)|]. apply in_or_app. right. now left.
  Qed.

  Lemma yaml_add_ok pname sn vals : forall (f : @ydict V), NoDup (map fst f) ->
    NoDup (map fst (yaml_add f pname sn vals)) /\
    forall p y, yent (yaml_add f pname sn vals) p y <-> yent f p y \/ p = pname /\ exists v n, In (v, n) vals /\ y = YV v sn (yaml_nums n).
  Proof.
    induction vals as [|[v0 n0] t IH]; intros f ND.
    - cbn. split; [exact ND|]. intros p y. split; [auto|]. intros [H|(_ & v & n & [] & _)]. exact H.
    - unfold yaml_add. cbn [fold_left fst snd]. set (f1 := dset Z.eqb f pname _).
      assert (NoDup (map fst f1)) as ND1 by (exact (proj1 (yaml_add1 f pname (YV v0 sn (yaml_nums n0)) pname (YV v0 sn (yaml_nums n0)) ND))).
      destruct (IH f1 ND1) as (A & B). split; [exact A|]. intros p y. rewrite (B p y).
      assert (yent f1 p y <-> yent f p y \/ p = pname /\ y = YV v0 sn (yaml_nums n0)) as -> by
        (exact (proj2 (yaml_add1 f pname (YV v0 sn (yaml_nums n0)) p y ND))). split.
      + intros [[H|(-> & ->)]|(-> & v & n & I & ->)]; [now left| |].
        * right. split; [reflexivity|]. exists v0, n0. split; [now left|reflexivity].
        * right. split; [reflexivity|]. exists v, n. split; [now right|reflexivity].
      + intros [H|(-> & v & n & [[= -> ->]|I] & ->)]; [auto|auto|]. right. split; [reflexivity|]. exists v, n. auto.
  Qed.

  Lemma yaml_mech_ok d : forall (f : @ydict V), NoDup (map fst f) ->
    let f' := fold_left (fun yd pi => yaml_add yd (fst pi) (fst (snd pi)) (snd (snd pi))) d f in
    NoDup (map fst f') /\
    forall p y, yent f' p y <-> yent f p y \/ exists sn vals v n, In (p, (sn, vals)) d /\ In (v, n) vals /\ y = YV v sn (yaml_nums n).
  Proof.
    induction d as [|[p0 [sn0 vals0]] t IH]; intros f ND; cbn zeta; cbn [fold_left fst snd].
    - split; [exact ND|]. intros p y. split; [auto|]. intros [H|(sn & vals & v & n & [] & _)]. exact H.
    - destruct (yaml_add_ok p0 sn0 vals0 f ND) as (A & B). destruct (IH _ A) as (C & D). split; [exact C|].
      intros p y. rewrite (D p y), (B p y). split.
      + intros [[H|(-> & v & n & I & ->)]|(sn & vals & v & n & I & J & ->)]; [now left| |].
        * right. exists sn0, vals0, v, n. split; [now left|]. now split.
        * right. exists sn, vals, v, n. split; [now right|]. now split.
      + intros [H|(sn & vals & v & n & [[= -> -> ->]|I] & J & ->)]; [auto| |].
        * left. right. split; [reflexivity|]. eauto.
        * right. exists sn, vals, v, n. auto.
  Qed.

  Lemma yaml_pinfo_ok (a : @aggr V) : NoDup (map fst (yaml_pinfo a)) /\
    forall p y, yent (yaml_pinfo a) p y <-> exists m sn v n, entry a m p sn v n /\ y = YV v sn (yaml_nums n).
  Proof.
    unfold yaml_pinfo.
    assert (forall (f : @ydict V), NoDup (map fst f) ->
      let f' := fold_left (fun yd md => fold_left (fun yd pi => yaml_add yd (fst pi) (fst (snd pi)) (snd (snd pi))) (snd md) yd) a f in
      NoDup (map fst f') /\
      forall p y, yent f' p y <-> yent f p y \/ exists m sn v n, entry a m p sn v n /\ y = YV v sn (yaml_nums n)) as H.
    { induction a as [|[m0 d0] t IH]; intros f ND; cbn zeta; cbn [fold_left fst snd].
      - split; [exact ND|]. intros p y. split; [auto|]. intros [H|(m & sn & v & n & (d & vals & [] & _) & _)]. exact H.
      - destruct (yaml_mech_ok d0 f ND) as (A & B). destruct (IH _ A) as (C & D). split; [exact C|].
        intros p y. rewrite (D p y), (B p y). split.
        + intros [[H|(sn & vals & v & n & I & J & ->)]|(m & sn & v & n & (d & vals & I & J) & ->)]; [now left| |].
          * right. exists m0, sn, v, n. split; [|reflexivity]. exists d0, vals. split; [now left|]. now split.
          * right. exists m, sn, v, n. split; [|reflexivity]. exists d, vals. split; [now right|exact J].
        + intros [H|(m & sn & v & n & (d & vals & [[= -> ->]|I] & J1 & J2) & ->)]; [auto| |].
          * left. right. exists sn, vals, v, n. auto.
          * right. exists m, sn, v, n. split; [|reflexivity]. exists d, vals. auto. }
    destruct (H [] (NoDup_nil _)) as (A & B). split; [exact A|]. intros p y. rewrite (B p y). split; [|auto].
    intros [(ys & [] & _)|X]. exact X.
  Qed.

  Lemma file_exact (a : @aggr V) :
    (forall m p sn v n, entry a m p sn v n -> each_once sn n /\ forall k, holds sn n k -> nonneg_num k) ->
    (forall p ys y, In (p, ys) (yaml_pinfo a) -> In y ys -> exists n, parse_ynums (y_nums y) = Ok n) /\
    forall p v k, file_says (yaml_pinfo a) p v k <-> exists m, listed a m p v k.
  Proof.
    intros HA. destruct (yaml_pinfo_ok a) as (_ & HY). split.
    - intros p ys y I J. destruct (proj1 (HY p y)) as (m & sn & v & n & He & ->); [exists ys; auto|].
      destruct (HA _ _ _ _ _ He) as (O & NN). destruct (parse_ynums_ok sn n O NN) as (n' & E & _). cbn [y_nums]. eauto.
    - intros p v k. split.
      + intros (ys & y & n & I & J & Ev & En & Hk). destruct (proj1 (HY p y)) as (m & sn & v' & n0 & He & ->); [exists ys; auto|].
        cbn [y_value y_sname y_nums] in *. subst v'. destruct (HA _ _ _ _ _ He) as (O & NN).
        destruct (parse_ynums_ok sn n0 O NN) as (n' & E & Hn). rewrite E in En. injection En as ->. apply Hn in Hk.
        exists m. destruct He as (d & vals & A & B & C). exists d, sn, vals, n0. auto.
      + intros (m & d & sn & vals & n & A & B & C & Hk). assert (entry a m p sn v n) as He by (exists d, vals; auto).
        destruct (HA _ _ _ _ _ He) as (O & NN). destruct (parse_ynums_ok sn n O NN) as (n' & E & Hn).
        destruct (proj2 (HY p (YV v sn (yaml_nums n)))) as (ys & I & J); [exists m, sn, v, n; auto|].
        exists ys, (YV v sn (yaml_nums n)), n'. cbn [y_value y_sname y_nums]. split; [exact I|]. split; [exact J|]. split; [reflexivity|].
        split; [exact E|]. now apply Hn.
  Qed.
End Yaml.

(** ** Restoring *)
Section Restore.
  Context {S V : Type}.
  Variable view : S -> Z -> pnum -> option V.
  Variable setp : Z -> rsname -> option V -> nums -> M S unit.
  Hypothesis Law : setter_law view setp.

  Definition says1 (p : Z) (y : @yval V) (q : Z) (v : option V) (k : pnum) : Prop :=
    q = p /\ y_value y = v /\ exists n, parse_ynums (y_nums y) = Ok n /\ holds (y_sname y) n k.

  (** The pairs of property and value, in the order of the file. *)
  Definition flat (f : @ydict V) : list (Z * @yval V) := concat (map (fun pv => map (fun y => (fst pv, y)) (snd pv)) f).

  Definition step1 (py : Z * @yval V) : M S unit :=
    let! n := lift (parse_ynums (y_nums (snd py))) in setp (fst py) (y_sname (snd py)) (y_value (snd py)) n.

  Lemma mfor_app {A} (l1 l2 : list A) (f : A -> M S unit) s : mfor (l1 ++ l2) f s = (mfor l1 f ;; mfor l2 f) s.
  Proof.
    revert s. induction l1 as [|x t IH]; intros s; [reflexivity|]. cbn [app mfor]. unfold mbind in *.
    destruct (f x s) as [[[]|] s1]; [|reflexivity]. apply IH.
  Qed.
  Lemma mfor_map {A B} (g : A -> B) (l : list A) (f : B -> M S unit) s : mfor (map g l) f s = mfor l (fun x => f (g x)) s.
  Proof.
    revert s. induction l as [|x t IH]; intros s; [reflexivity|]. cbn [map mfor]. unfold mbind.
    destruct (f (g x) s) as [[[]|] s1]; [|reflexivity]. apply IH.
  Qed.
  Lemma restore_flat f s : restore_props setp f s = mfor (flat f) step1 s.
  Proof.
    unfold restore_props, flat. revert s. induction f as [|[p ys] t IH]; intros s; [reflexivity|].
    cbn [map concat fst snd]. rewrite mfor_app. cbn [mfor fst snd]. unfold mbind at 1.
    change ((mfor (map (fun y => (p, y)) ys) step1 ;; mfor (concat (map (fun pv => map (fun y => (fst pv, y)) (snd pv)) t)) step1) s)
      with (match mfor (map (fun y => (p, y)) ys) step1 s with
            | (Ok _, s1) => mfor (concat (map (fun pv => map (fun y => (fst pv, y)) (snd pv)) t)) step1 s1
            | (Exn e, s1) => (Exn e, s1) end).
    rewrite (mfor_map (fun y => (p, y)) ys step1).
    change (fun x => step1 (p, x)) with (fun y => let! n := lift (parse_ynums (y_nums y)) in setp p (y_sname y) (y_value y) n).
    match goal with |- match ?x with _ => _ end = _ => destruct x as [[[]|] s1] end; [|reflexivity]. apply IH.
  Qed.

  Lemma flat_says f p v k : file_says f p v k <-> exists q y, In (q, y) (flat f) /\ says1 q y p v k.
  Proof.
    unfold flat. split.
    - intros (ys & y & n & I & J & Ev & En & Hk). exists p, y. split.
      + apply in_concat. eexists. split; [apply in_map_iff; exists (p, ys); split; [reflexivity|exact I]|].
        cbn [fst snd]. apply in_map_iff. exists y. auto.
      + split; [reflexivity|]. split; [exact Ev|]. eauto.
    - intros (q & y & I & (-> & Ev & n & En & Hk)). apply in_concat in I. destruct I as (l & Il & I). apply in_map_iff in Il.
      destruct Il as ([p0 ys] & <- & I0). cbn [fst snd] in I. apply in_map_iff in I. destruct I as (y0 & [= <- <-] & J).
      exists ys, y0, n. auto.
  Qed.

  Lemma step1_ok py s s' : step1 py s = (Ok tt, s') ->
    (forall q v k, says1 (fst py) (snd py) q v k -> view s' q k = v) /\
    (forall q k, (forall v, ~ says1 (fst py) (snd py) q v k) -> view s' q k = view s q k).
  Proof.
    destruct py as [p y]. unfold step1, mbind, lift. cbn [fst snd]. destruct (parse_ynums (y_nums y)) as [n|] eqn:E; [|discriminate].
    intros H. destruct (Law _ _ _ _ _ _ H) as (L1 & L2). split.
    - intros q v k (-> & <- & n' & En & Hk). rewrite E in En. injection En as <-. now apply L1.
    - intros q k Hn. apply L2. intros (-> & Hk). apply (Hn (y_value y)). split; [reflexivity|]. split; [reflexivity|]. eauto.
  Qed.

  Lemma steps_ok l : forall s s', mfor l step1 s = (Ok tt, s') ->
    (forall p v v' k q y q' y', In (q, y) l -> In (q', y') l -> says1 q y p v k -> says1 q' y' p v' k -> v = v') ->
    (forall p v k q y, In (q, y) l -> says1 q y p v k -> view s' p k = v) /\
    (forall p k, (forall v q y, In (q, y) l -> ~ says1 q y p v k) -> view s' p k = view s p k).
  Proof.
    induction l as [|[p0 y0] t IH]; cbn [mfor]; intros s s' H C.
    - injection H as <-. split; [intros p v k q y []|reflexivity].
    - unfold mbind in H. destruct (step1 (p0, y0) s) as [[[]|] s1] eqn:E1; [|discriminate H].
      destruct (step1_ok _ _ _ E1) as (A1 & A2). cbn [fst snd] in A1, A2.
      destruct (IH s1 s' H) as (B1 & B2).
      { intros p v v' k q y q' y' I I'. apply C with (q := q) (q' := q'); now right. }
      assert (forall (p : Z) (k : pnum), (exists v q y, In (q, y) t /\ says1 q y p v k) \/ (forall v q y, In (q, y) t -> ~ says1 q y p v k)) as Dec.
      { intros p k. clear. induction t as [|[q y] t IH]; [right; intros v q y []|].
        assert ((exists v, says1 q y p v k) \/ forall v, ~ says1 q y p v k) as [(v & Hv)|Hn].
        { unfold says1. destruct (Z.eq_dec p q) as [->|N]; [|right; intros v (X & _); auto].
          destruct (parse_ynums (y_nums y)) as [n|] eqn:E; [|right; intros v (_ & _ & n & X & _); discriminate X].
          assert (holds (y_sname y) n k \/ ~ holds (y_sname y) n k) as [Hk|Hk].
          { destruct (y_sname y), n as [l|d], k as [c|p x|p]; cbn [holds]; try (right; tauto).
            - destruct (in_dec Z.eq_dec c l); auto.
            - clear E IH. induction d as [|[p1 l1] d IH]; [right; intros (l & [] & _)|]. destruct IH as [(l & I & J)|Hn].
              + left. exists l. split; [now right|exact J].
              + destruct (Z.eq_dec p p1) as [->|N].
                * destruct (in_dec Z.eq_dec x l1) as [I|I]; [left; exists l1; split; [now left|exact I]|].
                  right. intros (l & [[= <-]|I1] & J); [auto|]. apply Hn. eauto.
                * right. intros (l & [[= X _]|I1] & J); [auto|]. apply Hn. eauto.
            - destruct (in_dec Z.eq_dec p l); auto. }
          - left. exists (y_value y). split; [reflexivity|]. split; [reflexivity|]. eauto.
          - right. intros v (_ & _ & n' & [= <-] & X). auto. }
        - left. exists v, q, y. split; [now left|exact Hv].
        - destruct IH as [(v & q' & y' & I & Hv)|Hn']; [left; exists v, q', y'; split; [now right|exact Hv]|].
          right. intros v q' y' [[= <- <-]|I]; [apply Hn|now apply Hn']. }
      split.
      + intros p v k q y [[= <- <-]|I] Hs; [|exact (B1 p v k q y I Hs)].
        destruct (Dec p k) as [(v' & q' & y' & I' & Hs')|Hn].
        * rewrite (B1 p v' k q' y' I' Hs'). apply (C p v' v k q' y' p0 y0); [now right|now left|exact Hs'|exact Hs].
        * rewrite (B2 p k Hn). exact (A1 p v k Hs).
      + intros p k Hn. rewrite (B2 p k); [|intros v q y I; apply Hn; now right]. apply A2. intros v. apply Hn. now left.
  Qed.

  Lemma restore_ok known f s s' : consistent f -> restore setp known f s = (Ok tt, s') ->
    (forall p ys, In (p, ys) f -> In p known) /\
    (forall p v k, file_says f p v k -> view s' p k = v) /\
    (forall p k, (forall v, ~ file_says f p v k) -> view s' p k = view s p k).
  Proof.
    intros C H. unfold restore in H. unfold mbind at 1 in H. unfold lift in H.
    match type of H with context [rbind ?r _] => destruct r as [o|] eqn:Er end; cbn [rbind] in H; [|discriminate H].
    rewrite restore_flat in H. destruct (steps_ok _ _ _ H) as (A & B).
    { intros p v v' k q y q' y' I I' Hs Hs'. apply (C p v v' k); apply flat_says; eauto. }
    split; [|split].
    - intros p ys I. apply rmap_F2 in Er. assert (exists u, (if inb p known then Ok tt else Exn EError) = Ok u) as (u & Hu).
      { clear - Er I. induction Er as [|x u l r Hx _ IH]; [destruct I|]. destruct I as [-> |I]; [eauto|now apply IH]. }
      destruct (inb p known) eqn:E; [now apply inb_In|discriminate Hu].
    - intros p v k Hs. apply flat_says in Hs. destruct Hs as (q & y & I & Hs). exact (A p v k q y I Hs).
    - intros p k Hn. apply B. intros v q y I Hs. apply (Hn v). apply flat_says. eauto.
  Qed.

  Lemma restore_live known f s : (forall p ys, In (p, ys) f -> In p known /\ forall y, In y ys -> exists n, parse_ynums (y_nums y) = Ok n) ->
    (forall p ys y n s, In (p, ys) f -> In y ys -> parse_ynums (y_nums y) = Ok n -> exists s', setp p (y_sname y) (y_value y) n s = (Ok tt, s')) ->
    exists s', restore setp known f s = (Ok tt, s').
  Proof.
    intros HF HS. unfold restore. unfold mbind at 1. unfold lift.
    destruct (rmap_total (fun pv : Z * list (@yval V) => if inb (fst pv) known then Ok tt else Exn EError) f) as (o & ->).
    { intros [p ys] I. cbn [fst]. rewrite (proj2 (inb_In p known) (proj1 (HF p ys I))). eauto. }
    cbn [rbind]. rewrite restore_flat.
    assert (forall q y, In (q, y) (flat f) -> exists n, parse_ynums (y_nums y) = Ok n /\ forall s, exists s', setp q (y_sname y) (y_value y) n s = (Ok tt, s')) as HL.
    { intros q y I. apply in_concat in I. destruct I as (l & Il & I). apply in_map_iff in Il. destruct Il as ([p0 ys] & <- & I0).
      cbn [fst snd] in I. apply in_map_iff in I. destruct I as (y0 & [= <- <-] & J). destruct (HF p0 ys I0) as (_ & HP).
      destruct (HP y0 J) as (n & En). exists n. split; [exact En|]. intros s0. exact (HS p0 ys y0 n s0 I0 J En). }
    revert s HL. generalize (flat f). intros l. induction l as [|[q y] t IH]; intros s HL; [cbn; unfold ret; eauto|].
    cbn [mfor]. unfold mbind. unfold step1 at 1. unfold mbind, lift. cbn [fst snd]. destruct (HL q y (or_introl eq_refl)) as (n & -> & Hs).
    destruct (Hs s) as (s1 & ->). apply IH. intros q' y' I. apply HL. now right.
  Qed.
End Restore.
