(** Lemmas for C72: restoring a file, and what was saved. *)
From Coq Require Import Ascii String ZifyBool.
From Verif Require Import Base L_Base L_Monad M_CPUInfo S_CPUInfo L_CPUInfo L_CPUInfo2 M_Text L_Text M_Props S_Props L_Props L_Props2 L_Props3
  M_OpTarget M_Print S_Print L_Print L_Print2 L_Print3 L_Print4 L_Print5 S_Keep L_Keep L_Keep2.

Section Restore.
  Context {St V : Type}.
  Variable cls : pclass St V.
  Let ci := pc_ci cls.
  Let topo := ci_topo ci.
  Hypothesis Hwf : wf_ci ci.
  Variable sees : St -> Z -> Z -> option V.
  Variable shares : Z -> Z -> Z -> Prop.
  Hypothesis MA : machine cls sees shares.

  Definition gives1 (q : Z) (y : @yval V) (p : Z) (v : option V) (c : Z) : Prop :=
    q = p /\ y_value y = v /\ exists n, parse_ynums (y_nums y) = Ok n /\ covers topo (y_sname y) n c.

  Lemma flat_gives f p v c : file_gives cls f p v c <-> exists q y, In (q, y) (flat f) /\ gives1 q y p v c.
  Proof.
    unfold file_gives. split.
    - intros (k & Hk & Hc). apply flat_says in Hk. destruct Hk as (q & y & I & -> & Ev & n & En & Hh).
      exists q, y. split; [exact I|]. split; [reflexivity|]. split; [exact Ev|]. exists n. split; [exact En|]. exists k. auto.
    - intros (q & y & I & -> & Ev & n & En & k & Hh & Hc). exists k. split; [|exact Hc]. apply flat_says. exists p, y.
      split; [exact I|]. split; [reflexivity|]. split; [exact Ev|]. eauto.
  Qed.

  Lemma flat_In (f : @ydict V) q y : In (q, y) (flat f) -> exists ys, In (q, ys) f /\ In y ys.
  Proof.
    unfold flat. intros I. apply in_concat in I. destruct I as (l & Il & I). apply in_map_iff in Il. destruct Il as ([p0 ys] & <- & I0).
    cbn [fst snd] in I. apply in_map_iff in I. destruct I as (y0 & [= <- <-] & J). exists ys. auto.
  Qed.

  Lemma steps_put l : forall s s', mfor l (step1 (set_prop cls)) s = (Ok tt, s') ->
    (forall q y n, In (q, y) l -> parse_ynums (y_nums y) = Ok n -> by_scope cls q (y_sname y) /\ keys_once n) ->
    (forall p c, (exists q y v0 v, In (q, y) l /\ gives1 q y p (Some v0) c /\ pc_norm cls p v0 = Ok v /\ sees (ps_st s') p c = Some v) \/
      ((forall q y v, In (q, y) l -> ~ gives1 q y p v c) /\ sees (ps_st s') p c = sees (ps_st s) p c)).
  Proof.
    induction l as [|[p0 y0] t IH]; intros s s' H HB p c.
    - injection H as <-. right. split; [|reflexivity]. intros q y v [].
    - cbn [mfor] in H. unfold mbind at 1 in H. destruct (step1 (set_prop cls) (p0, y0) s) as [[[]|e] s1] eqn:E; [|discriminate].
      destruct (IH _ _ H) with (p := p) (c := c) as [(q & y & v0 & v & I & R)|(N & Es)].
      + intros q y n I. apply HB. now right.
      + left. exists q, y, v0, v. split; [now right|exact R].
      + clear IH H. unfold step1, mbind, lift in E. cbn [fst snd] in E. destruct (parse_ynums (y_nums y0)) as [n|] eqn:En; [|discriminate].
        destruct (HB p0 y0 n (or_introl eq_refl) En) as (B1 & B2).
        destruct (set_prop_put cls Hwf sees shares MA _ _ _ _ _ _ B1 B2 E) as (v0 & v & Ev & Hn & P).
        destruct (P p c) as [(-> & Hc & Hs)|(Hno & Hs)].
        * left. exists p0, y0, v0, v. split; [now left|]. split; [|split; [exact Hn|congruence]].
          split; [reflexivity|]. split; [exact Ev|]. exists n. split; [exact En|exact Hc].
        * right. split; [|congruence]. intros q y w [[= <- <-]|I]; [|now apply N].
          intros (Eq & _ & n' & En' & Hc). assert (n' = n) as -> by congruence. apply Hno. split; [congruence|exact Hc].
  Qed.

  Lemma restore_class known f s s' : proper cls f -> restore (set_prop cls) known f s = (Ok tt, s') ->
    (forall p ys, In (p, ys) f -> In p known) /\
    (forall p v c, file_gives cls f p v c -> exists v0 v1, v = Some v0 /\ pc_norm cls p v0 = Ok v1 /\ sees (ps_st s') p c = Some v1) /\
    (forall p c, (forall v, ~ file_gives cls f p v c) -> sees (ps_st s') p c = sees (ps_st s) p c).
  Proof.
    intros (C & HB) H. unfold restore in H. unfold mbind at 1 in H. unfold lift in H.
    match type of H with context [rbind ?r _] => destruct r as [o|] eqn:Er end; cbn [rbind] in H; [|discriminate H].
    rewrite restore_flat in H. pose proof (steps_put _ _ _ H) as HS.
    assert (forall q y n, In (q, y) (flat f) -> parse_ynums (y_nums y) = Ok n -> by_scope cls q (y_sname y) /\ keys_once n) as HB'.
    { intros q y n I En. destruct (flat_In _ _ _ I) as (ys & I1 & I2). exact (HB _ _ _ _ I1 I2 En). }
    specialize (HS HB'). split; [|split].
    - intros p ys I. apply rmap_F2 in Er. assert (exists u, (if inb p known then Ok tt else Exn EError) = Ok u) as (u & Hu).
      { clear - Er I. induction Er as [|x u l r Hx _ IH]; [destruct I|]. destruct I as [-> |I]; [eauto|now apply IH]. }
      destruct (inb p known) eqn:E; [now apply inb_In|discriminate Hu].
    - intros p v c Hg. destruct (HS p c) as [(q & y & v0 & v1 & I & G & Hn & Es)|(N & _)].
      + assert (v = Some v0) as -> by (apply (C p v (Some v0) c Hg), flat_gives; eauto). exists v0, v1. auto.
      + exfalso. apply flat_gives in Hg. destruct Hg as (q & y & I & G). exact (N q y v I G).
    - intros p c Hn. destruct (HS p c) as [(q & y & v0 & v1 & I & G & _)|(_ & Es)]; [|exact Es].
      exfalso. apply (Hn (Some v0)). apply flat_gives. eauto.
  Qed.
End Restore.

Section Round.
  Context {St V : Type}.
  Variable cls : pclass St V.
  Let ci := pc_ci cls.
  Let topo := ci_topo ci.

  Lemma holds_sname sn n k : holds sn n k -> num_sname k = sn.
  Proof. destruct sn, n, k; cbn; intros H; try reflexivity; destruct H. Qed.
  Lemma each_some sn n : each_once sn n -> exists k, holds sn n k.
  Proof.
    destruct sn, n as [l|d]; cbn [each_once]; intros H; try (destruct H; fail).
    - destruct H as (H & _). destruct l as [|x t]; [congruence|]. exists (NumCPU x). now left.
    - destruct H as (H & _ & H2). destruct d as [|[p l] t]; [congruence|]. destruct (H2 p l (or_introl eq_refl)) as (H3 & _).
      destruct l as [|x l]; [congruence|]. exists (NumDie p x). exists (x :: l). split; now left.
    - destruct H as (H & _). destruct l as [|x t]; [congruence|]. exists (NumPkg x). now left.
  Qed.
  Lemma parse_keys sn n n' : each_once sn n -> parse_ynums (yaml_nums n) = Ok n' -> keys_once n'.
  Proof.
    intros O H. destruct n as [l|d]; cbn [yaml_nums parse_ynums] in H.
    - destruct (parse_int_list _ _ _); [|discriminate]. injection H as <-. exact I.
    - match type of H with rbind ?r _ = _ => destruct r as [dd|] eqn:E end; [|discriminate]. injection H as <-. cbn.
      assert (map fst dd = map fst d) as ->.
      { clear O. apply rmap_F2 in E. remember (map (fun pd : Z * list Z => (fst pd, rangify (snd pd))) d) as dm. revert d Heqdm.
        induction E as [|x y l r Hx _ IH]; intros d Ed; destruct d as [|[p q] d]; try discriminate; [reflexivity|].
        injection Ed as -> ->. cbn [fst snd] in Hx. destruct (parse_int_list _ _ _); [|discriminate]. injection Hx as <-. cbn. f_equal. now apply IH. }
      destruct sn; [destruct O|exact (proj1 (proj2 O))|destruct O].
  Qed.

  Hypothesis Hwf : wf_ci ci.
  Variable sees : St -> Z -> Z -> option V.
  Variable shares : Z -> Z -> Z -> Prop.
  Hypothesis MA : machine cls sees shares.
  Hypothesis Hv : forall x y, pc_veqb cls x y = true <-> x = y.
  Hypothesis Hone : one_value_per_cpu cls.
  Hypothesis Hkey : keyed cls.
  Hypothesis NN : forall k, exists_num ci k -> nonneg_num k.

  (** What was saved is proper, and is what the CPUs see. *)
  Lemma saved_file pnames s f s' : NoDup (asked_pnames (pc_props cls) pnames) -> save_props cls pnames s = (Ok f, s') ->
    (forall q c, sees (ps_st (fst s')) q c = sees (ps_st (fst s)) q c) /\ proper cls f /\
    (forall p v c, file_gives cls f p v c -> v <> None /\ sees (ps_st (fst s)) p c = v) /\
    exists names l,
      (forall p, In p names <-> In p (asked_pnames (pc_props cls) pnames) /\
                   exists d, dget Z.eqb (pc_props cls) p = Some d /\ pd_writable d = true) /\
      reading (get_prop_sname cls None) (pc_props cls) true names s l s' /\
      forall p v c, file_gives cls f p v c <-> exists items k m, In (p, items) l /\ In (k, v, m) items /\ v <> None /\ cpu_of topo k c.
  Proof.
    intros ND HS. unfold save_props, mbind in HS.
    destruct (aggr_props _ _ _ _ _ _ s) as [[a|e] s1] eqn:Ea; [|discriminate HS]. injection HS as <- <-.
    destruct (print_ok cls Hv _ _ _ _ _ _ _ Hone ND Ea) as (names & l & Hn & R & NR & L & Once & U).
    pose proof (print_printable cls Hv _ _ _ _ _ _ _ Hone Hwf ND Ea) as PR.
    assert (forall m p sn v n, entry a m p sn v n -> each_once sn n /\ forall k, holds sn n k -> nonneg_num k) as HA.
    { intros m p sn v n He. destruct (PR _ _ _ _ _ He) as (O & X). split; [exact O|]. intros k Hk. now apply NN, X. }
    destruct (file_exact a HA) as (_ & FE).
    destruct (yaml_pinfo_ok a) as (_ & HY).
    assert (forall p v c, file_gives cls (yaml_pinfo a) p v c <->
              exists items k m, In (p, items) l /\ In (k, v, m) items /\ v <> None /\ cpu_of topo k c) as FG.
    { intros p v c. split.
      - intros (k & Hk & Hc). apply FE in Hk. destruct Hk as (m & Hk). apply L in Hk. destruct Hk as (items & I & J & Sh).
        exists items, k, m. split; [exact I|]. split; [exact J|]. split; [exact (Sh eq_refl)|exact Hc].
      - intros (items & k & m & I & J & Hne & Hc). exists k. split; [|exact Hc]. apply FE. exists m. apply L. exists items.
        split; [exact I|]. split; [exact J|]. intros _. exact Hne. }
    assert (forall p items k v m, In (p, items) l -> In (k, v, m) items -> by_scope cls p (num_sname k) /\
              (v <> None -> forall c, cpu_of topo k c -> sees (ps_st (fst s)) p c = v)) as HR.
    { intros p items k v m I J. destruct (reading_each cls sees shares MA _ _ _ _ _ _ _ R _ _ I) as (ov & a1 & a2 & S1 & E).
      destruct (read_seen cls Hwf sees shares MA Hv Hone Hkey _ _ _ _ _ _ E _ _ _ J) as (A & B). split; [exact A|].
      intros Hne c Hc. rewrite <- (S1 p c). now apply B. }
    assert (forall p v c, file_gives cls (yaml_pinfo a) p v c -> v <> None /\ sees (ps_st (fst s)) p c = v) as FS.
    { intros p v c Hg. apply FG in Hg. destruct Hg as (items & k & m & I & J & Hne & Hc). split; [exact Hne|].
      exact (proj2 (HR _ _ _ _ _ I J) Hne c Hc). }
    split; [exact (reading_same cls sees shares MA _ _ _ _ _ _ _ R)|]. split; [split|split; [exact FS|]].
    - intros p v v' c H1 H2. apply FS in H1. apply FS in H2. destruct H1 as (_ & <-). destruct H2 as (_ & <-). reflexivity.
    - intros p ys y n I J En. destruct (proj1 (HY p y)) as (m & sn & v & n0 & He & ->); [exists ys; auto|]. cbn [y_sname y_nums] in *.
      destruct (HA _ _ _ _ _ He) as (O & _). split; [|exact (parse_keys _ _ _ O En)].
      destruct (each_some _ _ O) as (k & Hk). rewrite <- (holds_sname _ _ _ Hk). destruct He as (d & vals & A & B & C).
      assert (listed a m p v k) as Lk by (exists d, sn, vals, n0; auto). apply L in Lk. destruct Lk as (items & I0 & J0 & _).
      exact (proj1 (HR _ _ _ _ _ I0 J0)).
    - exists names, l. split; [|split; [exact R|exact FG]]. intros p. rewrite (Hn p). split; intros (A & B); split; auto.
  Qed.

  Lemma round_class pnames known s f s' r r' : NoDup (asked_pnames (pc_props cls) pnames) ->
    save_props cls pnames s = (Ok f, s') -> restore (set_prop cls) known f r = (Ok tt, r') ->
    exists names l,
      (forall p, In p names <-> In p (asked_pnames (pc_props cls) pnames) /\
                   exists d, dget Z.eqb (pc_props cls) p = Some d /\ pd_writable d = true) /\
      reading (get_prop_sname cls None) (pc_props cls) true names s l s' /\
      (forall p items k v m c, In (p, items) l -> In (k, v, m) items -> v <> None -> cpu_of topo k c ->
         sees (ps_st (fst s)) p c = v /\ sees (ps_st r') p c = sees (ps_st (fst s)) p c) /\
      (forall p c, (forall items k v m, In (p, items) l -> In (k, v, m) items -> cpu_of topo k c -> v = None) ->
         sees (ps_st r') p c = sees (ps_st r) p c).
  Proof.
    intros ND HS HR. destruct (saved_file _ _ _ _ ND HS) as (_ & HP & FS & names & l & Hn & R & FG).
    destruct (restore_class cls Hwf sees shares MA known _ _ _ HP HR) as (_ & R1 & R2).
    exists names, l. split; [exact Hn|]. split; [exact R|]. split.
    - intros p items k v m c I J Hne Hc. assert (file_gives cls f p v c) as Hg by (apply FG; exists items, k, m; auto).
      destruct (FS _ _ _ Hg) as (_ & Es). split; [exact Es|]. rewrite Es.
      destruct (R1 _ _ _ Hg) as (v0 & v1 & -> & Hno & ->). rewrite (ma_value _ _ _ MA _ _ _ _ Es) in Hno. congruence.
    - intros p c H. apply R2. intros v Hg. apply FG in Hg. destruct Hg as (items & k & m & I & J & Hne & Hc). exact (Hne (H _ _ _ _ I J Hc)).
  Qed.

  (** Restoring what was just saved changes nothing. *)
  Lemma round_noop pnames known s f s' r r' : NoDup (asked_pnames (pc_props cls) pnames) ->
    save_props cls pnames s = (Ok f, s') -> (forall p c, sees (ps_st r) p c = sees (ps_st (fst s)) p c) ->
    restore (set_prop cls) known f r = (Ok tt, r') -> forall p c, sees (ps_st r') p c = sees (ps_st (fst s)) p c.
  Proof.
    intros ND HS Hr HR p c. destruct (saved_file _ _ _ _ ND HS) as (_ & (C & HB) & FS & _).
    unfold restore in HR. unfold mbind at 1 in HR. unfold lift in HR.
    match type of HR with context [rbind ?r _] => destruct r as [o|] eqn:Er end; cbn [rbind] in HR; [|discriminate HR].
    rewrite restore_flat in HR. destruct (steps_put cls Hwf sees shares MA _ _ _ HR) with (p := p) (c := c) as [(q & y & v0 & v1 & I & G & Hn & Es)|(_ & Es)].
    - intros q y n I En. destruct (flat_In _ _ _ I) as (ys & I1 & I2). exact (HB _ _ _ _ I1 I2 En).
    - assert (file_gives cls f p (Some v0) c) as Hg by (apply flat_gives; eauto). destruct (FS _ _ _ Hg) as (_ & E0).
      rewrite (ma_value _ _ _ MA _ _ _ _ E0) in Hn. congruence.
    - rewrite Es. apply Hr.
  Qed.
End Round.

Lemma set_prop_seen (St V : Type) (cls : pclass St V) : wf_ci (pc_ci cls) -> forall sees shares, machine cls sees shares ->
  forall p sn val n s s', by_scope cls p sn -> keys_once n -> set_prop cls p sn val n s = (Ok tt, s') ->
  exists v0 v, val = Some v0 /\ pc_norm cls p v0 = Ok v /\
    (forall c, covers (ci_topo (pc_ci cls)) sn n c -> sees (ps_st s') p c = Some v) /\
    (forall q c, ~ (q = p /\ covers (ci_topo (pc_ci cls)) sn n c) -> sees (ps_st s') q c = sees (ps_st s) q c).
Proof.
  intros Hwf sees shares MA p sn val n s s' HB HK H. destruct (set_prop_put cls Hwf sees shares MA _ _ _ _ _ _ HB HK H) as (v0 & v & E & Hn & P).
  exists v0, v. split; [exact E|]. split; [exact Hn|]. split.
  - intros c Hc. destruct (P p c) as [(_ & _ & X)|(N & _)]; [exact X|]. exfalso. apply N. auto.
  - intros q c N. destruct (P q c) as [(A & B & _)|(_ & X)]; [exfalso; apply N; auto|exact X].
Qed.

Section Scope.
  Context {St V : Type}.
  Variable cls : pclass St V.
  Lemma get_sname_l p s r s' : get_sname cls p s = (r, s') -> scope_answer cls p (ps_st s) r (ps_st s') /\ ps_gets s' = ps_gets s /\ ps_sets s' = ps_sets s.
  Proof.
    unfold get_sname, scope_answer. destruct (dget Z.eqb (pc_props cls) p) as [d|]; [|intros [= <- <-]; auto].
    destruct (pc_sname cls (ps_st s) p) as [sc|] eqn:E; [intros [= <- <-]; auto|].
    unfold mbind. destruct (try_set_sname cls p s) as [[[]|e] s1] eqn:Et; destruct (try_set_sname_run _ _ _ _ _ Et) as (G1 & G2 & G3); cbv beta iota.
    - unfold gets. intros [= <- <-]. auto.
    - unfold ret. intros [= <- <-]. auto.
    - intros [= <- <-]. split; [|auto]. right. right. exists e. destruct G3 as (A & B). auto.
  Qed.
End Scope.
