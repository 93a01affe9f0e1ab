(** Lemmas for C72: setting a property through a class. *)
From Coq Require Import Ascii String ZifyBool.
From Verif Require Import Base L_Base L_Monad M_CPUInfo S_CPUInfo L_CPUInfo L_CPUInfo2 M_Text L_Text M_Props S_Props L_Props L_Props2 L_Props3
  M_OpTarget M_Print S_Print L_Print2 S_Keep.

Section Set_.
  Context {St V : Type}.
  Variable cls : pclass St V.
  Let ci := pc_ci cls.
  Let topo := ci_topo ci.
  Hypothesis Hwf : wf_ci ci.
  Variable sees : St -> Z -> Z -> option V.
  Variable shares : Z -> Z -> Z -> Prop.
  Hypothesis MA : machine cls sees shares.

  Definition same (st st1 : St) : Prop := forall q c, sees st1 q c = sees st q c.
  Lemma same_trans a b c : same a b -> same b c -> same a c.
  Proof. intros H1 H2 q x. rewrite (H2 q x). apply H1. Qed.

  Definition retry (e : exc) : Prop := e = ENotSupported \/ e = ETryAnother.

  Lemma set_loop_keep w fail ms : forall s m s',
    (forall m s e s1, w m s = (Exn e, s1) -> retry e -> same (ps_st s) (ps_st s1)) ->
    set_loop (V := V) w fail ms s = (Ok m, s') ->
    exists s2, same (ps_st s) (ps_st s2) /\ w m s2 = (Ok tt, s').
  Proof.
    induction ms as [|m0 rest IH]; intros s m s' Hk H; cbn [set_loop] in H; [discriminate|].
    destruct (w m0 s) as [[[]|e] s1] eqn:E.
    - injection H as <- <-. exists s. split; [intros q c; reflexivity|exact E].
    - assert (retry e /\ set_loop w fail rest s1 = (Ok m, s')) as (R & Hl).
      { unfold retry. destruct e; try discriminate; auto. }
      destruct (IH _ _ _ Hk Hl) as (s2 & S2 & E2). exists s2. split; [|exact E2]. eapply same_trans; [|exact S2]. eauto.
  Qed.

  Lemma do_set_same p v w m s e s1 : do_set cls p v w m s = (Exn e, s1) -> retry e -> same (ps_st s) (ps_st s1).
  Proof.
    intros H R. destruct (do_set_run _ _ _ _ _ _ _ _ H) as (K1 & _ & _). intros q c.
    apply (ma_refuse _ _ _ MA) with (p := p) (v := v) (w := w) (m := m). unfold refuses. destruct R as [-> | ->]; auto.
  Qed.

  Lemma set_units_same p v uc m s e s1 : set_units cls p v uc m s = (Exn e, s1) -> retry e -> same (ps_st s) (ps_st s1).
  Proof.
    intros H R. unfold set_units in H.
    apply lift_bind in H as [(ll & Hll & H)|(e' & _ & _ & ->)]; [|intros q c; reflexivity].
    unfold mbind at 1, gets in H. cbv beta iota in H.
    apply lift_bind in H as [(w & Hw & H)|(e' & _ & _ & ->)]; [|intros q c; reflexivity].
    unfold mbind at 1 in H. unfold set_prop_cpus_mnames in H. unfold mbind at 1, lift at 1 in H.
    destruct (prop_of cls p) as [d|e']; [|injection H as _ <-; intros q c; reflexivity].
    cbn [or_default set_loop] in H.
    destruct (do_set cls p v w m s) as [[[]|e0] s2] eqn:E; [discriminate|].
    assert (s2 = s1 /\ retry e0) as (-> & R0).
    { unfold retry in *. destruct e0; injection H as He <-; subst; auto; destruct R as [R|R]; discriminate R. }
    exact (do_set_same _ _ _ _ _ _ _ E R0).
  Qed.

  Lemma on_st_same p s r s1 : on_st (V := V) (pc_set_sname cls p) s = (r, s1) -> same (ps_st s) (ps_st s1).
  Proof. intros H. destruct (on_st_run _ _ _ _ H) as (K & _ & _). intros q c. exact (ma_scope _ _ _ MA _ _ _ _ q c K). Qed.

  (** The value of the CPUs [req] is set, and nothing else. *)
  Definition put (p : Z) (v : V) (req : Z -> Prop) (st st1 : St) : Prop :=
    forall q c, (q = p /\ req c /\ sees st1 q c = Some v) \/ (~ (q = p /\ req c) /\ sees st1 q c = sees st q c).

  Lemma put_same p v req a b c : same a b -> put p v req b c -> put p v req a c.
  Proof. intros H1 H2 q x. destruct (H2 q x) as [X|(X & Y)]; [now left|right; split; [exact X|]]. rewrite Y. apply H1. Qed.
  Lemma put_ext p v r1 r2 a b : (forall c, r1 c <-> r2 c) -> put p v r1 a b -> put p v r2 a b.
  Proof.
    intros H1 H2 q x. destruct (H2 q x) as [(X & Y & Z0)|(X & Y)]; [left|right]; rewrite <- H1; auto.
  Qed.

  (** Setting whole units. *)
  Lemma set_units_put p v uc m s s' (req : Z -> Prop) : set_units cls p v uc m s = (Ok tt, s') ->
    (forall ll, uc = Ok ll -> forall c, In c (concat ll) <-> req c) ->
    (forall c, req c -> In c (ci_online ci)) ->
    (forall x c, req x -> shares p x c -> req c) ->
    put p v req (ps_st s) (ps_st s').
  Proof.
    intros H Hsel Hon Hcl. destruct (set_units_run cls _ _ _ _ _ _ _ H) as (_ & ll & w & E1 & E2 & E3 & _).
    specialize (Hsel ll E1).
    assert (forall c, In c (concat ll) -> In c (ci_online ci)) as Hon' by (intros c I; now apply Hon, Hsel).
    destruct (ma_write _ _ _ MA _ _ _ _ _ _ E3) as (W1 & W2).
    assert (forall c, req c -> exists x, In x w /\ shares p x c) as Hcov.
    { intros c Hc. pose proof (reduce_cpus_l cls Hwf _ _ _ Hon' (ma_modules _ _ _ MA (ps_st s) p) E2) as Hred.
      destruct Hred as [(_ & Hnil & _)|(io & Eio & Hw)]; [apply Hsel in Hc; rewrite Hnil in Hc; destruct Hc|].
      assert (sc_ok cls io) as Hs by (intros ->; exact (ma_modules _ _ _ MA _ _ Eio)).
      destruct (lowest_exists cls Hwf io c Hs (Hon c Hc)) as (x & Lx).
      assert (shares p c x) as Sx by (apply (ma_io _ _ _ MA _ _ _ _ _ Eio), Lx).
      exists x. split.
      - apply Hw. split; [apply Hsel; eauto|]. eapply lowest_ext; [|exact Lx]. apply (unit_ext cls Hwf), Lx.
      - apply (ma_io _ _ _ MA _ _ _ _ _ Eio), same_unit_sym, Lx. }
    assert (forall x, In x w -> req x) as Hin.
    { intros x I. apply Hsel. pose proof (reduce_cpus_l cls Hwf _ _ _ Hon' (ma_modules _ _ _ MA (ps_st s) p) E2) as Hred.
      destruct Hred as [(_ & _ & ->)|(io & Eio & Hw)]; [destruct I|]. now apply Hw in I. }
    intros q c. destruct (Z.eq_dec q p) as [-> |N].
    - destruct (in_dec Z.eq_dec c (concat ll)) as [I|I].
      + left. apply Hsel in I. split; [reflexivity|]. split; [exact I|]. destruct (Hcov c I) as (x & Ix & Sx). eauto.
      + right. split; [intros (_ & R); apply I, Hsel, R|]. apply W2. intros (_ & x & Ix & Sx). apply I, Hsel. eauto.
    - right. split; [intros (X & _); auto|]. apply W2. intros (X & _). auto.
  Qed.

  Lemma same_pkg c x p : same_unit topo SPackage c x -> cpu_in_pkg topo p c -> cpu_in_pkg topo p x.
  Proof.
    intros (t & u & It & Iu & Lt & Lu & Et & Eu & Eid) (t2 & It2 & Lt2 & Et2 & Ep). cbn in Eid. injection Eid as Eid.
    assert (t2 = t) as -> by (eapply cpu_line_unique; eauto; congruence). exists u. repeat split; auto. congruence.
  Qed.
  Lemma same_die c x pd : same_unit topo SDie c x -> cpu_in_die topo pd c -> cpu_in_die topo pd x.
  Proof.
    intros (t & u & It & Iu & Lt & Lu & Et & Eu & Eid) (t2 & It2 & Lt2 & Et2 & Ep & Ed). cbn in Eid. injection Eid as Eid Eid2.
    assert (t2 = t) as -> by (eapply cpu_line_unique; eauto; congruence). exists u. repeat split; auto; congruence.
  Qed.

  Lemma put_cpus p val cpus s m s' : set_prop_cpus cls p val (Some cpus) None s = (Ok m, s') ->
    exists v0 v, val = Some v0 /\ pc_norm cls p v0 = Ok v /\ put p v (fun c => In c cpus) (ps_st s) (ps_st s').
  Proof.
    intros H. destruct (scope_accepted_l cls Hwf _ _ _ _ _ _ _ H) as (st1 & sc & l0 & K0 & Esc & _ & Hreq0 & Hwh0).
    destruct (set_prop_cpus_l cls _ _ _ _ _ _ _ Hwf H) as (v0 & v & d & l & st1' & ms & pre & st2 & -> & Hn & _ & _ & Hreq & _ & K & _ & _ & Har & Hset & _).
    assert (st1' = st1) as -> by (unfold scope_known in *; congruence).
    exists v0, v. split; [reflexivity|]. split; [exact Hn|].
    assert (same (ps_st s) st1) as S1 by (intros q c; exact (ma_scope _ _ _ MA _ _ _ _ q c K)).
    assert (same st1 st2) as S2.
    { clear - Har MA. induction Har as [|m ms st st1 st2 Hr _ IH]; [intros q c; reflexivity|].
      intros q c. rewrite (IH q c). exact (ma_refuse _ _ _ MA _ _ _ _ _ _ q c Hr). }
    apply (put_same _ _ _ _ _ _ (same_trans _ _ _ S1 S2)).
    destruct (ma_write _ _ _ MA _ _ _ _ _ _ Hset) as (W1 & W2).
    destruct Hreq as (_ & Hon & Hl). cbn in Hl. destruct Hreq0 as (_ & _ & Hl0). cbn in Hl0.
    intros q c. destruct (Z.eq_dec q p) as [-> |N]; [|right; split; [intros (X & _); auto|]; apply W2; intros (X & _); auto].
    destruct (in_dec Z.eq_dec c cpus) as [I|I].
    - left. split; [reflexivity|]. split; [exact I|]. apply (W1 c); [now apply Hl|]. apply (ma_self _ _ _ MA). now apply Hon, Hl.
    - right. split; [intros (_ & X); auto|]. apply W2. intros (_ & x & Ix & Sx). apply I, Hl0.
      apply (Hwh0 x); [apply Hl0, Hl, Ix|]. exact (ma_sname _ _ _ MA _ _ _ _ _ Esc Sx).
  Qed.

  Lemma put_packages p val pkgs s m s' : by_scope cls p RPkg -> set_prop_packages cls p val (Some pkgs) None s = (Ok m, s') ->
    exists v0 v, val = Some v0 /\ pc_norm cls p v0 = Ok v /\
      put p v (fun c => exists q, In q pkgs /\ cpu_in_pkg topo q c) (ps_st s) (ps_st s').
  Proof.
    intros HB H. unfold set_prop_packages in H.
    apply lift_bind in H as [(ms & Hms & H)|(e & _ & [=] & _)].
    apply lift_bind in H as [(v & Hv & H)|(e & _ & [=] & _)].
    apply lift_bind in H as [(l & Hl & H)|(e & _ & [=] & _)].
    destruct (normalize_inprop_ok _ _ _ _ Hv) as (v0 & d & -> & Hp & Hw & Hn).
    destruct (normalize_packages_req cls Hwf _ _ Hl) as (_ & _ & N3). cbn in N3.
    exists v0, v. split; [reflexivity|]. split; [exact Hn|].
    assert (H' : (on_st (pc_set_sname cls p) ;;
      let! sn := gets (fun s => pc_sname cls (ps_st s) p) in
      lift (validate_prop_vs_scope sn SPackage) ;;
      let! p0 := lift (prop_of cls p) in
      set_loop (set_units cls p v (pkgs_cpus cls l)) ENotSupported (or_default p0 ms)) s = (Ok m, s')).
    { destruct pkgs as [|x t]; [discriminate|exact H]. }
    clear H. unfold mbind at 1 in H'.
    destruct (on_st (pc_set_sname cls p) s) as [[[]|e] s1] eqn:E1; [|discriminate].
    pose proof (on_st_same _ _ _ _ E1) as S1.
    unfold mbind at 1, gets in H'. cbv beta iota in H'.
    apply lift_bind in H' as [([] & Hval & H')|(e & _ & [=] & _)].
    apply lift_bind in H' as [(p' & Hp' & H')|(e & _ & [=] & _)].
    destruct (set_loop_keep _ _ _ _ _ _ (set_units_same p v (pkgs_cpus cls l)) H') as (s2 & S2 & E2).
    assert (pc_sname cls (ps_st s1) p = Some SPackage) as Esc.
    { destruct (pc_sname cls (ps_st s1) p) as [sc|] eqn:E; [|destruct (pc_sname cls (ps_st s1) p); discriminate].
      rewrite <- (HB _ _ E). reflexivity. }
    apply (put_same _ _ _ _ _ _ (same_trans _ _ _ S1 S2)). apply (set_units_put _ _ _ _ _ _ _ E2).
    - intros ll Ell c. rewrite (pkgs_cpus_l cls Hwf _ _ Ell). split; intros (q & Iq & Hc); exists q; (split; [|exact Hc]).
      + now apply N3.
      + apply N3. split; [|exact Iq]. destruct Hc as (t & Ht & _ & _ & Ep). now exists t.
    - intros c (q & _ & Hc). exact (in_pkg_online cls Hwf _ _ Hc).
    - intros x c (q & Iq & Hx) Sx. exists q. split; [exact Iq|]. eapply same_pkg; [|exact Hx]. exact (ma_sname _ _ _ MA _ _ _ _ _ Esc Sx).
  Qed.

  Lemma put_dies p val ds s m s' : by_scope cls p RDie -> set_prop_dies cls p val (Some ds) None s = (Ok m, s') ->
    exists v0 v, val = Some v0 /\ pc_norm cls p v0 = Ok v /\
      put p v (fun c => exists pd, die_requested ds pd /\ cpu_in_die topo pd c) (ps_st s) (ps_st s').
  Proof.
    intros HB H. unfold set_prop_dies in H.
    apply lift_bind in H as [(ms & Hms & H)|(e & _ & [=] & _)].
    apply lift_bind in H as [(v & Hv & H)|(e & _ & [=] & _)].
    apply lift_bind in H as [(nd & Hl & H)|(e & _ & [=] & _)].
    pose proof (normalize_dies_arg_l cls Hwf _ _ Hl) as Hnd.
    destruct (normalize_inprop_ok _ _ _ _ Hv) as (v0 & d & -> & Hp & Hw & Hn).
    destruct (existsb _ ds); [discriminate|].
    exists v0, v. split; [reflexivity|]. split; [exact Hn|].
    assert (H' : (on_st (pc_set_sname cls p) ;;
      let! sn := gets (fun s => pc_sname cls (ps_st s) p) in
      lift (validate_prop_vs_scope sn SDie) ;;
      let! p0 := lift (prop_of cls p) in
      set_loop (set_units cls p v (dies_cpus cls nd)) ENotSupported (or_default p0 ms)) s = (Ok m, s')).
    { destruct ds as [|x t]; [discriminate|exact H]. }
    clear H. unfold mbind at 1 in H'.
    destruct (on_st (pc_set_sname cls p) s) as [[[]|e] s1] eqn:E1; [|discriminate].
    pose proof (on_st_same _ _ _ _ E1) as S1.
    unfold mbind at 1, gets in H'. cbv beta iota in H'.
    apply lift_bind in H' as [([] & Hval & H')|(e & _ & [=] & _)].
    apply lift_bind in H' as [(p' & Hp' & H')|(e & _ & [=] & _)].
    destruct (set_loop_keep _ _ _ _ _ _ (set_units_same p v (dies_cpus cls nd)) H') as (s2 & S2 & E2).
    assert (pc_sname cls (ps_st s1) p = Some SDie) as Esc.
    { destruct (pc_sname cls (ps_st s1) p) as [sc|] eqn:E; [|discriminate Hval]. rewrite <- (HB _ _ E). reflexivity. }
    apply (put_same _ _ _ _ _ _ (same_trans _ _ _ S1 S2)). apply (set_units_put _ _ _ _ _ _ _ E2).
    - intros ll Ell c. rewrite (dies_cpus_l cls Hwf _ _ Ell). split; intros (q & Iq & Hc); exists q; (split; [|exact Hc]).
      + now apply Hnd.
      + apply Hnd. split; [|exact Iq]. destruct Hc as (t & Ht & _ & _ & A & B). now exists t.
    - intros c (q & _ & Hc). exact (in_die_online cls Hwf _ _ Hc).
    - intros x c (q & Iq & Hx) Sx. exists q. split; [exact Iq|]. eapply same_die; [|exact Hx]. exact (ma_sname _ _ _ MA _ _ _ _ _ Esc Sx).
  Qed.

  Lemma set_prop_put p sn val n s s' : by_scope cls p sn -> keys_once n -> set_prop cls p sn val n s = (Ok tt, s') ->
    exists v0 v, val = Some v0 /\ pc_norm cls p v0 = Ok v /\ put p v (covers topo sn n) (ps_st s) (ps_st s').
  Proof.
    intros HB HK H. unfold set_prop in H. destruct sn, n as [l|d]; try discriminate H; unfold mbind in H;
      match type of H with context [match ?x with _ => _ end] => destruct x as [[m|e] s1] eqn:E end; try discriminate H; injection H as <-.
    - destruct (put_cpus _ _ _ _ _ _ E) as (v0 & v & -> & Hn & P). exists v0, v. split; [reflexivity|]. split; [exact Hn|].
      eapply put_ext; [|exact P]. intros c. unfold covers. split.
      + intros I. exists (NumCPU c). split; [exact I|reflexivity].
      + intros (k & Hk & Hc). destruct k; try destruct Hk. cbn in Hc. now subst.
    - destruct (put_dies _ _ _ _ _ _ HB E) as (v0 & v & -> & Hn & P). exists v0, v. split; [reflexivity|]. split; [exact Hn|].
      eapply put_ext; [|exact P]. intros c. unfold covers, die_requested. cbn in HK. split.
      + intros ([p0 x] & (arg & Ea & Hx) & Hc). cbn [fst snd] in *. exists (NumDie p0 x). split; [|exact Hc]. cbn.
        apply (dget_In _ Zeqb_spec) in Ea. apply in_map_iff in Ea. destruct Ea as ([p1 l] & [= -> <-] & I). exists l. auto.
      + intros (k & Hk & Hc). destruct k as [c0|p0 x|p0]; try (destruct Hk; fail). cbn in Hk, Hc. destruct Hk as (l & I & J).
        exists (p0, x). split; [|exact Hc]. cbn [fst snd]. exists (Some l). split; [|exact J].
        apply (In_dget _ Zeqb_spec).
        * rewrite map_map. cbn. exact HK.
        * apply in_map_iff. exists (p0, l). auto.
    - destruct (put_packages _ _ _ _ _ _ HB E) as (v0 & v & -> & Hn & P). exists v0, v. split; [reflexivity|]. split; [exact Hn|].
      eapply put_ext; [|exact P]. intros c. unfold covers. split.
      + intros (q & I & J). exists (NumPkg q). split; [exact I|exact J].
      + intros (k & Hk & Hc). destruct k as [c0|p0 x|p0]; try (destruct Hk; fail). cbn in Hk, Hc. eauto.
  Qed.
End Set_.
