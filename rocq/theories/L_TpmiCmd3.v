(** Lemmas about 'tpmi write': the command. *)
From Verif Require Import Base L_Base L_Monad M_Text S_Text L_Text M_Kver M_Osa M_CPUInfo M_MSR S_MSR L_Bits
  M_Tpmi S_Tpmi L_Tpmi L_Tpmi2 L_Tpmi3 L_Tpmi4 L_Tpmi5 L_Tpmi6 M_TpmiCmd S_TpmiCmd L_TpmiCmd L_TpmiCmd2.
From Coq Require Import ZifyBool.

Section Cmd.
  Variable nm : tnames.
  Variable env : tenv.
  Variable created : list ((Z * Z) * dump).
  Variable s0 : tstate.
  Hypothesis H0 : reached nm env created s0.

  Lemma env_tables : tables_ok (te_fdicts env).
  Proof. destruct (reached_inv _ _ _ _ H0) as (_ & _ & Hef). exact (ef_tables _ _ _ Hef). Qed.

  Lemma loop_asked f addrs pk ins fmap ap i : dget Z.eqb (te_fmaps env) f = Some fmap ->
    In ap (sel_of env fmap addrs pk) -> In i (eff s0 f ins (sel_of env fmap addrs pk)) -> In i (insts_of s0 f (fst ap)) ->
    asked_for nm env created s0 f addrs pk ins (fst ap) (snd ap) i.
  Proof.
    intros Ef Hap Hx Hy. destruct ap as [a p]. cbn [fst snd] in *.
    destruct (proj1 (sel_of_spec nm env created s0 f fmap addrs pk a p H0 Ef) Hap) as (d & Hd). exists d. split; [exact Hd|].
    unfold insts_of in Hy. rewrite (proj1 Hd) in Hy. split; [exact Hy|]. destruct ins as [l|]; [exact Hx|exact I].
  Qed.

  Lemma asked_tuples f addrs pk ins fmap a p i : dget Z.eqb (te_fmaps env) f = Some fmap ->
    (ins = None -> uniform nm env created s0 f addrs pk) ->
    asked_for nm env created s0 f addrs pk ins a p i ->
    In (a, p, i) (tuples (eff s0 f ins (sel_of env fmap addrs pk)) (sel_of env fmap addrs pk)).
  Proof.
    intros Ef HU (d & Hd & Hi & Hw). apply tuples_In. assert (Hs : In (a, p) (sel_of env fmap addrs pk)).
    { apply (sel_of_spec nm env created s0 f fmap addrs pk a p H0 Ef). eauto. }
    split; [exact Hs|]. unfold eff. destruct ins as [l|]; [exact Hw|]. specialize (HU eq_refl).
    destruct (sel_of env fmap addrs pk) as [|[x q] sel] eqn:Esel; [destruct Hs|]. cbn [fst].
    destruct (proj1 (sel_of_spec nm env created s0 f fmap addrs pk x q H0 Ef)) as (d0 & Hd0); [rewrite Esel; now left|].
    unfold insts_of. rewrite (proj1 Hd0). exact (HU _ _ _ _ _ _ i Hd Hd0 Hi).
  Qed.

  Lemma tuples_asked f addrs pk ins fmap a p i : dget Z.eqb (te_fmaps env) f = Some fmap ->
    (forall ap, In ap (sel_of env fmap addrs pk) -> incl (eff s0 f ins (sel_of env fmap addrs pk)) (insts_of s0 f (fst ap))) ->
    In (a, p, i) (tuples (eff s0 f ins (sel_of env fmap addrs pk)) (sel_of env fmap addrs pk)) ->
    asked_for nm env created s0 f addrs pk ins a p i.
  Proof.
    intros Ef Hin H. apply tuples_In in H as [Hs Hi]. apply (loop_asked f addrs pk ins fmap (a, p) i Ef Hs Hi). now apply (Hin (a, p) Hs).
  Qed.

  (** Filters that fit are accepted. *)
  Lemma fit_ok f addrs pk ins : filters_fit nm env created s0 f addrs pk ins ->
    (ins = None -> uniform nm env created s0 f addrs pk) ->
    exists fmap, dget Z.eqb (te_fmaps env) f = Some fmap /\
      (forall a p, In a (or_none addrs) -> In p (or_none pk) -> validate_addr env fmap a p = Ok tt) /\
      ~ bad s0 f (eff s0 f ins (sel_of env fmap addrs pk)) (sel_of env fmap addrs pk).
  Proof.
    intros ((a0 & d0 & Hd0) & F2 & F3 & F4) HU. destruct (reached_inv _ _ _ _ H0) as (Hi & Hl & Hef).
    destruct (lay_back _ _ _ _ Hl Hd0) as (dc & Hdc). destruct (ef_has _ _ _ Hef _ _ _ Hdc) as (fmap & p0 & Ef & _).
    exists fmap. split; [exact Ef|].
    assert (Hm : forall a d, dget pair_eqb (t_devs s0) (a, f) = Some d -> exists q, dget Z.eqb fmap a = Some q /\ reports nm (te_fdicts env) created a q).
    { intros a d Hd. destruct (lay_back _ _ _ _ Hl Hd) as (dk & Hdk). destruct (ef_has _ _ _ Hef _ _ _ Hdk) as (fm & q & E1 & E2).
      exists q. assert (fm = fmap) by congruence. subst fm. split; [exact E2|]. apply (proj1 (ef_maps _ _ _ Hef f a q)). eauto. }
    split.
    - intros a p Ha Hp. destruct addrs as [la|], pk as [lp|]; cbn [or_none] in Ha, Hp.
      + apply in_map_iff in Ha as (a1 & <- & Ha). apply in_map_iff in Hp as (p1 & <- & Hp).
        destruct (F2 la a1 eq_refl Ha) as (d & Hd). destruct (Hm a1 d Hd) as (q & E1 & E2). cbn [validate_addr]. rewrite E1.
        pose proof (F3 lp p1 eq_refl Hp a1 Ha) as Hr. destruct (lay_back _ _ _ _ Hl Hd) as (dk & Hdk).
        destruct (proj2 (ef_maps _ _ _ Hef f a1 p1)) as (fm & E3 & E4); [split; [eauto|exact Hr]|].
        assert (p1 = q) by congruence. subst. now rewrite Z.eqb_refl.
      + apply in_map_iff in Ha as (a1 & <- & Ha). destruct Hp as [<-|[]].
        destruct (F2 la a1 eq_refl Ha) as (d & Hd). destruct (Hm a1 d Hd) as (q & E1 & E2). cbn [validate_addr]. now rewrite E1.
      + destruct Ha as [<-|[]]. apply in_map_iff in Hp as (p1 & <- & Hp). cbn [validate_addr].
        destruct (F3 lp p1 eq_refl Hp) as (a & Hr). rewrite (proj2 (inb_In p1 (te_packages env))); [reflexivity|].
        apply (ef_pkgs _ _ _ Hef). exists a. split; [exact Hr|]. destruct Hr as (fd & rd & sm & d1 & v & _ & _ & _ & Hd1 & _). eauto.
      + destruct Ha as [<-|[]], Hp as [<-|[]]. reflexivity.
    - intros ([a p] & Hap & Hn). apply Hn. cbn [fst].
      destruct (proj1 (sel_of_spec nm env created s0 f fmap addrs pk a p H0 Ef) Hap) as (d & Hd).
      unfold insts_of. rewrite (proj1 Hd). intros i Hin. unfold eff in Hin. destruct ins as [l|].
      + exact (F4 l i a p d eq_refl Hin Hd).
      + destruct (sel_of env fmap addrs pk) as [|[x q] sel] eqn:Esel; [destruct Hin|]. cbn [fst] in Hin.
        destruct (proj1 (sel_of_spec nm env created s0 f fmap addrs pk x q H0 Ef)) as (d1 & Hd1); [rewrite Esel; now left|].
        unfold insts_of in Hin. rewrite (proj1 Hd1) in Hin. exact (HU eq_refl _ _ _ _ _ _ i Hd1 Hd Hin).
  Qed.

  Section Write.
    Variables (f r : Z) (bf : option Z) (v : Z) (addrs pk ins : option (list Z)).
    Notation T a i := (exists p, asked_for nm env created s0 f addrs pk ins a p i).
    Notation body := (fun (out : list (Z * Z * Z)) addr package inst =>
         t_write_register env v f addr inst r bf ;; ret (out ++ [(addr, package, inst)])).
    Notation run := (iter_do env f addrs pk ins body []).

    (** Whatever the outcome, only the registers asked for change. *)
    Lemma write_frame_run : only_words f (fun a i o => T a i /\ exists rd, reg_def env f r rd /\ reg_word rd o) s0 (snd (run s0)).
    Proof.
      set (P := fun a i o => T a i /\ exists rd, reg_def env f r rd /\ reg_word rd o).
      destruct (reached_inv _ _ _ _ H0) as (Hi & Hl & Hef).
      pose proof (iter_do_post nm env created s0 H0 f (list (Z * Z * Z)) body
        (fun _ _ s => tinv s /\ only_words f P s0 s) (fun e s => only_words f P s0 s)
        (fun _ a p i => asked_for nm env created s0 f addrs pk ins a p i)) as Q.
      specialize (Q ltac:(intros dn acc s [H1 H2]; split; [exact H1|eapply only_lay; exact H2])).
      specialize (Q ltac:(intros dn acc s s' [H1 H2] H3 H4; split; [exact H3|eapply only_devs_l; eassumption])).
      assert (B : forall (dn acc : list (Z * Z * Z)) s a p i, tinv s /\ only_words f P s0 s -> asked_for nm env created s0 f addrs pk ins a p i ->
        post (t_write_register env v f a i r bf ;; ret (acc ++ [(a, p, i)])) s (fun _ s' => tinv s' /\ only_words f P s0 s') (fun e s' => only_words f P s0 s')).
      { intros dn acc s a p i [H1 H2] Ha. apply post_bind. eapply post_conseq; [apply (write_any env env_tables f a i r bf v s H1)| |].
        - cbn beta. intros _ s' (K1 & K2 & _). apply post_ret. split; [exact K1|]. eapply only_trans; [exact H2|].
          eapply only_mono; [|exact K2]. cbn beta. intros a' i' o (-> & -> & Hr). split; [eauto|exact Hr].
        - cbn beta. intros e s' (K1 & K2). eapply only_trans; [exact H2|].
          eapply only_mono; [|exact K2]. cbn beta. intros a' i' o (-> & -> & Hr). split; [eauto|exact Hr]. }
      specialize (Q B addrs pk ins [] s0 (conj Hi (only_refl f P s0))
        (fun fmap dn a p i rest Ef _ Hap Hx Hy => loop_asked f addrs pk ins fmap (a, p) i Ef Hap Hx Hy)).
      unfold post in Q. destruct (run s0) as [[out|e] s']; cbn [snd].
      - destruct Q as (fmap & _ & _ & Q). apply Q.
      - destruct Q as [Q|((dn & acc & Q) & _)]; [exact Q|apply Q].
    Qed.

    Section Reg.
      Variable rd : rdict.
      Hypothesis Hr : reg_def env f r rd.
      Hypothesis Hfit : fits_in rd bf v.

      Definition Tdn (dn : list (Z * Z * Z)) (a i : Z) : Prop := exists p, In (a, p, i) dn.
      Definition JW (dn out : list (Z * Z * Z)) (s : tstate) : Prop :=
        out = dn /\ tinv s /\ only_words f (fun a i o => Tdn dn a i /\ reg_word rd o) s0 s /\ all_written f rd bf v (Tdn dn) s0 s.

      Lemma Tdn_dec dn a i : Tdn dn a i \/ ~ Tdn dn a i.
      Proof.
        induction dn as [|[[b q] j] dn [IH|IH]].
        - right. intros (p & []).
        - left. destruct IH as (p & Hp). exists p. now right.
        - destruct (Z.eq_dec b a) as [->|Hb]; [destruct (Z.eq_dec j i) as [->|Hj]|].
          + left. exists q. now left.
          + right. intros (p & [E|Hp]); [congruence|]. apply IH. now exists p.
          + right. intros (p & [E|Hp]); [congruence|]. apply IH. now exists p.
      Qed.

      Lemma def_okr : reg_ok rd.
      Proof. exact (def_ok env env_tables f r rd Hr). Qed.

      Lemma fit_range : 0 <= v < 2 ^ rd_width rd.
      Proof.
        unfold fits_in in Hfit. destruct bf as [b|]; [|exact Hfit]. destruct Hfit as (sm & hl & _ & Hm & Hw & Hf).
        eapply fits_width; [apply Hm|exact Hw|exact Hf].
      Qed.

      (** One write that finds its register. *)
      Lemma JW_step dn out s a p i d old : JW dn out s -> dget pair_eqb (t_devs s) (a, f) = Some d -> reg_value d i rd old ->
        exists s', t_write_register env v f a i r bf s = (Ok tt, s') /\ JW (dn ++ [(a, p, i)]) (out ++ [(a, p, i)]) s'.
      Proof.
        intros (-> & Hi & Ho & Ha) Ed Hold. pose proof (only_lay _ _ _ _ Ho) as Hl0.
        assert (Hk : known env f a r rd).
        { destruct (lay_back _ _ _ _ Hl0 Ed) as (dk & Hdk). apply (reached_known _ _ _ _ _ _ _ _ _ H0 Hdk Hr). }
        assert (Hd : dump_ok d) by (apply (proj1 Hi _ _ Ed)).
        assert (W : exists s' d' new, t_write_register env v f a i r bf s = (Ok tt, s') /\ tinv s' /\
                  t_devs s' = dset pair_eqb (t_devs s) (a, f) d' /\ reg_changed d d' i rd new /\ after_write rd bf v old new).
        { destruct bf as [b|] eqn:Eb; cbn [fits_in] in Hfit.
          - destruct Hfit as (sm & hl & Esm & Hm & Hw & Hf).
            destruct (write_run env f a i r (Some b) v s d rd old Hi Ed Hk def_okr Hold) as (s' & d' & K1 & K2 & K3 & K4).
            + eapply fits_width; [apply Hm|exact Hw|exact Hf].
            + congruence.
            + rewrite Esm. apply (set_bitfield_range hl); try assumption. eapply reg_value_range; eassumption.
            + rewrite Esm in K4. exists s', d', (set_bitfield old v sm). split; [exact K1|]. split; [exact K2|]. split; [exact K3|]. split; [exact K4|].
              exists sm, hl. split; [exact Esm|]. split; [exact Hm|]. now apply set_bitfield_set.
          - destruct (write_run env f a i r None v s d rd old Hi Ed Hk def_okr Hold Hfit I Hfit) as (s' & d' & K1 & K2 & K3 & K4).
            exists s', d', v. split; [exact K1|]. split; [exact K2|]. split; [exact K3|]. split; [exact K4|reflexivity]. }
        destruct W as (s' & d' & new & K1 & K2 & K3 & (K4 & K5 & K6 & K7) & K8). exists s'. split; [exact K1|].
        split; [reflexivity|]. split; [exact K2|].
        assert (Tl : forall b j, Tdn dn b j -> Tdn (dn ++ [(a, p, i)]) b j).
        { intros b j (q & Hq). exists q. apply in_or_app. now left. }
        assert (Tn : Tdn (dn ++ [(a, p, i)]) a i) by (exists p; apply in_or_app; right; now left).
        split.
        - eapply only_trans.
          + eapply only_mono; [|exact Ho]. cbn beta. intros b j o (KT & KW). auto.
          + eapply only_dset; [exact Ed|exact K3|exact K5|]. intros j o w Hn. apply K7. intros (-> & Hw). apply Hn. auto.
        - intros b j (q & Hq). apply in_app_or in Hq as [Hq|[[= <- <- <-]|[]]].
          + destruct (Z.eq_dec b a) as [->|Hb].
            * destruct (Ha a j ltac:(now exists q)) as (d0 & d1 & o0 & n0 & A1 & A2 & A3 & A4 & A5).
              assert (d1 = d) by congruence. subst d1.
              exists d0, d'. destruct (Z.eq_dec j i) as [->|Hj].
              -- exists o0, new. split; [exact A1|]. split; [rewrite K3; apply (dget_dset_same _ pair_eqb_spec)|].
                 split; [exact A3|]. split; [exact K6|]. assert (n0 = old) by exact (reg_value_unique d i rd n0 old Hd A4 Hold). subst n0.
                 eapply after_again; eassumption.
              -- exists o0, n0. split; [exact A1|]. split; [rewrite K3; apply (dget_dset_same _ pair_eqb_spec)|].
                 split; [exact A3|]. split; [|exact A5]. eapply reg_value_same; [|exact A4]. intros o w Hw. apply K7. tauto.
            * destruct (Ha b j ltac:(now exists q)) as (d0 & d1 & o0 & n0 & A1 & A2 & A3 & A4 & A5).
              exists d0, d1, o0, n0. split; [exact A1|]. split; [|auto]. rewrite K3, (dget_dset_other _ pair_eqb_spec); [exact A2|congruence].
          + destruct (Tdn_dec dn a i) as [Hdn|Hdn].
            * destruct (Ha a i Hdn) as (d0 & d1 & o0 & n0 & A1 & A2 & A3 & A4 & A5).
              assert (d1 = d) by congruence. subst d1.
              exists d0, d', o0, new. split; [exact A1|]. split; [rewrite K3; apply (dget_dset_same _ pair_eqb_spec)|].
              split; [exact A3|]. split; [exact K6|]. assert (n0 = old) by exact (reg_value_unique d i rd n0 old Hd A4 Hold). subst n0.
              eapply after_again; eassumption.
            * destruct (lay_back _ _ _ _ Hl0 Ed) as (d0 & Ed0). exists d0, d', old, new. split; [exact Ed0|].
              split; [rewrite K3; apply (dget_dset_same _ pair_eqb_spec)|]. split; [|auto].
              pose proof (proj2 Ho a) as Hw. rewrite Ed0, Ed in Hw. destruct Hw as [_ Hw].
              eapply reg_value_same; [|exact Hold]. intros o w Hrw. symmetry. apply Hw. tauto.
      Qed.

      Lemma JW_inv dn acc s : JW dn acc s -> tinv s /\ lay (t_devs s0) (t_devs s).
      Proof. intros (_ & H1 & H2 & _). split; [exact H1|]. eapply only_lay; exact H2. Qed.
      Lemma JW_ro dn acc s s' : JW dn acc s -> tinv s' -> t_devs s' = t_devs s -> JW dn acc s'.
      Proof.
        intros (E & H1 & H2 & H3) H4 H5. split; [exact E|]. split; [exact H4|]. split; [eapply only_devs_l; eassumption|].
        intros a i Ht. destruct (H3 a i Ht) as (d & d' & old & new & K1 & K2 & K3). exists d, d', old, new. rewrite H5. auto.
      Qed.
      Lemma JW_init : JW [] [] s0.
      Proof.
        destruct (reached_inv _ _ _ _ H0) as (Hi & Hl & Hef). split; [reflexivity|]. split; [exact Hi|]. split; [apply only_refl|].
        intros a i (p & []).
      Qed.

      Definition result (out : list (Z * Z * Z)) (s' : tstate) : Prop :=
        (forall a p i, In (a, p, i) out -> asked_for nm env created s0 f addrs pk ins a p i) /\
        ((ins = None -> uniform nm env created s0 f addrs pk) -> forall a p i, asked_for nm env created s0 f addrs pk ins a p i -> In (a, p, i) out) /\
        only_words f (fun a i o => Tdn out a i /\ reg_word rd o) s0 s' /\ all_written f rd bf v (Tdn out) s0 s'.

      Lemma write_ok_run out s' : run s0 = (Ok out, s') -> result out s'.
      Proof.
        intros Erun.
        pose proof (iter_do_post nm env created s0 H0 f (list (Z * Z * Z)) body JW (fun _ _ => True)
          (fun _ a p i => asked_for nm env created s0 f addrs pk ins a p i) JW_inv JW_ro) as Q.
        assert (B : forall (dn acc : list (Z * Z * Z)) s a p i, JW dn acc s -> asked_for nm env created s0 f addrs pk ins a p i ->
          post (t_write_register env v f a i r bf ;; ret (acc ++ [(a, p, i)])) s (fun acc' s' => JW (dn ++ [(a, p, i)]) acc' s') (fun _ _ => True)).
        { intros dn acc s a p i HJ _. pose proof (write_any env env_tables f a i r bf v s (proj1 (JW_inv _ _ _ HJ))) as W.
          unfold post in W. unfold post, mbind.
          destruct (t_write_register env v f a i r bf s) as [[[]|e] s1] eqn:E1; [|exact I].
          destruct W as (_ & _ & d & rd' & old & Ed & Hr' & Hv). assert (rd' = rd) by (eapply def_unique; eassumption). subst rd'.
          destruct (JW_step dn acc s a p i d old HJ Ed Hv) as (s2 & E2 & HJ2). assert (s2 = s1) by congruence. subst s2.
          cbn. exact HJ2. }
        specialize (Q B addrs pk ins [] s0 JW_init (fun fmap dn a p i rest Ef _ Hap Hx Hy => loop_asked f addrs pk ins fmap (a, p) i Ef Hap Hx Hy)).
        unfold post in Q. rewrite Erun in Q. destruct Q as (fmap & Ef & Hin & (E & _ & Ho & Ha)). cbv zeta in *. subst out.
        split; [|split; [|split]].
        - intros a p i Hx. exact (tuples_asked f addrs pk ins fmap a p i Ef Hin Hx).
        - intros HU a p i Hx. exact (asked_tuples f addrs pk ins fmap a p i Ef HU Hx).
        - exact Ho.
        - exact Ha.
      Qed.

      (** Nothing in the way: the command succeeds. *)
      Lemma write_live_run : filters_fit nm env created s0 f addrs pk ins -> (ins = None -> uniform nm env created s0 f addrs pk) ->
        (forall a p i d, asked_for nm env created s0 f addrs pk ins a p i -> dget pair_eqb (t_devs s0) (a, f) = Some d -> exists old, reg_value d i rd old) ->
        exists out s', run s0 = (Ok out, s').
      Proof.
        intros Hff HU Hread. destruct (fit_ok f addrs pk ins Hff HU) as (fmap & Ef & Hva & Hnb).
        pose proof (iter_do_post nm env created s0 H0 f (list (Z * Z * Z)) body JW (fun _ _ => False)
          (fun _ a p i => asked_for nm env created s0 f addrs pk ins a p i) JW_inv JW_ro) as Q.
        assert (B : forall (dn acc : list (Z * Z * Z)) s a p i, JW dn acc s -> asked_for nm env created s0 f addrs pk ins a p i ->
          post (t_write_register env v f a i r bf ;; ret (acc ++ [(a, p, i)])) s (fun acc' s' => JW (dn ++ [(a, p, i)]) acc' s') (fun _ _ => False)).
        { intros dn acc s a p i HJ Hask. pose proof Hask as (d0 & Hsel & _). pose proof HJ as (_ & _ & Ho & Ha).
          destruct (Hread a p i d0 Hask (proj1 Hsel)) as (o0 & Ho0).
          assert (Hc : exists d old, dget pair_eqb (t_devs s) (a, f) = Some d /\ reg_value d i rd old).
          { destruct (Tdn_dec dn a i) as [Hdn|Hdn].
            - destruct (Ha a i Hdn) as (d1 & d2 & o1 & n1 & _ & A2 & _ & A4 & _). eauto.
            - pose proof (proj2 Ho a) as Hw. rewrite (proj1 Hsel) in Hw. destruct (dget pair_eqb (t_devs s) (a, f)) as [d|]; [|destruct Hw].
              destruct Hw as [_ Hw]. exists d, o0. split; [reflexivity|]. eapply reg_value_same; [|exact Ho0]. intros o w Hrw. apply Hw. tauto. }
          destruct Hc as (d & old & Ed & Hv). destruct (JW_step dn acc s a p i d old HJ Ed Hv) as (s2 & E2 & HJ2).
          unfold post, mbind. rewrite E2. exact HJ2. }
        specialize (Q B addrs pk ins [] s0 JW_init (fun fmap dn a p i rest Ef _ Hap Hx Hy => loop_asked f addrs pk ins fmap (a, p) i Ef Hap Hx Hy)).
        unfold post in Q. destruct (run s0) as [[out|e] s']; [eauto|]. exfalso.
        destruct Q as [[]|(_ & [Q|(fm & Efm & [(a & p & Q1 & Q2 & Q3)|Q])])]; [congruence| |].
        - assert (fm = fmap) by congruence. subst fm. apply Q3. now apply Hva.
        - assert (fm = fmap) by congruence. subst fm. now apply Hnb.
      Qed.
    End Reg.

    (** Writes that cannot be done. *)
    Lemma write_reject_run :
      (forall s a p i, asked_for nm env created s0 f addrs pk ins a p i -> tinv s -> t_devs s = t_devs s0 ->
         exists e s', t_write_register env v f a i r bf s = (Exn e, s') /\ t_devs s' = t_devs s) ->
      (forall out s', run s0 = (Ok out, s') -> (ins = None -> uniform nm env created s0 f addrs pk) ->
         forall a p i, ~ asked_for nm env created s0 f addrs pk ins a p i) /\
      t_devs (snd (run s0)) = t_devs s0.
    Proof.
      intros Hrej. destruct (reached_inv _ _ _ _ H0) as (Hi & Hl & Hef).
      pose proof (iter_do_post nm env created s0 H0 f (list (Z * Z * Z)) body (fun dn _ s => dn = [] /\ tinv s /\ t_devs s = t_devs s0)
        (fun _ s => t_devs s = t_devs s0) (fun _ a p i => asked_for nm env created s0 f addrs pk ins a p i)) as Q.
      specialize (Q ltac:(intros dn acc s (_ & H1 & H2); split; [exact H1|rewrite H2; apply lay_refl])).
      specialize (Q ltac:(intros dn acc s s' (H1 & H2 & H3) H4 H5; split; [exact H1|split; [exact H4|congruence]])).
      assert (B : forall (dn acc : list (Z * Z * Z)) s a p i, dn = [] /\ tinv s /\ t_devs s = t_devs s0 -> asked_for nm env created s0 f addrs pk ins a p i ->
        post (t_write_register env v f a i r bf ;; ret (acc ++ [(a, p, i)])) s (fun _ s' => dn ++ [(a, p, i)] = [] /\ tinv s' /\ t_devs s' = t_devs s0) (fun e s' => t_devs s' = t_devs s0)).
      { intros dn acc s a p i (H1 & H2 & H3) Ha. destruct (Hrej s a p i Ha H2 H3) as (e & s' & E1 & E2). unfold post, mbind. rewrite E1. congruence. }
      specialize (Q B addrs pk ins [] s0 (conj eq_refl (conj Hi eq_refl)) (fun fmap dn a p i rest Ef _ Hap Hx Hy => loop_asked f addrs pk ins fmap (a, p) i Ef Hap Hx Hy)).
      unfold post in Q. split.
      - intros out s' Er HU a p i Ha. rewrite Er in Q. destruct Q as (fmap & Ef & Hin & (E & _)). cbv zeta in *.
        pose proof (asked_tuples f addrs pk ins fmap a p i Ef HU Ha) as Ht. rewrite E in Ht. destruct Ht.
      - destruct (run s0) as [[out|e] s']; cbn [snd].
        + destruct Q as (fmap & _ & _ & (_ & _ & Q)). exact Q.
        + destruct Q as [Q|((dn & acc & (_ & _ & Q)) & _)]; exact Q.
    Qed.
  End Write.
End Cmd.
