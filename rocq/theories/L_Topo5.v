(** Updating the topology table and adding levels to it. *)
From Verif Require Import Base L_Base L_Monad M_Text S_Text L_Text M_CPUInfo S_CPUInfo M_Topo S_Topo L_Topo L_Topo2 L_Topo3 L_Topo4.
From Coq Require Import ZifyBool Sorted Permutation.

Lemma union_In a b l : In l (level_union a b) <-> In l a \/ In l b.
Proof.
  unfold level_union. rewrite in_app_iff, filter_In. split; [tauto|]. intros [H|H]; [now left|].
  destruct (has_level l a) eqn:E; [left; now apply has_level_In|]. right. auto.
Qed.

Lemma filling_post {A} info (mm : M work A) s (Q : A * list (Z * pline) -> obj -> Prop) (E : exc -> obj -> Prop) :
  post mm (Work info (o_comp s) (o_io s))
    (fun a w => Q (a, w_info w) (Obj (o_cpus s) (o_tables s) (o_must s) (o_done s) (w_comp w) (w_io w)))
    (fun e w => E e (Obj (o_cpus s) (write_back (w_info w) (o_tables s)) (o_must s) (o_done s) (w_comp w) (w_io w))) ->
  post (filling info mm) s Q E.
Proof.
  unfold post, filling. destruct (mm (Work info (o_comp s) (o_io s))) as [[a|e] w]; auto.
Qed.

(** The dictionary made of the kept lines and the new lines. *)
Lemma fold_dset_app (l : list pline) : forall d : list (Z * pline),
  NoDup (map p_cpu l) -> (forall t, In t l -> ~ In (p_cpu t) (map fst d)) ->
  fold_left (fun d t => dset Z.eqb d (p_cpu t) t) l d = d ++ map (fun t => (p_cpu t, t)) l.
Proof.
  assert (App : forall (d : list (Z * pline)) k v, ~ In k (map fst d) -> dset Z.eqb d k v = d ++ [(k, v)]).
  { induction d as [|[k' v'] d IH]; intros k v Hn; [reflexivity|]. cbn [dset app]. cbn [map fst In] in Hn.
    destruct (Z.eqb_spec k k') as [->|Hk]; [tauto|]. now rewrite IH by tauto. }
  induction l as [|t l IH]; intros d Hn Hd; [now rewrite app_nil_r|]. cbn [fold_left map]. cbn [map] in Hn.
  inversion Hn as [|? ? N1 N2]; subst. rewrite App by (apply Hd; now left). rewrite IH; [now rewrite <- app_assoc|exact N2|].
  intros x Hx. rewrite map_app, in_app_iff. cbn [map fst In]. intros [H|[H|[]]]; [now apply (Hd x (or_intror Hx))|].
  apply N1. rewrite H. now apply in_map.
Qed.

Lemma NoDup_sub_filter (P Q : Z -> bool) l : (forall x, P x = true -> Q x = true) -> NoDup (filter Q l) -> NoDup (filter P l).
Proof.
  intros H. induction l as [|x l IH]; [auto|]. cbn [filter]. destruct (Q x) eqn:EQ.
  - intros Hn. inversion Hn as [|? ? N1 N2]; subst. destruct (P x); [|auto]. constructor; [|auto].
    intros Hi. apply N1. apply filter_In in Hi as [Hi Hp]. apply filter_In. auto.
  - intros Hn. destruct (P x) eqn:EP; [rewrite (H x EP) in EQ; discriminate|auto].
Qed.

Lemma map_filter_comm {A} (f : A -> Z) (P : Z -> bool) l : map f (filter (fun x => P (f x)) l) = filter P (map f l).
Proof. induction l as [|x l IH]; [reflexivity|]. cbn [filter map]. destruct (P (f x)); cbn [map]; now rewrite IH. Qed.

Section Obj2.
  Variable m : machine.
  Hypothesis Hm : machine_ok m.
  Variable on : list Z.
  Variable h : host.
  Hypothesis Hon : online_set m on.
  Hypothesis Hs : shows m on h.

  Notation failed := (failed m on h).
  Notation oinv := (oinv m).
  Notation table_ok := (table_ok m).

  Lemma oinv_table ex s : oinv ex on s -> o_tables s <> [] -> exists rows0, table_ok ex on s rows0.
  Proof. intros H Hne. destruct (oi_state _ _ _ _ H) as [(E & _)|G]; [congruence|exact G]. Qed.

  Lemma found_exact comp p d : complete m comp -> comp_ok m comp -> (found_io m comp p d <-> io_die m p d).
  Proof.
    intros C [K K2]. unfold found_io, io_die. split.
    - intros (U & N & X). split; [exact U|]. split.
      + destruct (K2 p N) as (x & Hx). destruct (K p x Hx) as (c & Hc & Ep & _). eauto.
      + intros (c & Hc & <- & <-). apply X. now apply C.
    - intros (U & (c & Hc & <-) & X). split; [exact U|]. split.
      + destruct (C c Hc) as (ds & -> & _). discriminate.
      + intros Hi. apply X. destruct (K _ _ Hi) as (c' & Hc' & E1 & E2). eauto.
  Qed.

  Lemma blank_ok comp c : In c on -> line_true m comp (blank_line c).
  Proof.
    intros Hc. destruct Hon as (_ & _ & Hi). specialize (Hi c Hc). split; [exact Hi|]. split.
    - intros l v Hv. destruct l; try discriminate. injection Hv as <-. symmetry. apply (mo_cpu m Hm c Hi).
    - intros H. now elim H.
  Qed.

  (** A dictionary made of lines that are right. *)
  Lemma start_ok ex s info : oinv ex on s -> NoDup (map fst info) ->
    (forall c t, In (c, t) info -> p_cpu t = c /\ line_true m (o_comp s) t) ->
    wok m (Work info (o_comp s) (o_io s)) /\ exact_w m ex (Work info (o_comp s) (o_io s)).
  Proof.
    intros H Hn Hl. split.
    - constructor; cbn [w_info w_comp w_io].
      + exact Hn.
      + intros c t Ht. apply Hl. eapply dget_In. exact Ht.
      + apply (oi_comp _ _ _ _ H).
      + apply (oi_io _ _ _ _ H).
      + apply (oi_iond _ _ _ _ H).
    - exact (oi_ex _ _ _ _ H).
  Qed.

  (** The state after an exception while the lines are being filled. *)
  Lemma fill_failed ex s info w' e : oinv ex on s ->
    wok m (Work info (o_comp s) (o_io s)) -> exact_w m ex (Work info (o_comp s) (o_io s)) ->
    (forall rows0 r l, table_ok ex on s rows0 -> In r rows0 -> In (p_cpu r) (map fst info) -> In l (o_done s) ->
       filled (Work info (o_comp s) (o_io s)) l (p_cpu r)) ->
    ext m (Work info (o_comp s) (o_io s)) w' -> ~ readable m on h ->
    failed ex e (Obj (o_cpus s) (write_back (w_info w') (o_tables s)) (o_must s) (o_done s) (w_comp w') (w_io w')).
  Proof.
    intros H Hw Hx Hf He Hr. split; [|exact Hr]. apply write_back_inv; auto.
    - apply He.
    - eapply exact_ext; eassumption.
    - apply (ex_comp m _ _ He).
    - intros r l r' Hl _ Hd (rows0 & T & Hi).
      assert (Hk : In (p_cpu r) (map fst info)).
      { change (map fst info) with (keys (Work info (o_comp s) (o_io s))). rewrite <- (ex_keys m _ _ He). apply dget_key. congruence. }
      destruct (ex_filled m _ _ He _ _ (Hf rows0 r l T Hi Hk Hl)) as (t & v & Ht & Hv). rewrite Hd in Ht. injection Ht as <-. congruence.
  Qed.

  Lemma update_post ex s : oinv ex on s -> o_tables s <> [] ->
    post (update_topology h) s (fun _ s' => oinv ex on s' /\ o_must s' = false) (failed ex).
  Proof.
    intros H Hne. unfold update_topology. apply post_bind.
    eapply post_conseq; [apply (online_post m on h Hs ex s H)| |auto]. cbn beta.
    intros new s1 ((Hnn & Hnew) & H1 & v & Es1).
    assert (Hne1 : o_tables s1 <> []) by (subst s1; exact Hne). clear s v Es1 H Hne.
    destruct (oinv_table ex s1 H1 Hne1) as (rows0 & T).
    destruct (to_base _ _ _ _ _ T) as (B1 & B2 & B3).
    destruct (to_tab _ _ _ _ _ T LCPU B1) as (rows & D & P & _).
    apply post_bind. unfold table, post at 1. rewrite D.
    assert (Hin : forall r, In r rows <-> In r rows0).
    { intros r. split; apply Permutation_in; [now apply Permutation_sym|exact P]. }
    apply post_bind.
    assert (Hna : ~ In NA new) by (rewrite Hnew; intros G; now apply (on_not_na m Hm on Hon) in G).
    destruct (subsetb new (map p_cpu rows) && subsetb (map p_cpu rows) new) eqn:Eq.
    - apply andb_true_iff in Eq as [E1 E2]. apply subsetb_incl in E1, E2. apply post_ret. apply post_modify. split; [|reflexivity].
      pose proof H1 as [I1 I2 I3 I4 I5 I6].
      constructor; cbn [o_cpus o_comp o_io o_tables o_done o_must]; auto. right. exists rows0.
      destruct T as [T1 T2 T3 T4 T5 T6 T7]. constructor; cbn [o_cpus o_comp o_io o_tables o_done o_must]; auto.
      intros _ c. rewrite <- Hnew. split.
      + intros Hc. split; [congruence|]. apply E1 in Hc. apply in_map_iff in Hc as (r & E & Hr). exists r. split; [now apply Hin|exact E].
      + intros (Hc & r & Hr & <-). apply E2. apply in_map. now apply Hin.
    - set (old := map p_cpu rows). set (online := minus new old).
      set (kept := filter (fun t => inb (p_cpu t) new) rows).
      assert (Hkept : forall t, In t kept <-> In t rows0 /\ In (p_cpu t) new).
      { intros t. unfold kept. rewrite filter_In, Hin, inb_In. reflexivity. }
      assert (Hnk : NoDup (map p_cpu kept)).
      { unfold kept. rewrite (map_filter_comm p_cpu (fun c => inb c new)).
        apply (NoDup_sub_filter _ (fun c => negb (c =? NA))).
        - intros x Hx. apply inb_In in Hx. destruct (Z.eqb_spec x NA) as [->|]; [contradiction|reflexivity].
        - assert (Hp : Permutation (filter (fun c => negb (c =? NA)) (map p_cpu rows0)) (filter (fun c => negb (c =? NA)) (map p_cpu rows))).
          { pose proof (Permutation_map p_cpu P) as P'. clear - P'. induction P'; cbn [filter].
            - constructor.
            - destruct (negb (x =? NA)); [now constructor|assumption].
            - destruct (negb (x =? NA)), (negb (y =? NA)); try constructor; reflexivity.
            - etransitivity; eassumption. }
          eapply Permutation_NoDup; [exact Hp|apply (to_nodup _ _ _ _ _ T)]. }
      assert (Hblank : map fst (map (fun c => (c, blank_line c)) online) = online).
      { rewrite map_map. cbn [fst]. apply map_id. }
      rewrite fold_dset_app; [|exact Hnk|].
      2:{ intros t Ht. rewrite Hblank. unfold online. rewrite minus_In. intros [_ G]. apply G. unfold old. apply in_map.
          apply Hin. now apply Hkept. }
      set (info := map (fun c => (c, blank_line c)) online ++ map (fun t => (p_cpu t, t)) kept).
      assert (Hkeys : map fst info = online ++ map p_cpu kept).
      { unfold info. rewrite map_app, Hblank, map_map. reflexivity. }
      assert (Hkin : forall c, In c (map fst info) <-> In c on).
      { intros c. rewrite Hkeys, in_app_iff, <- Hnew. unfold online. rewrite minus_In. split.
        - intros [[G _]|G]; [exact G|]. apply in_map_iff in G as (t & <- & Ht). now apply Hkept.
        - intros G. destruct (in_dec Z.eq_dec c old) as [Ho|Ho]; [|left; auto]. right.
          unfold old in Ho. apply in_map_iff in Ho as (t & <- & Ht). apply in_map. apply Hkept. split; [now apply Hin|exact G]. }
      destruct (start_ok ex s1 info H1) as [Hw0 Hx0].
      { rewrite Hkeys. apply NoDup_app_disj; [apply NoDup_filter; exact Hnn|exact Hnk|].
        intros c Hk Hc. unfold online in Hc. rewrite minus_In in Hc. apply (proj2 Hc).
        apply in_map_iff in Hk as (t & <- & Ht). unfold old. apply in_map. apply Hin. now apply Hkept. }
      { intros c t Hi. unfold info in Hi. apply in_app_or in Hi as [Hi|Hi]; apply in_map_iff in Hi as (x & [= <- <-] & Hx).
        - split; [reflexivity|]. apply blank_ok. rewrite <- Hnew. unfold online in Hx. rewrite minus_In in Hx. apply Hx.
        - split; [reflexivity|]. apply Hkept in Hx as [Hx Hxn]. apply (to_cpu _ _ _ _ _ T x Hx). congruence. }
      set (w0 := Work info (o_comp s1) (o_io s1)) in *.
      assert (Hfk : forall c l, In c (map p_cpu kept) -> In l (o_done s1) -> filled w0 l c).
      { intros c l Hc Hl. apply in_map_iff in Hc as (t & <- & Ht). pose proof Ht as Ht'. apply Hkept in Ht as [Ht Htn].
        destruct (to_cpu _ _ _ _ _ T t Ht) as [_ G]; [congruence|]. specialize (G l Hl).
        destruct (pget l t) as [v|] eqn:E; [|congruence]. exists t, v. split; [|exact E].
        unfold w0. cbn [w_info]. apply In_dget; [apply (wk_nodup m w0 Hw0)|]. unfold info. apply in_or_app. right. apply in_map_iff. eauto. }
      assert (Hfail : forall e w', bad m on h w0 e w' ->
        failed ex e (Obj (o_cpus s1) (write_back (w_info w') (o_tables s1)) (o_must s1) (o_done s1) (w_comp w') (w_io w'))).
      { intros e w' [He Hr]. apply fill_failed with (info := info); auto.
        intros rows1 r l T1 Hr1 Hk Hl. apply Hfk; [|exact Hl].
        rewrite Hkeys in Hk. apply in_app_or in Hk as [Hk|Hk]; [|exact Hk]. exfalso. unfold online in Hk. rewrite minus_In in Hk.
        apply (proj2 Hk). destruct (to_tab _ _ _ _ _ T1 LCPU B1) as (rows' & D' & P' & _). rewrite D in D'. injection D' as <-.
        unfold old. apply in_map. eapply Permutation_in; eassumption. }
      apply post_bind. apply post_gets. apply post_bind. apply filling_post. fold w0. apply post_bind.
      eapply post_conseq; [apply (fill_post m on h Hm Hon Hs (o_done s1) online w0 Hw0)|intros [] w1 [He Hf]|exact Hfail].
      { intros c Hc. rewrite <- Hnew. unfold online in Hc. rewrite minus_In in Hc. apply Hc. }
      { intros c Hc. change (keys w0) with (map fst info). rewrite Hkeys. apply in_or_app. now left. }
      { exact B2. } { exact B3. }
      cbn beta.
      assert (Hk1 : forall c, In c (keys w1) <-> In c on).
      { intros c. rewrite (ex_keys m _ _ He). exact (Hkin c). }
      assert (Hf1 : forall c l, In c (keys w1) -> In l (o_done s1) -> filled w1 l c).
      { intros c l Hc Hl. rewrite (ex_keys m _ _ He) in Hc. change (keys w0) with (map fst info) in Hc. rewrite Hkeys in Hc.
        apply in_app_or in Hc as [Hc|Hc]; [now apply Hf|]. apply (ex_filled m _ _ He). now apply Hfk. }
      (* what remains, for any lines of I/O dies *)
      assert (Finish : forall io w2, wok m w2 -> w_info w2 = w_info w1 ->
        (forall r, In r io -> exists p d, r = io_line p d /\ uncore_die m p d) ->
        (ex = true -> rows_exact m io /\ complete m (w_comp w2) /\ io_exact m (w_io w2)) ->
        post (mfor (o_done s1) (sort_topology (map snd (w_info w2) ++ io)))
          (Obj (o_cpus s1) (o_tables s1) (o_must s1) (o_done s1) (w_comp w2) (w_io w2))
          (fun _ s' => post (set_must false) s' (fun _ s' => oinv ex on s' /\ o_must s' = false) (failed ex)) (failed ex)).
      { intros io w2 Hw2 Ei Hio Hex.
        assert (Hk2 : keys w2 = keys w1) by (unfold keys; now rewrite Ei).
        assert (Hf2 : forall c l, In c (keys w2) -> In l (o_done s1) -> filled w2 l c).
        { intros c l Hc Hl. rewrite Hk2 in Hc. destruct (Hf1 c l Hc Hl) as (t & v & Ht & Hv). exists t, v. rewrite Ei. auto. }
        eapply post_conseq; [apply sorts_post; auto| |contradiction].
        - intros r l Hr Hl. apply in_app_or in Hr as [Hr|Hr].
          + apply in_map_iff in Hr as ([c t] & <- & Hi). cbn [snd].
            destruct (Hf2 c l) as (t' & v & Ht & Hv); [apply in_map_iff; exists (c, t); auto|exact Hl|].
            rewrite (In_dget _ _ _ (wk_nodup m w2 Hw2) Hi) in Ht. injection Ht as <-. congruence.
          + destruct (Hio r Hr) as (p & d & -> & _). destruct l; discriminate.
        - intros [] s' (tb & -> & Htb). apply post_modify. split; [|reflexivity].
          cbn [with_tables o_cpus o_tables o_must o_done o_comp o_io].
          apply (new_table m Hm on ex s1 w2 io (o_done s1) tb); auto.
          + apply (oi_cpus _ _ _ _ H1).
          + intros c. rewrite Hk2. apply Hk1.
          + intros E. destruct (Hex E) as (A & B & C). split; [apply (to_ex _ _ _ _ _ T E)|auto]. }
      destruct (has_level LDie (o_done s1)) eqn:Ed.
      + eapply post_conseq; [apply (add_io_post m on h Hs w1); apply He|intros io w2 (Hw2 & Ei & Ec & Hio & Hdict)|].
        * apply Finish; [exact Hw2|exact Ei| |].
          -- intros r Hr. apply Hio in Hr as (p & d & -> & U & _). eauto.
          -- intros E. destruct (exact_ext m ex w0 w1 Hx0 He E) as [C X]. rewrite Ec.
             assert (Hfe : forall p d, found_io m (w_comp w1) p d <-> io_die m p d).
             { intros p d. apply found_exact; [exact C|]. apply (wk_comp m w1). apply He. }
             split; [|split; [exact C|]].
             ++ intros p d. rewrite (Hio (io_line p d)), <- Hfe. split; [|eauto]. intros (p' & d' & [= <- <-] & G). exact G.
             ++ intros p d. rewrite Hdict, (X p d), Hfe. tauto.
        * intros e w' [-> Hr]. apply Hfail. split; [exact He|exact Hr].
      + apply post_ret. apply Finish; [apply He|reflexivity|contradiction|].
        intros E. exfalso. pose proof (to_ex _ _ _ _ _ T E) as [G _]. apply has_level_In in G. congruence.
  Qed.
End Obj2.
