(** Asking for the topology table, after any history. *)
From Verif Require Import Base L_Base L_Monad M_Text S_Text L_Text M_CPUInfo S_CPUInfo M_Topo S_Topo L_Topo L_Topo2 L_Topo3 L_Topo4 L_Topo5.
From Coq Require Import ZifyBool Sorted Permutation.

Section Obj3.
  Variable m : machine.
  Hypothesis Hm : machine_ok m.
  Variable on : list Z.
  Variable h : host.
  Hypothesis Hon : online_set m on.
  Hypothesis Hs : shows m on h.

  Notation failed := (failed m on h).
  Notation oinv := (oinv m).
  Notation table_ok := (table_ok m).

  (** From the first request that includes the die level, all I/O dies are known. *)
  Definition fresh (ls : list level) (o : level) (s : obj) : Prop :=
    o_tables s = [] /\ (forall p d, ~ in_dict (o_io s) p d) /\ In LDie (level_union ls (skeys o)) /\ all_dies_online m on.

  Lemma get_post ex ex' s ls o : oinv ex on s -> (ex' = ex \/ ex = false /\ fresh ls o s) ->
    post (get_topology_of h ls o) s
      (fun rows s' => oinv ex' on s' /\ right_table m on ls o rows /\ (ex' = true -> rows_exact m rows)) (failed ex).
  Proof.
    intros H Hex. unfold get_topology_of. apply post_bind. apply post_gets. apply post_bind.
    assert (Hup : post (if o_must s then update_topology h else ret tt) s
      (fun _ s' => oinv ex on s' /\ o_must s' = false /\ (ex' = ex \/ ex = false /\ fresh ls o s')) (failed ex)).
    { destruct (o_must s) eqn:Em.
      - assert (Hne : o_tables s <> []).
        { destruct (oi_state _ _ _ _ H) as [(_ & _ & E & _)|(rows0 & T)]; [congruence|]. exact (tables_ne _ _ _ _ _ T). }
        eapply post_conseq; [apply (update_post m Hm on h Hon Hs ex s H Hne)| |auto].
        intros [] s' [A B]. split; [exact A|]. split; [exact B|]. destruct Hex as [E|(_ & E & _)]; [now left|contradiction].
      - apply post_ret. auto. }
    eapply post_conseq; [exact Hup| |auto]. clear H Hex Hup s.
    intros [] s (H & Hmu & Hex). apply post_bind. apply post_gets.
    set (asked := level_union ls (skeys o)). set (done := o_done s).
    set (want0 := filter (fun l => negb (has_level l done)) asked).
    assert (Hwant : forall l, In l want0 <-> In l asked /\ ~ In l done).
    { intros l. unfold want0. rewrite filter_In, negb_true_iff. split; intros [A B]; (split; [exact A|]).
      - intros G. apply has_level_In in G. congruence.
      - destruct (has_level l done) eqn:E; [|reflexivity]. apply has_level_In in E. contradiction. }
    assert (Hasked : forall l, In l asked -> In l done \/ In l want0).
    { intros l Hl. destruct (has_level l done) eqn:E; [left; now apply has_level_In|]. right. apply Hwant. split; [exact Hl|].
      intros G. apply has_level_In in G. congruence. }
    assert (Hls : incl ls asked) by (intros l Hl; apply union_In; now left).
    assert (Ho : In o asked) by (apply union_In; right; apply order_in_skeys).
    assert (Hcpu : In LCPU asked) by (apply union_In; right; apply cpu_in_skeys).
    assert (Hfresh : ex' = ex \/ (ex = false /\ done = [] /\ In LDie want0 /\ all_dies_online m on /\ forall p d, ~ in_dict (o_io s) p d)).
    { destruct Hex as [E|(E & F1 & F2 & F3 & F4)]; [now left|]. right. split; [exact E|].
      assert (Ed : done = []).
      { destruct (oi_state _ _ _ _ H) as [(_ & G & _)|(rows0 & T)]; [exact G|]. elim (tables_ne _ _ _ _ _ T F1). }
      split; [exact Ed|]. split; [|auto]. apply Hwant. rewrite Ed. split; [exact F3|]. intros []. }
    destruct want0 as [|w0l wt] eqn:Ew.
    { (* nothing to add *)
      assert (Eq : ex' = ex) by (destruct Hfresh as [E|(_ & _ & [] & _)]; exact E). subst ex'.
      eapply post_conseq; [apply (get_right m on ex s ls o H Hmu)| |contradiction].
      - intros l Hl. destruct (Hasked l (Hls l Hl)) as [G|[]]. exact G.
      - destruct (Hasked o Ho) as [G|[]]. exact G.
      - intros rows s' (-> & A & B). auto. }
    rewrite <- Ew in *. clear w0l wt Ew.
    apply post_bind. apply post_gets. apply post_bind.
    (* the lines that are there *)
    set (lines_ok := fun (info : list (Z * pline)) (s1 : obj) =>
      oinv ex on s1 /\ o_must s1 = false /\ o_done s1 = done /\ o_io s1 = o_io s /\
      NoDup (map fst info) /\ (forall c, In c (map fst info) <-> In c on) /\
      (forall c t, In (c, t) info -> p_cpu t = c /\ line_true m (o_comp s1) t /\ forall l, In l done -> pget l t <> None)).
    assert (Hinfo : post (if match o_tables s with [] => true | _ :: _ => false end
        then let! on := online_cpus h in ret (map (fun c => (c, blank_line c)) on)
        else let! rows := table LCPU in
             ret (map (fun t => (p_cpu t, t)) (filter (fun t => negb (p_cpu t =? NA)) rows))) s lines_ok (failed ex)).
    { destruct (oi_state _ _ _ _ H) as [(E1 & E2 & E3 & E4)|(rows0 & T)].
      - rewrite E1. apply post_bind. eapply post_conseq; [apply (online_post m on h Hs ex s H)| |auto].
        intros l s1 ((Hn & Hl) & H1 & v & ->). cbn beta. apply post_ret. split; [exact H1|]. split; [exact Hmu|].
        split; [reflexivity|]. split; [reflexivity|].
        rewrite map_map. cbn [fst]. rewrite map_id. split; [exact Hn|]. split; [exact Hl|].
        intros c t Hi. apply in_map_iff in Hi as (x & [= <- <-] & Hx). split; [reflexivity|].
        split; [apply (blank_ok m Hm on Hon); now apply Hl|]. intros l' Hl'. unfold done in Hl'. rewrite E2 in Hl'. contradiction.
      - assert (Ene : match o_tables s with [] => true | _ :: _ => false end = false).
        { pose proof (tables_ne _ _ _ _ _ T) as G. destruct (o_tables s); [congruence|reflexivity]. }
        rewrite Ene. destruct (to_base _ _ _ _ _ T) as (B1 & B2 & B3).
        destruct (to_tab _ _ _ _ _ T LCPU B1) as (rows & D & P & _).
        apply post_bind. unfold table, post at 1. rewrite D. apply post_ret.
        assert (Hin : forall r, In r rows <-> In r rows0).
        { intros r. split; apply Permutation_in; [now apply Permutation_sym|exact P]. }
        split; [exact H|]. split; [exact Hmu|]. split; [reflexivity|]. split; [reflexivity|].
        rewrite map_map. cbn [fst]. rewrite (map_filter_comm p_cpu (fun c => negb (c =? NA))). split; [|split].
        + eapply Permutation_NoDup; [|apply (to_nodup _ _ _ _ _ T)]. pose proof (Permutation_map p_cpu P) as P'. clear - P'. induction P'; cbn [filter].
          * constructor.
          * destruct (negb (x =? NA)); [now constructor|assumption].
          * destruct (negb (x =? NA)), (negb (y =? NA)); try constructor; reflexivity.
          * etransitivity; eassumption.
        + intros c. rewrite filter_In, in_map_iff, (to_on _ _ _ _ _ T Hmu c). split.
          * intros ((r & E & Hr) & Hn). split; [lia|]. exists r. split; [now apply Hin|exact E].
          * intros (Hn & r & Hr & E). split; [|lia]. exists r. split; [exact E|now apply Hin].
        + intros c t Hi. apply in_map_iff in Hi as (x & [= <- <-] & Hx). apply filter_In in Hx as [Hx Hn]. apply Hin in Hx.
          split; [reflexivity|]. apply (to_cpu _ _ _ _ _ T x Hx). lia. }
    eapply post_conseq; [exact Hinfo| |auto]. clear Hinfo. unfold lines_ok. clear lines_ok.
    intros info s1 (H1 & Hmu1 & Hd1 & Hio1 & Hn1 & Hk1 & Hl1). apply post_bind.
    eapply post_conseq; [apply (online_post m on h Hs ex s1 H1)| |auto].
    intros cpus s2 ((Hnc & Hc) & H2 & v & Es2). cbn beta.
    assert (G2 : o_must s2 = false /\ o_done s2 = done /\ o_io s2 = o_io s /\ o_comp s2 = o_comp s1) by (subst s2; cbn; auto).
    destruct G2 as (Hmu2 & Hd2 & Hio2 & Hco2). rewrite <- Hco2 in Hl1. clear s1 H1 Hmu1 Hd1 Hio1 v Es2 Hco2.
    set (want := level_union want0 [LPkg; LCore]).
    assert (HP : In LPkg want) by (apply union_In; right; now left).
    assert (HC : In LCore want) by (apply union_In; right; right; now left).
    assert (HD : In LDie want <-> In LDie want0).
    { unfold want. rewrite union_In. split; [intros [G|[G|[G|[]]]]; [exact G|discriminate|discriminate]|now left]. }
    set (all := level_union done want).
    assert (Hall : forall l, In l asked -> In l all).
    { intros l Hl. apply union_In. destruct (Hasked l Hl) as [G|G]; [now left|right; apply union_In; now left]. }
    destruct (start_ok m on ex s2 info H2 Hn1) as [Hw0 Hx0].
    { intros c t Hi. destruct (Hl1 c t Hi) as (A & B & _). auto. }
    set (w0 := Work info (o_comp s2) (o_io s2)) in *.
    assert (Hf0 : forall c l, In c (map fst info) -> In l done -> filled w0 l c).
    { intros c l Hi Hl. apply in_map_iff in Hi as ([c' t] & <- & Hi). destruct (Hl1 _ _ Hi) as (_ & _ & G). specialize (G l Hl).
      cbn [fst]. destruct (pget l t) as [v|] eqn:E; [|congruence]. exists t, v. split; [|exact E]. unfold w0. cbn [w_info].
      apply In_dget; [exact Hn1|exact Hi]. }
    assert (Hfail : forall e w', bad m on h w0 e w' ->
        failed ex e (Obj (o_cpus s2) (write_back (w_info w') (o_tables s2)) (o_must s2) (o_done s2) (w_comp w') (w_io w'))).
    { intros e w' [He Hr]. apply (fill_failed m Hm on h) with (info := info); auto.
      intros rows1 r l T1 Hr1 Hk Hl. apply Hf0; [exact Hk|]. now rewrite <- Hd2. }
    apply post_bind. apply filling_post. fold w0. apply post_bind.
    eapply post_conseq; [apply (fill_post m on h Hm Hon Hs want cpus w0 Hw0)|intros [] w1 [He Hf]|exact Hfail].
    { intros c Hi. now apply Hc. }
    { intros c Hi. change (keys w0) with (map fst info). apply Hk1. now apply Hc. }
    { exact HP. } { exact HC. }
    cbn beta.
    assert (Hkw : forall c, In c (keys w1) <-> In c on).
    { intros c. rewrite (ex_keys m _ _ He). exact (Hk1 c). }
    assert (Hf1 : forall c l, In c (keys w1) -> In l all -> filled w1 l c).
    { intros c l Hi Hl. apply union_In in Hl as [Hl|Hl].
      - apply (ex_filled m _ _ He). apply Hf0; [|exact Hl]. rewrite (ex_keys m _ _ He) in Hi. exact Hi.
      - apply Hf; [|exact Hl]. apply Hc. now apply Hkw. }
    assert (Finish : forall io w2, wok m w2 -> w_info w2 = w_info w1 ->
      (forall r, In r io -> exists p d, r = io_line p d /\ uncore_die m p d) ->
      (ex' = true -> In LDie all /\ rows_exact m io /\ complete m (w_comp w2) /\ io_exact m (w_io w2)) ->
      post (let! _ := modify (fun s => Obj (o_cpus s) (o_tables s) (o_must s) all (o_comp s) (o_io s)) in
            let! _ := mfor all (sort_topology (map snd (w_info w2) ++ io)) in table o)
        (Obj (o_cpus s2) (o_tables s2) (o_must s2) (o_done s2) (w_comp w2) (w_io w2))
        (fun rows s' => oinv ex' on s' /\ right_table m on ls o rows /\ (ex' = true -> rows_exact m rows)) (failed ex)).
    { intros io w2 Hw2 Ei Hio Hxx. apply post_bind. apply post_modify. cbn [o_cpus o_tables o_must o_done o_comp o_io].
      assert (Hk2 : keys w2 = keys w1) by (unfold keys; now rewrite Ei).
      assert (Hf2 : forall c l, In c (keys w2) -> In l all -> filled w2 l c).
      { intros c l Hi Hl. rewrite Hk2 in Hi. destruct (Hf1 c l Hi Hl) as (t & v & Ht & Hv). exists t, v. rewrite Ei. auto. }
      assert (A1 : In LCPU all) by now apply Hall.
      assert (A2 : In LPkg all) by (apply union_In; now right).
      assert (A3 : In LCore all) by (apply union_In; now right).
      apply post_bind. eapply post_conseq; [apply sorts_post; auto| |contradiction].
      - intros r l Hr Hl. apply in_app_or in Hr as [Hr|Hr].
        + apply in_map_iff in Hr as ([c t] & <- & Hi). cbn [snd].
          destruct (Hf2 c l) as (t' & v & Ht & Hv); [apply in_map_iff; exists (c, t); auto|exact Hl|].
          rewrite (In_dget _ _ _ (wk_nodup m w2 Hw2) Hi) in Ht. injection Ht as <-. congruence.
        + destruct (Hio r Hr) as (p & d & -> & _). destruct l; discriminate.
      - intros [] s' (tb & -> & Htb). cbn [with_tables o_cpus o_tables o_must o_done o_comp o_io]. rewrite Hmu2.
        assert (Hfin : oinv ex' on (Obj (o_cpus s2) tb false all (w_comp w2) (w_io w2))).
        { apply (new_table m Hm on ex' s2 w2 io all tb); auto.
          - apply (oi_cpus _ _ _ _ H2).
          - intros c. rewrite Hk2. apply Hkw. }
        eapply post_conseq; [apply (get_right m on ex' _ ls o Hfin eq_refl)| |contradiction].
        + intros l Hl. cbn [o_done]. apply Hall. now apply Hls.
        + cbn [o_done]. now apply Hall.
        + intros rows s' (-> & A & B). auto. }
    destruct (has_level LDie want) eqn:Ed.
    - apply has_level_In in Ed.
      eapply post_conseq; [apply (add_io_post m on h Hs w1); apply He|intros io w2 (Hw2 & Ei & Ec & Hio & Hdict)|].
      + apply Finish; [exact Hw2|exact Ei| |].
        * intros r Hr. apply Hio in Hr as (p & d & -> & U & _). eauto.
        * intros E. split; [apply union_In; now right|]. rewrite Ec.
          destruct Hfresh as [->|(E1 & E2 & E3 & Hdies & E5)].
          { exfalso. destruct (oi_state _ _ _ _ H2) as [(_ & _ & _ & G)|(rows0 & T)]; [congruence|].
            destruct (to_ex _ _ _ _ _ T E) as [G _]. rewrite Hd2 in G. apply HD in Ed. apply Hwant in Ed. tauto. }
          assert (C : complete m (w_comp w1)).
          { intros c Hp. destruct (Hdies c Hp) as (x & Hx & <- & <-).
            destruct (Hf x LDie) as (t & v & Ht & Hv); [now apply Hc|exact Ed|].
            destruct (wk_line m w1 (ex_ok m _ _ He) x t Ht) as (<- & _ & _ & G). apply G. cbn [pget] in Hv. congruence. }
          assert (Hfe : forall p d, found_io m (w_comp w1) p d <-> io_die m p d).
          { intros p d. apply found_exact; [exact C|]. apply (wk_comp m w1). apply He. }
          split; [|split; [exact C|]].
          -- intros p d. rewrite (Hio (io_line p d)), <- Hfe. split; [|eauto]. intros (p' & d' & [= <- <-] & G). exact G.
          -- intros p d. rewrite Hdict, Hfe. split; [|now right]. intros [G|G]; [|exact G].
             apply (ex_io m _ _ He) in G. unfold w0 in G. cbn [w_io] in G. rewrite Hio2 in G. elim (E5 p d G).
      + intros e w' [-> Hr]. apply Hfail. split; [exact He|exact Hr].
    - destruct (has_level LDie done) eqn:Ed2.
      + apply has_level_In in Ed2. apply post_gets.
        pose proof (cached_io_post m w1 (ex_ok m _ _ He)) as Hio.
        apply Finish; [apply He|reflexivity| |].
        * intros r Hr. apply Hio in Hr as (p & d & -> & U). exists p, d. split; [reflexivity|]. now apply (wk_io m w1 (ex_ok m _ _ He)).
        * intros E. split; [apply union_In; now left|].
          assert (Eq : ex' = ex) by (destruct Hfresh as [G|(_ & G & _)]; [exact G|rewrite G in Ed2; contradiction]). rewrite Eq in E.
          destruct (exact_ext m ex w0 w1 Hx0 He E) as [C X]. split; [|auto].
          intros p d. rewrite (Hio (io_line p d)), <- (X p d). split; [|eauto]. intros (p' & d' & [= <- <-] & G). exact G.
      + apply post_ret. apply Finish; [apply He|reflexivity|contradiction|].
        intros E. exfalso. destruct Hfresh as [->|(_ & _ & G & _)].
        * destruct (oi_state _ _ _ _ H2) as [(_ & _ & _ & G)|(rows0 & T)]; [congruence|].
          destruct (to_ex _ _ _ _ _ T E) as [G _]. rewrite Hd2 in G. apply has_level_In in G. congruence.
        * apply HD in G. apply has_level_In in G. congruence.
  Qed.

  (** The levels the user asked for; no levels means all levels. *)
  Lemma query_post ex s ls o : oinv ex on s ->
    post (query h ls o) s
      (fun rows s' => oinv ex on s' /\ right_table m on (match ls with [] => all_levels | _ => ls end) o rows /\ (ex = true -> rows_exact m rows))
      (failed ex).
  Proof. intros H. unfold query. apply get_post; auto. Qed.
End Obj3.
