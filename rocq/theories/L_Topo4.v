(** The object that holds the topology table, over all histories. *)
From Verif Require Import Base L_Base L_Monad M_Text S_Text L_Text M_CPUInfo S_CPUInfo M_Topo S_Topo L_Topo L_Topo2 L_Topo3.
From Coq Require Import ZifyBool Sorted Permutation.

Section Obj.
  Variable m : machine.
  Hypothesis Hm : machine_ok m.

  Definition complete (comp : list (Z * list Z)) : Prop :=
    forall c, In c (m_present m) -> in_dict comp (number m LPkg c) (number m LDie c).
  Definition io_exact (io : list (Z * list Z)) : Prop := forall p d, in_dict io p d <-> io_die m p d.

  Definition rows_exact (rows : list pline) : Prop := forall p d, In (io_line p d) rows <-> io_die m p d.

  Record table_ok (ex : bool) (on : list Z) (s : obj) (rows0 : list pline) : Prop := {
    to_tab : forall l, In l (o_done s) -> exists rows, dget level_eqb (o_tables s) l = Some rows /\
      Permutation rows0 rows /\ StronglySorted (lex_le (sort_levels l)) rows;
    to_base : In LCPU (o_done s) /\ In LPkg (o_done s) /\ In LCore (o_done s);
    to_cpu : forall r, In r rows0 -> p_cpu r <> NA -> line_true m (o_comp s) r /\
      forall l, In l (o_done s) -> pget l r <> None;
    to_nodup : NoDup (filter (fun c => negb (c =? NA)) (map p_cpu rows0));
    to_io : forall r, In r rows0 -> p_cpu r = NA -> exists p d, r = io_line p d /\ uncore_die m p d;
    to_on : o_must s = false -> forall c, In c on <-> (c <> NA /\ exists r, In r rows0 /\ p_cpu r = c);
    to_ex : ex = true -> In LDie (o_done s) /\ rows_exact rows0 }.

  Record oinv (ex : bool) (on : list Z) (s : obj) : Prop := {
    oi_cpus : match o_cpus s with
              | Some (c :: t) => NoDup (c :: t) /\ forall x, In x (c :: t) <-> In x on
              | _ => True
              end;
    oi_comp : comp_ok m (o_comp s);
    oi_io : io_ok m (o_io s);
    oi_iond : NoDup (map fst (o_io s));
    oi_ex : ex = true -> complete (o_comp s) /\ io_exact (o_io s);
    oi_state : (o_tables s = [] /\ o_done s = [] /\ o_must s = false /\ ex = false) \/
               exists rows0, table_ok ex on s rows0 }.

  Lemma oinv_new on : oinv false on new_obj.
  Proof.
    constructor; cbn; try exact I; try discriminate.
    - split; [intros p x (ds & [=] & _)|]. intros p H. now elim H.
    - intros p x (ds & [=] & _).
    - constructor.
    - left. auto.
  Qed.

  Lemma tables_ne ex on s rows0 : table_ok ex on s rows0 -> o_tables s <> [].
  Proof.
    intros H E. destruct (to_base _ _ _ _ H) as [B _]. destruct (to_tab _ _ _ _ H LCPU B) as (rows & D & _).
    rewrite E in D. discriminate.
  Qed.

  Lemma oinv_plug ex on on' s : oinv ex on s -> oinv ex on' (cpus_hotplugged s).
  Proof.
    intros [H1 H2 H3 H4 H5 H6]. constructor; cbn [cpus_hotplugged o_cpus o_comp o_io o_tables o_done o_must]; auto.
    destruct H6 as [(E1 & E2 & E3 & E4)|(rows0 & T)].
    - left. rewrite E1. auto.
    - right. exists rows0. pose proof (tables_ne _ _ _ _ T) as Hne.
      destruct T as [T1 T2 T3 T4 T5 T6 T7]. constructor; cbn [cpus_hotplugged o_cpus o_comp o_io o_tables o_done o_must]; auto.
      destruct (o_tables s); [congruence|discriminate].
  Qed.

  (** The part of the state that the dictionaries of dies describe. *)
  Definition exact_w (ex : bool) (w : work) : Prop := ex = true -> complete (w_comp w) /\ io_exact (w_io w).

  Lemma exact_ext ex w w' : exact_w ex w -> ext m w w' -> exact_w ex w'.
  Proof.
    intros H He E. destruct (H E) as [C X]. split.
    - intros c Hc. apply (ex_comp m _ _ He). now apply C.
    - intros p d. split.
      + intros Hd. apply X. now apply (ex_io m _ _ He).
      + intros Hd. pose proof Hd as (_ & (c & Hc & Ep) & _). apply X in Hd. destruct (C c Hc) as (ds & E1 & _). rewrite Ep in E1.
        destruct (ex_some m _ _ He p) as [_ E2]; [congruence|]. destruct Hd as (ds' & Hd & Hi). exists ds'. rewrite E2. auto.
  Qed.

  Section Ask.
    Variable on : list Z.
    Variable h : host.
    Hypothesis Hon : online_set m on.
    Hypothesis Hs : shows m on h.

    Definition failed (ex : bool) : exc -> obj -> Prop := fun _ s' => oinv ex on s' /\ ~ readable m on h.

    Lemma on_not_na c : In c on -> c <> NA.
    Proof. intros H. destruct Hon as (_ & _ & Hi). apply (mo_cpu m Hm c (Hi c H)). Qed.

    (** The set of online CPUs: only 'o_cpus' changes. *)
    Definition with_cpus (v : option (list Z)) (s : obj) : obj := Obj v (o_tables s) (o_must s) (o_done s) (o_comp s) (o_io s).

    Lemma oinv_with_cpus ex s l : oinv ex on s -> NoDup l -> (forall x, In x l <-> In x on) -> oinv ex on (with_cpus (Some l) s).
    Proof.
      intros [H1 H2 H3 H4 H5 H6] Hn Hl. constructor; cbn [with_cpus o_cpus o_comp o_io o_tables o_done o_must]; auto.
      - destruct l; auto.
      - destruct H6 as [H6|(rows0 & [T1 T2 T3 T4 T5 T6 T7])]; [now left|]. right. exists rows0. constructor; auto.
    Qed.

    Lemma online_post ex s : oinv ex on s ->
      post (online_cpus h) s (fun l s' => (NoDup l /\ forall x, In x l <-> In x on) /\ oinv ex on s' /\ exists v, s' = with_cpus v s)
        (failed ex).
    Proof.
      intros H. pose proof (oi_cpus _ _ _ H) as Hc. unfold online_cpus, post.
      assert (Hread : match read_range (h_online h) with
        | Exn e => failed ex e s
        | Ok l => (NoDup (dedup l) /\ forall x, In x (dedup l) <-> In x on) /\ oinv ex on (with_cpus (Some (dedup l)) s) /\
            exists v, with_cpus (Some (dedup l)) s = with_cpus v s end).
      { destruct (h_online h) as [t|e] eqn:E.
        - destruct (sh_online m on h Hs t E) as (l & Hl & Hx). rewrite (list_read t l Hl).
          assert (G : NoDup (dedup l) /\ forall x, In x (dedup l) <-> In x on).
          { split; [apply NoDup_dedup|]. intros x. now rewrite dedup_In. }
          split; [exact G|]. split; [|eauto]. apply oinv_with_cpus; tauto.
        - cbn [read_range rbind]. split; [exact H|]. intros R. destruct (rd_online m on h R). congruence. }
      destruct (o_cpus s) as [[|c t]|] eqn:Eo.
      - destruct (read_range (h_online h)); exact Hread.
      - split; [exact Hc|]. split; [exact H|]. exists (Some (c :: t)). unfold with_cpus. rewrite <- Eo. now destruct s.
      - destruct (read_range (h_online h)); exact Hread.
    Qed.

    (** ** Replacing the lines after an exception *)
    Lemma write_back_get info tables l :
      dget level_eqb (write_back info tables) l =
      match dget level_eqb tables l with
      | Some rows => Some (map (fun r => match dget Z.eqb info (p_cpu r) with Some r' => r' | None => r end) rows)
      | None => None
      end.
    Proof.
      unfold write_back. induction tables as [|[k rows] t IH]; [reflexivity|]. cbn [map fst snd dget].
      destruct (level_eqb l k); [reflexivity|exact IH].
    Qed.

    Lemma write_back_inv ex s w : oinv ex on s -> wok m w -> exact_w ex w ->
      (forall p x, in_dict (o_comp s) p x -> in_dict (w_comp w) p x) ->
      (forall r l r', In l (o_done s) -> pget l r <> None -> dget Z.eqb (w_info w) (p_cpu r) = Some r' ->
         (exists rows0, table_ok ex on s rows0 /\ In r rows0) -> pget l r' <> None) ->
      oinv ex on (Obj (o_cpus s) (write_back (w_info w) (o_tables s)) (o_must s) (o_done s) (w_comp w) (w_io w)).
    Proof.
      intros H Hw Hx Hmono Hf. pose proof H as [H1 H2 H3 H4 H5 H6].
      constructor; cbn [o_cpus o_comp o_io o_tables o_done o_must]; auto; try apply Hw.
      destruct H6 as [(E1 & E2 & E3 & E4)|(rows0 & T)].
      { left. rewrite E1. auto. }
      right. set (f := fun r => match dget Z.eqb (w_info w) (p_cpu r) with Some r' => r' | None => r end).
      assert (Hfc : forall r, p_cpu (f r) = p_cpu r).
      { intros r. unfold f. destruct (dget Z.eqb (w_info w) (p_cpu r)) as [r'|] eqn:E; [|reflexivity]. apply (wk_line m w Hw _ _ E). }
      assert (Hfna : forall r, p_cpu r = NA -> f r = r).
      { intros r Hr. unfold f. destruct (dget Z.eqb (w_info w) (p_cpu r)) as [r'|] eqn:E; [|reflexivity]. exfalso.
        destruct (wk_line m w Hw _ _ E) as [Ec [Hp _]]. rewrite Ec in Hp. apply (mo_cpu m Hm) in Hp. tauto. }
      assert (Hfl : forall r l, In r rows0 -> In l (o_done s) -> pget l (f r) = pget l r).
      { intros r l Hr Hl. destruct (Z.eq_dec (p_cpu r) NA) as [Hn|Hn]; [now rewrite Hfna|].
        destruct (to_cpu _ _ _ _ T r Hr Hn) as [(L1 & L2 & L3) Hd]. specialize (Hd l Hl).
        unfold f. destruct (dget Z.eqb (w_info w) (p_cpu r)) as [r'|] eqn:E; [|reflexivity].
        destruct (wk_line m w Hw _ _ E) as [Ec (M1 & M2 & M3)].
        assert (Hd' : pget l r' <> None) by (apply (Hf r l r' Hl Hd E); exists rows0; auto).
        destruct (pget l r) as [a|] eqn:Ea; [|congruence]. destruct (pget l r') as [b|] eqn:Eb; [|congruence].
        rewrite (L2 l a Ea), (M2 l b Eb), Ec. reflexivity. }
      exists (map f rows0).
      constructor; cbn [o_cpus o_comp o_io o_tables o_done o_must]; auto.
      - intros l Hl. destruct (to_tab _ _ _ _ T l Hl) as (rows & D & P & S). exists (map f rows).
        rewrite write_back_get, D. split; [reflexivity|]. split; [now apply Permutation_map|].
        apply sorted_map; [|exact S]. intros a b Ha Hb. apply (Permutation_in _ (Permutation_sym P)) in Ha, Hb.
        destruct (to_base _ _ _ _ T) as (B1 & B2 & B3).
        apply lex_same; intros l' Hl'; (apply Hfl; [assumption|]); rewrite <- skeys_spec in Hl'; exact (skeys_incl l _ Hl B1 B2 l' Hl').
      - apply (to_base _ _ _ _ T).
      - intros r Hr Hn. apply in_map_iff in Hr as (r0 & <- & Hr0). rewrite Hfc in Hn.
        destruct (to_cpu _ _ _ _ T r0 Hr0 Hn) as [(L1 & L2 & L3) Hd]. split.
        + unfold f. destruct (dget Z.eqb (w_info w) (p_cpu r0)) as [r'|] eqn:E; [apply (wk_line m w Hw _ _ E)|].
          split; [exact L1|]. split; [exact L2|]. auto.
        + intros l Hl. rewrite Hfl by assumption. auto.
      - rewrite map_map, (map_ext _ p_cpu) by exact Hfc. apply (to_nodup _ _ _ _ T).
      - intros r Hr Hn. apply in_map_iff in Hr as (r0 & <- & Hr0). rewrite Hfc in Hn. rewrite Hfna by exact Hn.
        now apply (to_io _ _ _ _ T).
      - intros Hmu c. rewrite (to_on _ _ _ _ T Hmu c). split; intros (Hc & r & Hr & E); (split; [exact Hc|]).
        + exists (f r). split; [now apply in_map|]. transitivity (p_cpu r); [apply Hfc|exact E].
        + apply in_map_iff in Hr as (r0 & <- & Hr0). exists r0. split; [exact Hr0|]. rewrite Hfc in E. exact E.
      - intros Ex. destruct (to_ex _ _ _ _ T Ex) as [Hd Hr]. split; [exact Hd|]. intros p d. rewrite <- (Hr p d). split.
        + intros Hi. apply in_map_iff in Hi as (r0 & E & Hr0). assert (Hna : p_cpu r0 = NA) by (rewrite <- (Hfc r0), E; reflexivity).
          rewrite Hfna in E by exact Hna. now rewrite <- E.
        + intros Hi. apply in_map_iff. exists (io_line p d). split; [now apply Hfna|exact Hi].
    Qed.

    (** ** Sorting the new table for all levels *)
    Definition with_tables (tb : list (level * list pline)) (s : obj) : obj :=
      Obj (o_cpus s) tb (o_must s) (o_done s) (o_comp s) (o_io s).

    Lemma sorts_post rows all s : (forall r l, In r rows -> In l all -> pget l r <> None) ->
      In LCPU all -> In LPkg all -> In LCore all ->
      post (mfor all (sort_topology rows)) s
        (fun _ s' => exists tb, s' = with_tables tb s /\
           forall l, In l all -> dget level_eqb tb l = Some (sort_by (pkey_leb l) rows)) (fun _ _ => False).
    Proof.
      intros Hr B1 B2 B3.
      apply (post_mfor (sort_topology rows) (fun p s' => exists tb, s' = with_tables tb s /\
           forall l, In l p -> dget level_eqb tb l = Some (sort_by (pkey_leb l) rows))).
      - intros p l r El s1 (tb & -> & Ht). unfold sort_topology.
        assert (Hl : In l all) by (subst all; apply in_or_app; right; now left).
        replace (forallb _ rows) with true.
        2:{ symmetry. apply forallb_forall. intros x Hx.
            destruct (key_of_some (skeys l) x) as (k & ->); [|reflexivity].
            intros l' Hl'. apply Hr; [exact Hx|]. now apply (skeys_incl l all Hl B1 B2). }
        apply post_modify. eexists. split; [reflexivity|]. intros l' Hl'. cbn [with_tables o_tables].
        destruct (level_dec l' l) as [->|Hne].
        + apply dget_dset_same. apply Leqb_spec.
        + rewrite dget_dset_other; [|apply Leqb_spec|exact Hne]. apply Ht.
          apply in_app_or in Hl' as [Hl'|[<-|[]]]; [exact Hl'|congruence].
      - exists (o_tables s). split; [now destruct s|contradiction].
    Qed.

    (** The table made of the lines of [w] and the I/O dies [io]. *)
    Lemma new_table ex s w io all tb : wok m w ->
      match o_cpus s with
      | Some (c :: t) => NoDup (c :: t) /\ forall x, In x (c :: t) <-> In x on
      | _ => True
      end ->
      (forall c, In c (keys w) <-> In c on) ->
      (forall c l, In c (keys w) -> In l all -> filled w l c) ->
      In LCPU all -> In LPkg all -> In LCore all ->
      (forall r, In r io -> exists p d, r = io_line p d /\ uncore_die m p d) ->
      (ex = true -> In LDie all /\ rows_exact io /\ complete (w_comp w) /\ io_exact (w_io w)) ->
      (forall l, In l all -> dget level_eqb tb l = Some (sort_by (pkey_leb l) (map snd (w_info w) ++ io))) ->
      oinv ex on (Obj (o_cpus s) tb false all (w_comp w) (w_io w)).
    Proof.
      intros Hw Hc Hk Hf B1 B2 B3 Hio Hex Htb.
      assert (Hline : forall c r, In (c, r) (w_info w) -> p_cpu r = c /\ line_true m (w_comp w) r).
      { intros c r Hi. apply (wk_line m w Hw). apply In_dget; [apply (wk_nodup m w Hw)|exact Hi]. }
      assert (Hcpu : forall r, In r (map snd (w_info w)) -> In (p_cpu r, r) (w_info w)).
      { intros r Hr. apply in_map_iff in Hr as ([c r'] & <- & Hi). cbn [snd]. destruct (Hline c r' Hi) as [E _]. now rewrite E. }
      assert (Hna : forall r, In r (map snd (w_info w)) -> p_cpu r <> NA).
      { intros r Hr. apply Hcpu in Hr. destruct (Hline _ _ Hr) as [_ [Hp _]]. apply (mo_cpu m Hm _ Hp). }
      assert (Hmap : map p_cpu (map snd (w_info w)) = keys w).
      { unfold keys. rewrite map_map. apply map_ext_in. intros [c r] Hi. apply (Hline c r Hi). }
      assert (Hall : forall r l, In r (map snd (w_info w) ++ io) -> In l all -> pget l r <> None).
      { intros r l Hr Hl. apply in_app_or in Hr as [Hr|Hr].
        - apply Hcpu in Hr. assert (Hck : In (p_cpu r) (keys w)) by (apply in_map_iff; exists (p_cpu r, r); auto).
          destruct (Hf _ l Hck Hl) as (t & v & Ht & Hv). rewrite (In_dget (w_info w) (p_cpu r) r (wk_nodup m w Hw) Hr) in Ht.
          injection Ht as <-. congruence.
        - destruct (Hio r Hr) as (p & d & -> & _). destruct l; discriminate. }
      constructor; cbn [o_cpus o_comp o_io o_tables o_done o_must]; auto; try apply Hw.
      { intros E. destruct (Hex E) as (_ & _ & A). exact A. }
      right. exists (map snd (w_info w) ++ io). constructor; cbn [o_cpus o_comp o_io o_tables o_done o_must]; auto.
      - intros l Hl. eexists. split; [apply Htb; exact Hl|]. split; [apply Permutation_sym, sort_by_perm|].
        apply sorted_table. intros r l' Hr Hl'. apply Hall; [exact Hr|]. now apply (skeys_incl l all Hl B1 B2).
      - intros r Hr Hn. split; [|intros l Hl; now apply Hall]. apply in_app_or in Hr as [Hr|Hr].
        + apply Hcpu in Hr. apply (Hline _ _ Hr).
        + destruct (Hio r Hr) as (p & d & -> & _). now elim Hn.
      - rewrite map_app, filter_app. rewrite Hmap.
        assert (E : filter (fun c => negb (c =? NA)) (map p_cpu io) = []).
        { clear - Hio. induction io as [|r t IH]; [reflexivity|]. cbn [map filter].
          destruct (Hio r (or_introl eq_refl)) as (p & d & -> & _). cbn [io_line p_cpu]. rewrite Z.eqb_refl. cbn [negb].
          apply IH. intros x Hx. apply Hio. now right. }
        rewrite E, app_nil_r. apply NoDup_filter. apply (wk_nodup m w Hw).
      - intros r Hr Hn. apply in_app_or in Hr as [Hr|Hr]; [elim (Hna r Hr Hn)|auto].
      - intros _ c. rewrite <- Hk. split.
        + intros Hc'. pose proof (key_present m w c Hw Hc') as Hp. split; [apply (mo_cpu m Hm _ Hp)|].
          rewrite <- Hmap in Hc'. apply in_map_iff in Hc' as (r & E & Hr). exists r. split; [apply in_or_app; now left|exact E].
        + intros (Hn & r & Hr & E). apply in_app_or in Hr as [Hr|Hr].
          * rewrite <- Hmap, <- E. now apply in_map.
          * destruct (Hio r Hr) as (p & d & -> & _). now elim Hn.
      - intros E. destruct (Hex E) as (A & B & _). split; [exact A|]. intros p d. rewrite <- (B p d). split.
        + intros Hi. apply in_app_or in Hi as [Hi|Hi]; [|exact Hi]. elim (Hna _ Hi). reflexivity.
        + intros Hi. apply in_or_app. now right.
    Qed.

    (** A table that is up to date is right. *)
    Lemma get_right ex s ls o : oinv ex on s -> o_must s = false -> incl ls (o_done s) -> In o (o_done s) ->
      post (table o) s (fun rows s' => s' = s /\ right_table m on ls o rows /\ (ex = true -> rows_exact rows)) (fun _ _ => False).
    Proof.
      intros H Hmu Hls Ho. destruct (oi_state _ _ _ H) as [(_ & E & _)|(rows0 & T)]; [rewrite E in Ho; contradiction|].
      destruct (to_tab _ _ _ _ T o Ho) as (rows & D & P & S). unfold table, post. rewrite D.
      assert (Hin : forall r, In r rows <-> In r rows0).
      { intros r. split; apply Permutation_in; [now apply Permutation_sym|exact P]. }
      split; [reflexivity|]. split.
      - constructor.
        + intros c Hc. apply (to_on _ _ _ _ T Hmu) in Hc as (_ & r & Hr & E). exists r. split; [now apply Hin|exact E].
        + intros r Hr Hn. apply Hin in Hr. split; [apply (to_on _ _ _ _ T Hmu); split; [exact Hn|exists r; auto]|].
          intros l Hl. destruct (to_cpu _ _ _ _ T r Hr Hn) as [(_ & L2 & _) Hd]. specialize (Hd l (Hls l Hl)).
          destruct (pget l r) as [v|] eqn:E; [|congruence]. f_equal. now apply L2.
        + assert (Hp : Permutation (filter (fun c => negb (c =? NA)) (map p_cpu rows0)) (filter (fun c => negb (c =? NA)) (map p_cpu rows))).
          { apply (Permutation_map p_cpu) in P. clear - P. induction P; cbn [filter].
            - constructor.
            - destruct (negb (x =? NA)); [now constructor|assumption].
            - destruct (negb (x =? NA)), (negb (y =? NA)); try constructor; reflexivity.
            - etransitivity; eassumption. }
          eapply Permutation_NoDup; [exact Hp|apply (to_nodup _ _ _ _ T)].
        + intros r Hr Hn. apply Hin in Hr. now apply (to_io _ _ _ _ T).
        + exact S.
      - intros E p d. rewrite Hin. apply (to_ex _ _ _ _ T E).
    Qed.
  End Ask.
End Obj.
