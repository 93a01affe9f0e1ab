(** Lemmas for C17. *)
From Verif Require Import Base L_Base L_Monad M_CPUInfo S_CPUInfo L_CPUInfo L_Hotplug M_Online S_Online.

Definition obeys (s : ost) (c : Z) (online : bool) : bool :=
  match o_beh s c online with KObey => true | _ => false end.

(** The CPUs of [cpus] the loop writes to. *)
Definition todo (s : ost) (ready cpus : list Z) : list Z :=
  filter (fun c => negb (inb c ready) && o_file s c) cpus.

(** The effect of having written to the CPUs [w]. *)
Record wrote (s s' : ost) (online : bool) (w : list Z) : Prop := {
  wr_machine : same_machine s s';
  wr_ci : o_ci s' = o_ci s;
  wr_log : o_log s' = o_log s ++ map (fun c => (c, online)) w;
  wr_on : forall c, on_now s' c <->
    (if inb c w && obeys s c online then online = true else on_now s c) }.

Lemma same_machine_refl s : same_machine s s.
Proof. repeat split. Qed.

Lemma same_machine_trans a b c : same_machine a b -> same_machine b c -> same_machine a c.
Proof.
  intros (A1 & A2 & A3 & A4) (B1 & B2 & B3 & B4). repeat split; congruence.
Qed.

Lemma wrote_nil s online : wrote s s online [].
Proof.
  split; [apply same_machine_refl|reflexivity|cbn; now rewrite app_nil_r|].
  intros c. cbn. tauto.
Qed.

Lemma kernel_set_In on cpu online c :
  In c (kernel_set on cpu online) <-> if c =? cpu then online = true else In c on.
Proof.
  unfold kernel_set. destruct online.
  - destruct (inb cpu on) eqn:E.
    + apply inb_In in E. destruct (Z.eqb_spec c cpu); [subst; tauto|tauto].
    + rewrite in_app_iff. cbn. destruct (Z.eqb_spec c cpu); [subst; tauto|].
      split; [intros [H|[H|[]]]; [exact H|congruence]|auto].
  - rewrite filter_In. destruct (Z.eqb_spec c cpu); cbn; [|tauto].
    split; [intros (_ & H); discriminate|discriminate].
Qed.

Lemma kernel_set_ok sys on cpu online :
  online_ok sys on -> In cpu (sys_present sys) -> online_ok sys (kernel_set on cpu online).
Proof.
  intros (Hn & Hi) Hc. unfold kernel_set. destruct online.
  - destruct (inb cpu on) eqn:E; [now split|]. apply inb_false in E. split.
    + apply NoDup_app_disj; [exact Hn|constructor; [intros []|constructor]|].
      intros x [<-|[]]. exact E.
    + intros x Hx. apply in_app_iff in Hx. destruct Hx as [Hx|[<-|[]]]; auto.
  - split; [now apply NoDup_filter|]. intros x Hx. apply filter_In in Hx. now apply Hi.
Qed.

Lemma wrote_one s cpu online s1 :
  write_online cpu online s = (Ok tt, s1) -> wrote s s1 online [cpu].
Proof.
  unfold write_online. destruct (o_beh s cpu online) eqn:E; intros H.
  - apply pair_equal_spec in H as [_ <-]. split; try (repeat split; fail); try reflexivity.
    intros c. unfold on_now. cbn [o_online set_oonline]. rewrite kernel_set_In.
    cbn [inb existsb]. rewrite orb_false_r. destruct (Z.eqb_spec c cpu); [|reflexivity].
    subst. unfold obeys. rewrite E. reflexivity.
  - discriminate.
  - apply pair_equal_spec in H as [_ <-]. split; try (repeat split; fail); try reflexivity.
    intros c. unfold on_now. cbn [o_online set_oonline].
    cbn [inb existsb]. rewrite orb_false_r. destruct (Z.eqb_spec c cpu); [|reflexivity].
    subst. unfold obeys. rewrite E. reflexivity.
Qed.

Lemma wrote_trans s s1 s2 online u w :
  wrote s s1 online u -> wrote s1 s2 online w -> wrote s s2 online (u ++ w).
Proof.
  intros [A1 A2 A3 A4] [B1 B2 B3 B4]. split.
  - eapply same_machine_trans; eauto.
  - congruence.
  - rewrite B3, A3, map_app. now rewrite app_assoc.
  - intros c. rewrite B4. assert (Eo : obeys s1 c online = obeys s c online).
    { unfold obeys. destruct A1 as (_ & _ & _ & A1). now rewrite A1. }
    rewrite Eo. unfold inb. rewrite existsb_app. fold (inb c u) (inb c w).
    destruct (inb c w) eqn:Ew; destruct (obeys s c online) eqn:Eb; cbn [andb orb];
      rewrite ?orb_true_r, ?orb_false_r; cbn [andb]; try tauto; rewrite A4, Eb, ?andb_true_r, ?andb_false_r; try tauto.
Qed.

(** The kernel never reports a CPU twice or one that is not present. *)
Lemma write_online_ok cpu online s r s1 :
  online_ok (o_sys s) (o_online s) -> present s cpu -> write_online cpu online s = (r, s1) ->
  online_ok (o_sys s1) (o_online s1).
Proof.
  intros Hon Hc. unfold write_online. destruct (o_beh s cpu online); intros H;
    apply pair_equal_spec in H as [_ <-]; cbn [set_oonline o_sys o_online]; auto.
  now apply kernel_set_ok.
Qed.

Lemma todo_cons s ready x t :
  todo s ready (x :: t) = (if negb (inb x ready) && o_file s x then [x] else []) ++ todo s ready t.
Proof. unfold todo. cbn [filter]. destruct (_ && _); reflexivity. Qed.

Lemma todo_same s s' ready l : same_machine s s' -> todo s' ready l = todo s ready l.
Proof. intros (_ & H & _). unfold todo. now rewrite H. Qed.

Lemma loop_spec ready online skip : forall cpus tog s r s',
  toggle_loop ready online skip cpus tog s = (r, s') ->
  (forall c, In c cpus -> present s c) -> online_ok (o_sys s) (o_online s) ->
  online_ok (o_sys s') (o_online s') /\
  exists w, wrote s s' online w /\
    (exists rest, todo s ready cpus = w ++ rest /\
      match r with
      | Ok l => rest = [] /\ l = tog ++ w /\
                (forall c, In c cpus -> ~ In c ready -> o_file s c = false -> o_dir s c = true /\ skip = true)
      | Exn e => True
      end).
Proof.
  induction cpus as [|x t IH]; intros tog s r s' H Hp Hon; cbn [toggle_loop] in H.
  - apply pair_equal_spec in H as [<- <-]. split; [exact Hon|]. exists []. split; [apply wrote_nil|].
    exists []. cbn. rewrite app_nil_r. repeat split; tauto.
  - assert (Hpt : forall c, In c t -> present s c) by (intros; apply Hp; now right).
    rewrite todo_cons. destruct (inb x ready) eqn:Er.
    + cbn [negb andb app]. destruct (IH _ _ _ _ H Hpt Hon) as (H0 & w & Hw & rest & Et & Hr).
      split; [exact H0|].
      exists w. split; [exact Hw|]. exists rest. split; [exact Et|]. destruct r as [l|]; [|exact I].
      destruct Hr as (H1 & H2 & H3). split; [exact H1|]. split; [exact H2|].
      intros c [<-|Hc] Hr' Hf; [|now apply H3]. exfalso. apply inb_In in Er. auto.
    + cbn [negb andb]. unfold verify_path in H. destruct (o_file s x) eqn:Ef.
      * cbn [negb] in H. unfold mbind in H. destruct (write_online x online s) as [[[]|e] s1] eqn:Ew.
        -- pose proof (wrote_one _ _ _ _ Ew) as W1.
           pose proof (write_online_ok _ _ _ _ _ Hon (Hp x (or_introl eq_refl)) Ew) as Hon1.
           assert (Hpt1 : forall c, In c t -> present s1 c).
           { intros c Hc. unfold present. rewrite (proj1 (wr_machine _ _ _ _ W1)). now apply Hpt. }
           destruct (IH _ _ _ _ H Hpt1 Hon1) as (H0 & w & Hw & rest & Et & Hr). split; [exact H0|].
           exists (x :: w). split; [apply (wrote_trans _ _ _ _ [x] w W1 Hw)|].
           exists rest. rewrite (todo_same _ _ _ _ (wr_machine _ _ _ _ W1)) in Et. rewrite Et.
           split; [reflexivity|]. destruct r as [l|]; [|exact I]. destruct Hr as (H1 & H2 & H3).
           split; [exact H1|]. split; [rewrite H2; now rewrite <- app_assoc|].
           destruct (wr_machine _ _ _ _ W1) as (M1 & M2 & M3 & M4). rewrite M2, M3 in H3.
           intros c [<-|Hc] Hr' Hf; [congruence|]. now apply H3.
        -- apply pair_equal_spec in H as [<- <-].
           assert (s1 = s) by (unfold write_online in Ew; destruct (o_beh s x online); congruence). subst s1.
           split; [exact Hon|]. exists []. split; [apply wrote_nil|]. eexists. split; [reflexivity|exact I].
      * cbn [negb app] in *. destruct (o_dir s x) eqn:Ed.
        -- destruct skip.
           ++ destruct (IH _ _ _ _ H Hpt Hon) as (H0 & w & Hw & rest & Et & Hr). split; [exact H0|].
              exists w. split; [exact Hw|]. exists rest. split; [exact Et|]. destruct r as [l|]; [|exact I].
              destruct Hr as (H1 & H2 & H3). split; [exact H1|]. split; [exact H2|].
              intros c [<-|Hc] Hr' Hf; [auto|]. now apply H3.
           ++ apply pair_equal_spec in H as [<- <-]. split; [exact Hon|]. exists [].
              split; [apply wrote_nil|]. eexists. split; [reflexivity|exact I].
        -- apply pair_equal_spec in H as [<- <-]. split; [exact Hon|]. exists [].
           split; [apply wrote_nil|]. eexists. split; [reflexivity|exact I].
Qed.

(** *** cpus_hotplugged() *)
Lemma after_hotplug_snoc sys on hist h :
  after_hotplug sys on (hist ++ [h]) = topo_update sys (after_hotplug sys on hist) h.
Proof. unfold after_hotplug. now rewrite fold_left_app. Qed.

Lemma last_online_snoc : forall hist on h, last_online on (hist ++ [h]) = h.
Proof. induction hist; intros on h; cbn; auto. Qed.

Definition refreshed (s : ost) : ost := set_oci s (topo_update (o_sys s) (o_ci s) (o_online s)).

Lemma refreshed_ok s : machine_ok s ->
  machine_ok (refreshed s) /\ ci_online (o_ci (refreshed s)) = o_online s /\
  ci_all (o_ci (refreshed s)) = sys_present (o_sys s).
Proof.
  intros (Hs & Hon & on & hist & H1 & H2 & E). unfold refreshed.
  assert (E' : topo_update (o_sys s) (o_ci s) (o_online s) =
               after_hotplug (o_sys s) on (hist ++ [o_online s])).
  { rewrite after_hotplug_snoc. now rewrite E. }
  assert (H2' : Forall (online_ok (o_sys s)) (hist ++ [o_online s])).
  { apply Forall_app. split; [exact H2|]. constructor; [exact Hon|constructor]. }
  cbn [set_oci o_ci]. split.
  - unfold machine_ok. cbn [set_oci o_sys o_online o_ci]. split; [exact Hs|]. split; [exact Hon|].
    exists on, (hist ++ [o_online s]). auto.
  - rewrite E'. destruct (after_hotplug_inv _ _ _ Hs H1 H2') as (I & _).
    rewrite (iv_online _ _ _ I), (iv_all _ _ _ I), last_online_snoc. auto.
Qed.

Lemma machine_ok_wrote s s' online w :
  machine_ok s -> wrote s s' online w -> online_ok (o_sys s') (o_online s') -> machine_ok s'.
Proof.
  intros (Hs & Hon & on & hist & H1 & H2 & E) W Hon'.
  pose proof (wr_machine _ _ _ _ W) as (M1 & _). unfold machine_ok. rewrite M1, (wr_ci _ _ _ _ W) in *.
  split; [exact Hs|]. split; [exact Hon'|]. exists on, hist. auto.
Qed.

(** *** One call *)

(** Everything there is to know about one call: [w] are the CPUs written to. *)
Record tfacts (cpus : nums_t) (online skip : bool) (s : ost) (r : res unit) (s' : ost) (w : list Z) : Prop := {
  tf_machine : same_machine s s';
  tf_ok : machine_ok s';
  tf_log : o_log s' = o_log s ++ map (fun c => (c, online)) w;
  tf_nodup : NoDup w;
  tf_w : forall c, In c w -> wanted s cpus c /\ present s c /\ o_file s c = true /\ ~ in_state s c online;
  tf_keep : forall c, ~ In c w -> (on_now s' c <-> on_now s c);
  tf_chg : forall c, In c w -> in_state s' c online \/ (on_now s' c <-> on_now s c);
  tf_done : r = Ok tt ->
    (forall c, wanted s cpus c -> present s c) /\
    (forall c, wanted s cpus c -> o_file s c = true -> ~ in_state s c online -> In c w) /\
    (forall c, In c w -> in_state s' c online) /\
    (forall c, wanted s cpus c -> o_file s c = false -> ~ in_state s c online ->
               o_dir s c = true /\ (skip = true \/ cpus = None)) /\
    ci_online (o_ci s') = o_online s' }.

Definition ready_of (ci : cpuinfo) (online : bool) : list Z :=
  if online then get_cpus ci else get_offline_cpus ci.

Lemma ready_In s online c :
  machine_ok s -> ci_online (o_ci s) = o_online s -> ci_all (o_ci s) = sys_present (o_sys s) ->
  (In c (ready_of (o_ci s) online) <-> present s c /\ in_state s c online).
Proof.
  intros (_ & (_ & Hi) & _) E1 E2. unfold ready_of, in_state, on_now, present.
  destruct online; unfold get_cpus, get_offline_cpus; rewrite E1, ?E2.
  - rewrite zsort_In. split; [|tauto]. intros H. split; [now apply Hi|exact H].
  - rewrite filter_In, negb_true_iff, inb_false. tauto.
Qed.

Definition go (ready l : list Z) (online skip : bool) : M ost unit :=
  let! toggled := toggle_loop ready online skip l [] in
  match toggled with
  | [] => ret tt
  | _ => cpus_hotplugged ;; validate_hotplugged toggled online
  end.

Lemma in_state_dec s c online : in_state s c online \/ ~ in_state s c online.
Proof.
  unfold in_state, on_now. destruct (in_dec Z.eq_dec c (o_online s)), online; tauto.
Qed.

Lemma in_state_machine s s' c online : o_online s' = o_online s -> in_state s c online -> in_state s' c online.
Proof. unfold in_state, on_now. now intros ->. Qed.

Lemma go_spec l online skip s r s' :
  machine_ok s -> ci_online (o_ci s) = o_online s -> ci_all (o_ci s) = sys_present (o_sys s) ->
  NoDup l -> (forall c, In c l -> present s c) ->
  go (ready_of (o_ci s) online) l online skip s = (r, s') ->
  exists w,
    same_machine s s' /\ machine_ok s' /\
    o_log s' = o_log s ++ map (fun c => (c, online)) w /\ NoDup w /\
    (forall c, In c w -> In c l /\ o_file s c = true /\ ~ in_state s c online) /\
    (forall c, ~ In c w -> (on_now s' c <-> on_now s c)) /\
    (forall c, In c w -> in_state s' c online \/ (on_now s' c <-> on_now s c)) /\
    (r = Ok tt ->
      (forall c, In c l -> o_file s c = true -> ~ in_state s c online -> In c w) /\
      (forall c, In c w -> in_state s' c online) /\
      (forall c, In c l -> o_file s c = false -> ~ in_state s c online -> o_dir s c = true /\ skip = true) /\
      ci_online (o_ci s') = o_online s').
Proof.
  intros Hok E1 E2 Hnd Hp H. unfold go, mbind in H.
  set (ready := ready_of (o_ci s) online) in *.
  assert (Hr : forall c, In c ready <-> present s c /\ in_state s c online)
    by (intros; now apply ready_In).
  destruct (toggle_loop ready online skip l [] s) as [rl s1] eqn:El.
  destruct (loop_spec _ _ _ _ _ _ _ _ El Hp (proj1 (proj2 Hok))) as (Hon1 & w & W & rest & Et & Hrl).
  pose proof (machine_ok_wrote _ _ _ _ Hok W Hon1) as Hok1.
  assert (Hnt : NoDup (todo s ready l)) by now apply NoDup_filter.
  assert (Hw : forall c, In c w -> In c l /\ o_file s c = true /\ ~ in_state s c online).
  { intros c Hc. assert (Ht : In c (todo s ready l)) by (rewrite Et; apply in_or_app; now left).
    unfold todo in Ht. apply filter_In in Ht. destruct Ht as (Ht1 & Ht2).
    apply andb_prop in Ht2. destruct Ht2 as (Ht2 & Ht3). apply negb_true_iff, inb_false in Ht2.
    repeat split; auto. intros Hi. apply Ht2. apply Hr. auto. }
  assert (Hk : forall c, ~ In c w -> (on_now s1 c <-> on_now s c)).
  { intros c Hc. rewrite (wr_on _ _ _ _ W). apply inb_false in Hc. rewrite Hc. reflexivity. }
  assert (Hc : forall c, In c w -> in_state s1 c online \/ (on_now s1 c <-> on_now s c)).
  { intros c Hc. pose proof (wr_on _ _ _ _ W c) as Hx.
    apply inb_In in Hc. rewrite Hc in Hx. cbn [andb] in Hx.
    destruct (obeys s c online); [left|now right]. unfold in_state. destruct online; [now apply Hx|].
    intros Hf. apply Hx in Hf. discriminate. }
  assert (Hnw : NoDup w) by (rewrite Et in Hnt; now apply NoDup_app_l in Hnt).
  destruct rl as [tg|e].
  - destruct Hrl as (Hrest & Htg & Hun). cbn [app] in Htg. subst tg rest. rewrite app_nil_r in Et.
    assert (Hdone : forall c, In c l -> o_file s c = true -> ~ in_state s c online -> In c w).
    { intros c Hcl Hf Hi. rewrite <- Et. unfold todo. apply filter_In. split; [exact Hcl|].
      rewrite Hf, andb_true_r. apply negb_true_iff, inb_false. intros Hx. apply Hr in Hx. tauto. }
    assert (Hun' : forall c, In c l -> o_file s c = false -> ~ in_state s c online ->
                   o_dir s c = true /\ skip = true).
    { intros c Hcl Hf Hi. apply Hun; auto. rewrite Hr. tauto. }
    destruct w as [|w0 wt] eqn:Ew.
    + apply pair_equal_spec in H as [<- <-]. exists [].
      split; [apply W|]. split; [exact Hok1|]. split; [apply W|]. split; [exact Hnw|].
      split; [exact Hw|]. split; [exact Hk|]. split; [exact Hc|]. intros _.
      split; [exact Hdone|]. split; [intros ? []|]. split; [exact Hun'|].
      rewrite (wr_ci _ _ _ _ W), E1.
      assert (Hs1 : s1 = s).
      { assert (Gen : forall cpus tog, toggle_loop ready online skip cpus tog s = (Ok tog, s1) -> todo s ready cpus = [] -> s1 = s).
        { clear. induction cpus as [|x t IH]; intros tog H Ht; cbn [toggle_loop] in H; [now inversion H|].
          rewrite todo_cons in Ht. apply app_eq_nil in Ht. destruct Ht as (Ht1 & Ht2).
          destruct (inb x ready); [eapply IH; eauto|]. unfold verify_path in H.
          destruct (o_file s x); [discriminate Ht1|]. cbn [negb] in H.
          destruct (o_dir s x); [|discriminate]. destruct skip; [|discriminate]. eapply IH; eauto. }
        eapply Gen; eauto. }
      now rewrite Hs1.
    + rewrite <- Ew in *. assert (Ewx : w <> []) by (rewrite Ew; discriminate). clear Ew w0 wt.
      destruct w as [|w0 wt] eqn:Ew; [congruence|]. rewrite <- Ew in *. clear Ewx.
      unfold cpus_hotplugged, modify, mbind in H. fold (refreshed s1) in H.
      destruct (refreshed_ok s1 Hok1) as (R1 & R2 & R3).
      assert (Hs' : s' = refreshed s1) by (unfold validate_hotplugged in H; destruct (forallb _ _); congruence).
      exists w. subst s'.
      split; [eapply same_machine_trans; [apply W|repeat split]|]. split; [exact R1|].
      split; [exact (wr_log _ _ _ _ W)|]. split; [exact Hnw|]. split; [exact Hw|].
      split; [exact Hk|]. split; [exact Hc|]. intros Er. split; [exact Hdone|].
      split; [|split; [exact Hun'|exact R2]].
      unfold validate_hotplugged in H. destruct (forallb _ _) eqn:Ef; [|subst r; discriminate].
      rewrite forallb_forall in Ef. intros c Hcw. specialize (Ef c Hcw). apply inb_In in Ef.
      fold (ready_of (o_ci (refreshed s1)) online) in Ef.
      apply (ready_In (refreshed s1) online c R1 R2 R3) in Ef. tauto.
  - apply pair_equal_spec in H as [<- <-]. exists w.
    split; [apply W|]. split; [exact Hok1|]. split; [apply W|]. split; [exact Hnw|].
    split; [exact Hw|]. split; [exact Hk|]. split; [exact Hc|]. discriminate.
Qed.

Lemma toggle_unfold cpus online skip s :
  toggle cpus online skip s =
  (let s1 := refreshed s in
   let ci := o_ci s1 in
   match cpus with
   | None => match ready_of ci (negb online) with
             | [] => (Ok tt, s1)
             | l => go (ready_of ci online) l online true s1
             end
   | Some l0 => match normalize_cpus ci (Some l0) true with
                | Ok l => go (ready_of ci online) l online skip s1
                | Exn e => (Exn e, s1)
                end
   end).
Proof.
  unfold toggle, cpus_hotplugged, gets, modify. unfold mbind at 1 2. cbv beta iota zeta.
  fold (refreshed s). destruct cpus as [l0|].
  - unfold mbind at 1, lift at 1. destruct (normalize_cpus _ _ _); reflexivity.
  - destruct online; cbn [negb ready_of]; [destruct (get_offline_cpus _)|destruct (get_cpus _)]; reflexivity.
Qed.

Lemma ready_nodup s online :
  machine_ok s -> ci_online (o_ci s) = o_online s -> ci_all (o_ci s) = sys_present (o_sys s) ->
  NoDup (ready_of (o_ci s) online).
Proof.
  intros (Hs & (Hn & _) & _) E1 E2. unfold ready_of, get_cpus, get_offline_cpus.
  destruct online; rewrite E1, ?E2.
  - eapply Permutation.Permutation_NoDup; [symmetry; apply zsort_perm|exact Hn].
  - apply NoDup_filter. apply Hs.
Qed.

Lemma in_state_negb s c online : ~ in_state s c online -> in_state s c (negb online).
Proof.
  unfold in_state, on_now. destruct online; cbn [negb]; [auto|].
  intros H. destruct (in_dec Z.eq_dec c (o_online s)); tauto.
Qed.

Lemma toggle_spec cpus online skip s r s' :
  machine_ok s -> toggle cpus online skip s = (r, s') -> exists w, tfacts cpus online skip s r s' w.
Proof.
  intros Hok H. rewrite toggle_unfold in H. cbv zeta in H.
  destruct (refreshed_ok s Hok) as (R1 & R2 & R3).
  assert (Hrm : same_machine s (refreshed s)) by (repeat split).
  assert (Hid : forall r,
     (r = Ok tt -> (forall c, wanted s cpus c -> present s c) /\
                   (forall c, wanted s cpus c -> in_state s c online)) ->
     exists w, tfacts cpus online skip s r (refreshed s) w).
  { intros r0 Hr0. exists [].
    split; [exact Hrm|exact R1|cbn; now rewrite app_nil_r|constructor|intros c []|reflexivity|intros c []|].
    intros Er. destruct (Hr0 Er) as (A & B). split; [exact A|]. split; [intros c Hc _ Hi; destruct (Hi (B c Hc))|].
    split; [intros c []|]. split; [intros c Hc _ Hi; destruct (Hi (B c Hc))|exact R2]. }
  destruct cpus as [l0|].
  - destruct (normalize_cpus _ _ _) as [l|e] eqn:En.
    + destruct (normalize_cpus_ok_l _ _ _ _ En) as (N1 & N2 & _).
      assert (Hnd : NoDup l).
      { unfold normalize_cpus, normalize_in in En. destruct (forallb _ _); [|discriminate].
        injection En as <-. apply NoDup_dedup. }
      assert (Hpr : forall c, In c l -> present (refreshed s) c).
      { intros c Hc. specialize (N2 c Hc). unfold available in N2. rewrite R3 in N2. exact N2. }
      destruct (go_spec l online skip _ _ _ R1 R2 R3 Hnd Hpr H) as (w & G1 & G2 & G3 & G4 & G5 & G6 & G7 & G8).
      exists w. split; auto.
      * intros c Hc. destruct (G5 c Hc) as (A & B & C). split; [now apply N1|]. split; [now apply Hpr|].
        split; [exact B|exact C].
      * intros Hr. destruct (G8 Hr) as (A & B & C & D). split; [intros c Hc; apply Hpr; now apply N1|].
        split; [intros c Hc; apply A; now apply N1|]. split; [exact B|]. split; [|exact D].
        intros c Hc Hf Hi. apply N1 in Hc. destruct (C c Hc Hf Hi). auto.
    + apply pair_equal_spec in H as [<- <-]. apply Hid. discriminate.
  - assert (Hl : forall c, In c (ready_of (o_ci (refreshed s)) (negb online)) <-> present s c /\ in_state s c (negb online))
      by (intros c; apply (ready_In (refreshed s) (negb online) c R1 R2 R3)).
    assert (Hnd : NoDup (ready_of (o_ci (refreshed s)) (negb online))) by now apply ready_nodup.
    destruct (ready_of (o_ci (refreshed s)) (negb online)) as [|x t] eqn:El.
    + apply pair_equal_spec in H as [<- <-]. apply Hid. intros _. split; [auto|]. intros c Hc.
      destruct (in_state_dec s c online) as [Hi|Hi]; [exact Hi|]. exfalso. apply (Hl c).
      split; [exact Hc|now apply in_state_negb].
    + rewrite <- El in *. clear El x t.
      set (l := ready_of (o_ci (refreshed s)) (negb online)) in *.
      assert (Hpr : forall c, In c l -> present (refreshed s) c) by (intros c Hc; now apply Hl).
      destruct (go_spec l online true _ _ _ R1 R2 R3 Hnd Hpr H) as (w & G1 & G2 & G3 & G4 & G5 & G6 & G7 & G8).
      exists w. split; auto.
      * intros c Hc. destruct (G5 c Hc) as (A & B & C). split; [now apply Hl|]. split; [now apply Hl|].
        split; [exact B|exact C].
      * intros Hr. destruct (G8 Hr) as (A & B & C & D). split; [auto|].
        split; [intros c Hc Hf Hi; apply A; auto; apply Hl; split; [exact Hc|now apply in_state_negb]|].
        split; [exact B|]. split; [|exact D].
        intros c Hc Hf Hi. assert (Hcl : In c l) by (apply Hl; split; [exact Hc|now apply in_state_negb]).
        destruct (C c Hcl Hf Hi). auto.
Qed.

(** *** The property lemmas *)
Lemma ostep_toggle online cpus skip : ostep (OCall online cpus skip) = toggle cpus online skip.
Proof. now destruct online. Qed.

Lemma tfacts_toggled cpus online skip s s' w :
  tfacts cpus online skip s (Ok tt) s' w -> toggled_to cpus online s s'.
Proof.
  intros T. destruct (tf_done _ _ _ _ _ _ _ T eq_refl) as (A & B & C & D & E). split.
  - intros c Hc Hf. destruct (in_state_dec s c online) as [Hi|Hi]; [|auto].
    destruct (in_dec Z.eq_dec c w) as [Hw|Hw]; [auto|].
    pose proof (tf_keep _ _ _ _ _ _ _ T c Hw) as K. unfold in_state in *. destruct online; tauto.
  - intros c Hc. apply (tf_keep _ _ _ _ _ _ _ T). intros Hw.
    destruct (tf_w _ _ _ _ _ _ _ T c Hw) as (W1 & _ & W3 & _). destruct Hc as [Hc|Hc]; [auto|congruence].
Qed.

Lemma C17_success_l online cpus skip s s' :
  machine_ok s -> ostep (OCall online cpus skip) s = (Ok tt, s') ->
  toggled_to cpus online s s' /\ same_machine s s' /\ machine_ok s' /\ ci_online (o_ci s') = o_online s'.
Proof.
  intros Hok H. rewrite ostep_toggle in H. destruct (toggle_spec _ _ _ _ _ _ Hok H) as (w & T).
  split; [eapply tfacts_toggled; eauto|]. split; [apply T|]. split; [apply T|].
  now apply (tf_done _ _ _ _ _ _ _ T).
Qed.

Lemma C17_writes_l online cpus skip s r s' :
  machine_ok s -> ostep (OCall online cpus skip) s = (r, s') ->
  same_machine s s' /\ machine_ok s' /\
  exists w, o_log s' = o_log s ++ map (fun c => (c, online)) w /\ NoDup w /\
    (forall c, In c w -> wanted s cpus c /\ present s c /\ o_file s c = true /\ ~ in_state s c online) /\
    (forall c, ~ In c w -> (on_now s' c <-> on_now s c)) /\
    (forall c, In c w -> in_state s' c online \/ (on_now s' c <-> on_now s c)) /\
    (r = Ok tt -> forall c, wanted s cpus c -> o_file s c = true -> ~ in_state s c online -> In c w).
Proof.
  intros Hok H. rewrite ostep_toggle in H. destruct (toggle_spec _ _ _ _ _ _ Hok H) as (w & T).
  split; [apply T|]. split; [apply T|]. exists w. destruct T as [T1 T2 T3 T4 T5 T6 T7 T8].
  repeat (split; [assumption|]). intros Hr. apply (T8 Hr).
Qed.

Lemma C17_rejects_l online l skip s c :
  machine_ok s -> In c l ->
  (~ present s c) \/ (o_file s c = false /\ ~ in_state s c online /\ (skip = false \/ o_dir s c = false)) ->
  exists e s', ostep (OCall online (Some l) skip) s = (Exn e, s').
Proof.
  intros Hok Hc Hbad. rewrite ostep_toggle. destruct (toggle (Some l) online skip s) as [[[]|e] s'] eqn:H; [|eauto].
  exfalso. destruct (toggle_spec _ _ _ _ _ _ Hok H) as (w & T).
  destruct (tf_done _ _ _ _ _ _ _ T eq_refl) as (A & _ & _ & D & _).
  destruct Hbad as [Hb|(Hf & Hi & Hb)]; [now apply Hb, A|].
  destruct (D c Hc Hf Hi) as (D1 & [D2|D2]); destruct Hb; congruence.
Qed.

Lemma C17_unknown_l online l skip s c :
  machine_ok s -> In c l -> ~ present s c ->
  exists e s', ostep (OCall online (Some l) skip) s = (Exn e, s') /\
               o_online s' = o_online s /\ o_log s' = o_log s.
Proof.
  intros Hok Hc Hb. rewrite ostep_toggle, toggle_unfold. cbv zeta.
  destruct (refreshed_ok s Hok) as (R1 & R2 & R3).
  destruct (proj2 (normalize_cpus_fails_l (o_ci (refreshed s)) l true)) as (e & E).
  { exists c. split; [exact Hc|]. unfold available. rewrite R3. exact Hb. }
  rewrite E. exists e, (refreshed s). repeat split.
Qed.

(** If nothing stands in the way, the call succeeds. *)
Lemma loop_succeeds ready online skip : forall cpus tog s,
  (forall c, In c cpus -> o_file s c = false -> ~ In c ready -> o_dir s c = true /\ skip = true) ->
  (forall c, In c cpus -> o_beh s c online = KObey) ->
  exists l s', toggle_loop ready online skip cpus tog s = (Ok l, s').
Proof.
  induction cpus as [|x t IH]; intros tog s Hf Hb; cbn [toggle_loop]; [eexists; eexists; reflexivity|].
  assert (Hf' : forall c, In c t -> o_file s c = false -> ~ In c ready -> o_dir s c = true /\ skip = true)
    by (intros; apply Hf; auto; now right).
  assert (Hb' : forall c, In c t -> o_beh s c online = KObey) by (intros; apply Hb; now right).
  destruct (inb x ready) eqn:Er; [now apply IH|]. apply inb_false in Er. unfold verify_path.
  destruct (o_file s x) eqn:Ef; cbn [negb].
  - unfold mbind, write_online. rewrite (Hb x) by now left. now apply IH.
  - destruct (Hf x (or_introl eq_refl) Ef Er) as (-> & ->). now apply IH.
Qed.

Lemma C17_succeeds_l online cpus skip s :
  machine_ok s ->
  (forall c, wanted s cpus c -> present s c) ->
  (forall c, wanted s cpus c -> o_file s c = false -> ~ in_state s c online ->
             o_dir s c = true /\ (skip = true \/ cpus = None)) ->
  (forall c, wanted s cpus c -> o_beh s c online = KObey) ->
  exists s', ostep (OCall online cpus skip) s = (Ok tt, s').
Proof.
  intros Hok Hp Hf Hb. rewrite ostep_toggle.
  destruct (refreshed_ok s Hok) as (R1 & R2 & R3).
  assert (Hgo : forall l sk, NoDup l -> (forall c, In c l -> wanted s cpus c) -> (sk = skip \/ sk = true) ->
            (cpus = None -> sk = true) ->
            exists s', go (ready_of (o_ci (refreshed s)) online) l online sk (refreshed s) = (Ok tt, s')).
  { intros l sk Hnd Hl Hsk Hnone. set (ready := ready_of (o_ci (refreshed s)) online).
    assert (Hr : forall c, In c ready <-> present s c /\ in_state s c online)
      by (intros c; apply (ready_In (refreshed s) online c R1 R2 R3)).
    destruct (loop_succeeds ready online sk l [] (refreshed s)) as (tg & s1 & E).
    - intros c Hc Hfc Hn. destruct (Hf c (Hl c Hc) Hfc) as (A & B); [rewrite Hr in Hn; intros Hi; apply Hn; auto|].
      split; [exact A|]. destruct B as [B|B]; [destruct Hsk; congruence|auto].
    - intros c Hc. apply Hb. now apply Hl.
    - assert (Hp1 : forall c, In c l -> present (refreshed s) c) by (intros c Hc; apply Hp; auto).
      destruct (loop_spec _ _ _ _ _ _ _ _ E Hp1 (proj1 (proj2 R1))) as (Hon1 & w & W & rest & Et & -> & -> & _).
      pose proof (machine_ok_wrote _ _ _ _ R1 W Hon1) as Hok1.
      destruct (refreshed_ok s1 Hok1) as (Q1 & Q2 & Q3).
      unfold go, mbind at 1. rewrite E. cbn [app]. destruct w as [|w0 wt] eqn:Ew; [eexists; reflexivity|].
      rewrite <- Ew in *. unfold cpus_hotplugged, modify, mbind. fold (refreshed s1).
      unfold validate_hotplugged.
      replace (forallb _ w) with true; [eexists; reflexivity|]. symmetry. apply forallb_forall. intros c Hc.
      apply inb_In. fold (ready_of (o_ci (refreshed s1)) online). apply (ready_In (refreshed s1) online c Q1 Q2 Q3).
      assert (Hcl : In c l).
      { rewrite app_nil_r in Et. rewrite <- Et in Hc. unfold todo in Hc. now apply filter_In in Hc. }
      split.
      { unfold present. change (o_sys (refreshed s1)) with (o_sys s1). rewrite (proj1 (wr_machine _ _ _ _ W)).
        apply Hp. auto. }
      pose proof (wr_on _ _ _ _ W c) as Hx. apply inb_In in Hc. rewrite Hc in Hx.
      unfold obeys in Hx. change (o_beh (refreshed s)) with (o_beh s) in Hx. rewrite (Hb c (Hl c Hcl)) in Hx. cbn [andb] in Hx.
      unfold in_state, on_now in *. cbn [refreshed set_oci o_online]. destruct online; [now apply Hx|].
      intros Hy. apply Hx in Hy. discriminate. }
  rewrite toggle_unfold. cbv zeta. destruct cpus as [l0|].
  - destruct (normalize_cpus _ _ _) as [l|e] eqn:En.
    + destruct (normalize_cpus_ok_l _ _ _ _ En) as (N1 & N2 & _). apply Hgo; auto; [|intros c Hc; now apply N1|discriminate].
      unfold normalize_cpus, normalize_in in En. destruct (forallb _ _); [|discriminate].
      injection En as <-. apply NoDup_dedup.
    + exfalso. destruct (proj1 (normalize_cpus_fails_l (o_ci (refreshed s)) l0 true)) as (x & Hx & Ha); [eauto|].
      apply Ha. unfold available. rewrite R3. apply Hp. exact Hx.
  - assert (Hl : forall c, In c (ready_of (o_ci (refreshed s)) (negb online)) -> present s c)
      by (intros c Hc; now apply (ready_In (refreshed s) (negb online) c R1 R2 R3)).
    assert (Hnd : NoDup (ready_of (o_ci (refreshed s)) (negb online))) by now apply ready_nodup.
    destruct (ready_of (o_ci (refreshed s)) (negb online)) as [|x t] eqn:El; [eexists; reflexivity|].
    rewrite <- El in *. apply Hgo; auto.
Qed.

Lemma asked_ext calls s s' c cur : same_machine s s' -> asked calls s' c cur = asked calls s c cur.
Proof.
  intros (M1 & M2 & _). revert cur. induction calls as [|[on cp sk] t IH]; intros cur; cbn [asked]; [reflexivity|].
  rewrite M1, M2. apply IH.
Qed.

Lemma C17_history_l calls : forall s s',
  machine_ok s -> oruns calls s = (Ok tt, s') ->
  forall c, present s c -> (on_now s' c <-> asked calls s c (inb c (o_online s)) = true).
Proof.
  induction calls as [|[on cp sk] t IH]; intros s s' Hok H c Hc; cbn [asked].
  - injection H as <-. unfold on_now. now rewrite inb_In.
  - unfold oruns in H. cbn [mfor] in H. unfold mbind in H.
    destruct (ostep (OCall on cp sk) s) as [[[]|e] s1] eqn:E; [|discriminate].
    destruct (C17_success_l _ _ _ _ _ Hok E) as (T & M & Hok1 & _).
    assert (Hc1 : present s1 c) by (unfold present; now rewrite (proj1 M)).
    rewrite (IH s1 s' Hok1 H c Hc1). rewrite (asked_ext t s s1 c _ M).
    assert (Ecur : inb c (o_online s1) =
      (if o_file s c && match cp with None => inb c (sys_present (o_sys s)) | Some l => inb c l end
       then on else inb c (o_online s))); [|now rewrite Ecur].
    destruct T as [T1 T2]. apply eq_true_iff_eq. rewrite inb_In. fold (on_now s1 c).
    destruct (o_file s c && _) eqn:Ew.
    + apply andb_prop in Ew. destruct Ew as (Ef & Ew).
      assert (Hw : wanted s cp c) by (destruct cp; cbn; now apply inb_In).
      specialize (T1 c Hw Ef). unfold in_state in T1. destruct on; [tauto|]. split; [tauto|discriminate].
    + rewrite inb_In. apply T2. apply andb_false_iff in Ew. destruct Ew as [Ew|Ew]; [now right|left].
      destruct cp; cbn; now apply inb_false.
Qed.

(** is_online() *)
Lemma C17_is_online_l s c b s' :
  (forall x, o_dir s x = true -> o_file s x = false -> on_now s x) ->
  is_online c s = (Ok b, s') -> s' = s /\ (b = true <-> on_now s c).
Proof.
  intros Hn. unfold is_online. destruct (o_file s c) eqn:Ef; [|destruct (o_dir s c) eqn:Ed]; intros H;
    try discriminate; apply pair_equal_spec in H as [E <-]; injection E as <-; split; auto.
  - apply inb_In.
  - split; auto.
Qed.
