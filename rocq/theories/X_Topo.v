(** The topology theorems in the form of the statements; files for any machine; witnesses. *)
From Verif Require Import Base L_Base L_Monad M_Text S_Text L_Text M_CPUInfo S_CPUInfo M_Topo S_Topo L_Topo L_Topo2 L_Topo3 L_Topo4 L_Topo5 L_Topo6.
From Coq Require Import ZifyBool Sorted Permutation.

(** ** Histories *)
Lemma after_inv m ex evs : machine_ok m -> forall on s, online_set m on -> possible m on evs -> oinv m ex on s ->
  online_set m (online_after on evs) /\ oinv m ex (online_after on evs) (after evs s).
Proof.
  intros Hm. induction evs as [|e evs IH]; intros on s Hon Hp H; [auto|]. destruct e as [on'|h ls o]; cbn [after online_after].
  - destruct Hp as [Ho Hp]. apply IH; [exact Ho|exact Hp|]. eapply oinv_plug. exact H.
  - destruct Hp as [Hs Hp]. apply IH; [exact Hon|exact Hp|].
    pose proof (query_post m Hm on h Hon Hs ex s ls o H) as G. unfold post in G.
    destruct (query h ls o s) as [[rows|e] s']; cbn [snd]; apply G.
Qed.

Lemma requested_eq ls : match ls with [] => all_levels | _ => ls end = requested ls.
Proof. now destruct ls. Qed.

Lemma table_l m on evs h ls o rows s' : machine_ok m -> online_set m on -> possible m on evs ->
  shows m (online_after on evs) h -> query h ls o (after evs new_obj) = (Ok rows, s') ->
  right_table m (online_after on evs) (requested ls) o rows.
Proof.
  intros Hm Hon Hp Hs E. destruct (after_inv m false evs Hm on new_obj Hon Hp (oinv_new m on)) as [Ho H].
  pose proof (query_post m Hm _ h Ho Hs false _ ls o H) as G. unfold post in G. rewrite E, requested_eq in G. apply G.
Qed.

Lemma succeeds_l m on evs h ls o : machine_ok m -> online_set m on -> possible m on evs ->
  shows m (online_after on evs) h -> readable m (online_after on evs) h ->
  exists rows s', query h ls o (after evs new_obj) = (Ok rows, s').
Proof.
  intros Hm Hon Hp Hs Hr. destruct (after_inv m false evs Hm on new_obj Hon Hp (oinv_new m on)) as [Ho H].
  pose proof (query_post m Hm _ h Ho Hs false _ ls o H) as G. unfold post in G.
  destruct (query h ls o (after evs new_obj)) as [[rows|e] s']; [eauto|]. destruct G as [_ G]. contradiction.
Qed.

Lemma io_first m on h ls o rows s' : machine_ok m -> online_set m on -> all_dies_online m on -> shows m on h ->
  about_dies ls o -> query h ls o new_obj = (Ok rows, s') -> oinv m true on s' /\ rows_exact m rows.
Proof.
  intros Hm Hon Hd Hs Ha E. unfold query in E.
  pose proof (get_post m Hm on h Hon Hs false true new_obj (match ls with [] => all_levels | _ => ls end) o (oinv_new m on)) as G.
  unfold post in G. rewrite E in G. destruct G as (A & _ & B).
  - right. split; [reflexivity|]. split; [reflexivity|]. split; [intros p d (ds & [=] & _)|]. split; [|exact Hd].
    apply union_In. rewrite requested_eq. destruct Ha as [Ha|Ha]; [now left|right]. rewrite Ha. cbn. auto.
  - auto.
Qed.

Lemma io_l m on h0 ls0 o0 rows0 s0 evs h ls o rows s' : machine_ok m -> online_set m on -> all_dies_online m on ->
  shows m on h0 -> about_dies ls0 o0 -> query h0 ls0 o0 new_obj = (Ok rows0, s0) ->
  possible m on evs -> shows m (online_after on evs) h -> query h ls o (after evs s0) = (Ok rows, s') ->
  forall p d, (In (io_line p d) rows0 <-> io_die m p d) /\ (In (io_line p d) rows <-> io_die m p d).
Proof.
  intros Hm Hon Hd Hs0 Ha E0 Hp Hs E p d. destruct (io_first m on h0 ls0 o0 rows0 s0 Hm Hon Hd Hs0 Ha E0) as [H0 R0].
  split; [apply R0|]. destruct (after_inv m true evs Hm on s0 Hon Hp H0) as [Ho H].
  pose proof (query_post m Hm _ h Ho Hs true _ ls o H) as G. unfold post in G. rewrite E in G. now apply G.
Qed.

(** ** The files of any machine *)
Lemma num_text_ok n : 0 <= n -> number_file (num_text n) n.
Proof. intros H. exists (dec n). split; [now apply dec_numeral|reflexivity]. Qed.

Lemma list_text_ok l : Forall (fun n => 0 <= n) l -> list_file (list_text l) l.
Proof.
  intros H. exists (map INum l), (map dec l). split; [|split; [|split]].
  - induction H as [|n l Hn _ IH]; [constructor|]. cbn [map]. constructor; [|exact IH]. constructor. now apply dec_numeral.
  - clear H. induction l; constructor; auto.
  - reflexivity.
  - clear H. induction l as [|n l IH]; [reflexivity|]. cbn [map flat_map meaning app]. now rewrite <- IH.
Qed.

Lemma field_ok name n : 0 <= n -> field name n (field_text name n).
Proof. intros H. exists [], (dec n). split; [constructor|]. split; [now apply dec_numeral|reflexivity]. Qed.

Lemma field_line name n : 0 <= n -> ~ In newline (s2l name) -> field_text name n <> [] /\ ~ In newline (field_text name n).
Proof.
  intros H Hn. split.
  - unfold field_text. destruct (s2l name); discriminate.
  - unfold field_text. rewrite in_app_iff. intros [G|[G|[G|G]]]; [contradiction|discriminate|discriminate|].
    destruct (dec_numeral n H) as (_ & F & _). rewrite Forall_forall in F. apply F in G. unfold is_digit in G. cbn in G. lia.
Qed.

Lemma block_ok m c : 0 <= c -> 0 <= number m LPkg c -> 0 <= number m LCore c -> cpuinfo_block m c (cpu_text m c).
Proof.
  intros H1 H2 H3. split; [|split; [|split; [|split]]].
  - assert (Hc : forall s : string, s2l s <> [] -> ~ In newline (s2l s) -> s2l s <> [] /\ ~ In newline (s2l s)) by auto.
    unfold cpu_text. repeat (apply Forall_cons; [first [apply field_line; [assumption|] | apply Hc; [discriminate|]]; vm_compute; intuition discriminate|]).
    constructor.
  - exists (removelast (cpu_text m c)), (s2l "core"), "s"%char. split; [reflexivity|]. vm_compute. split; repeat constructor.
  - exists (field_text "processor" c). split; [reflexivity|now apply field_ok].
  - exists (field_text "physical id" (number m LPkg c)). split; [reflexivity|now apply field_ok].
  - exists (field_text "core id" (number m LCore c)). split; [reflexivity|now apply field_ok].
Qed.

Lemma files_shows m on : machine_ok m -> online_set m on -> natural m -> shows m on (files m on).
Proof.
  intros Hm (Hne & Hnd & Hi) Hn.
  assert (H0 : forall c, In c on -> 0 <= c).
  { intros c Hc. pose proof (Hn c LCPU (Hi c Hc)) as G. now rewrite (proj1 (mo_cpu m Hm c (Hi c Hc))) in G. }
  assert (H0l : Forall (fun n => 0 <= n) on) by (apply Forall_forall; exact H0).
  constructor; cbn [files h_online h_cpuinfo h_l2_id h_l2_cpus h_die_id h_die_cpus h_nodes h_node_cpus h_pli h_uncore].
  - intros t [= <-]. exists on. split; [now apply list_text_ok|]. reflexivity.
  - intros t [= <-]. exists (map (fun c => (c, cpu_text m c)) on). split; [|split].
    + rewrite map_map. cbn [fst]. rewrite map_id. reflexivity.
    + apply Forall_forall. intros b Hb. apply in_map_iff in Hb as (c & <- & Hc). cbn [fst snd]. apply block_ok; auto.
    + rewrite map_map. reflexivity.
  - intros -> c _. eauto.
  - intros -> c Hc. split; [discriminate|]. intros t [= <-]. apply num_text_ok. auto.
  - intros _ c t Hc [= <-]. exists [c]. split; [apply list_text_ok; constructor; auto|]. split; [now left|].
    intros x [<-|[]] _. reflexivity.
  - intros ->. eexists. split; [reflexivity|]. intros c v _ [= <-]. reflexivity.
  - now intros ->.
  - intros c t Hc [= <-]. apply num_text_ok. auto.
  - intros c t Hc [= <-]. exists [c]. split; [apply list_text_ok; constructor; auto|now left].
  - intros t [= <-]. exists (map (number m LNode) on). split; [|split].
    + apply list_text_ok. apply Forall_forall. intros n Hnn. apply in_map_iff in Hnn as (c & <- & Hc). auto.
    + intros c Hc. now apply in_map.
    + intros n t' _ [= <-]. exists (filter (fun c => number m LNode c =? n) on). split; [|split].
      * apply list_text_ok. apply Forall_forall. intros c Hc. apply filter_In in Hc. apply H0, Hc.
      * intros c Hc E. apply filter_In. split; [exact Hc|lia].
      * intros c Hc _. apply filter_In in Hc. lia.
  - destruct (m_dies m) as [dies|]; [|reflexivity]. eexists. split; [reflexivity|]. now intros d [= <-].
Qed.

Lemma files_readable m on : readable m on (files m on).
Proof.
  constructor; cbn [files h_online h_cpuinfo h_l2_id h_l2_cpus h_die_id h_die_cpus h_nodes h_node_cpus h_pli h_uncore]; eauto.
  - intros c _. destruct (m_cache m); eauto.
  - intros f c Hf _. destruct (m_pli m); [|discriminate]. injection Hf as <-. eauto.
  - intros r Hr. destruct (m_dies m); [|discriminate]. injection Hr as <-. eauto.
Qed.

(** ** Witnesses *)

(** One package with two dies, one CPU on each. *)
Definition mach2 : machine :=
  Machine (fun c => if c =? 1 then TL 1 1 1 1 0 0 else TL 0 0 0 0 0 0) [0; 1] true false (Some [(0, [0; 1])]).

(** Two packages, one CPU each, both with an I/O die number 1. *)
Definition mach3 : machine :=
  Machine (fun c => if c =? 1 then TL 1 0 1 0 1 1 else TL 0 0 0 0 0 0) [0; 1] true false (Some [(0, [0; 1]); (1, [0; 1])]).

Lemma mach2_ok : machine_ok mach2 /\ natural mach2.
Proof.
  split.
  - constructor; [|discriminate]. intros c [<-|[<-|[]]]; split; reflexivity || discriminate.
  - intros c l [<-|[<-|[]]]; destruct l; cbn; lia.
Qed.

Lemma mach3_ok : machine_ok mach3 /\ natural mach3.
Proof.
  split.
  - constructor; [|discriminate]. intros c [<-|[<-|[]]]; split; reflexivity || discriminate.
  - intros c l [<-|[<-|[]]]; destruct l; cbn; lia.
Qed.

Lemma on_set m on : m_present m = [0; 1] -> on = [0] \/ on = [0; 1] -> online_set m on.
Proof.
  intros E [-> | ->]; (split; [discriminate|]); rewrite E; split.
  - repeat constructor; cbn; tauto.
  - intros c [<-|[]]. now left.
  - repeat constructor; cbn; intuition discriminate.
  - intros c Hc. exact Hc.
Qed.

(** The die level is asked for while CPU 1 is offline. CPU 1 comes online, the table is updated, and then
    a level that was not asked for before is added. *)
Definition stale_evs : list event :=
  [Ask (files mach2 [0]) [LDie] LCPU; Plug [0; 1]; Ask (files mach2 [0; 1]) [LDie] LCPU].

Lemma stale_refuted_l : exists m on evs h ls o rows s' p d,
  machine_ok m /\ online_set m on /\ possible m on evs /\
  shows m (online_after on evs) h /\ readable m (online_after on evs) h /\
  query h ls o (after evs new_obj) = (Ok rows, s') /\ In (io_line p d) rows /\
  exists c, In c (online_after on evs) /\ number m LPkg c = p /\ number m LDie c = d.
Proof.
  destruct mach2_ok as [Hm Hn].
  assert (O1 : online_set mach2 [0]) by (apply on_set; auto). assert (O2 : online_set mach2 [0; 1]) by (apply on_set; auto).
  exists mach2, [0], stale_evs, (files mach2 [0; 1]), [LModule], LCPU.
  assert (E : exists rows s', query (files mach2 [0; 1]) [LModule] LCPU (after stale_evs new_obj) = (Ok rows, s') /\
    existsb (fun r => (p_cpu r =? NA) && match p_pkg r, p_die r with Some p, Some d => (p =? 0) && (d =? 1) | _, _ => false end) rows = true).
  { eexists. eexists. split; [vm_compute; reflexivity|]. vm_compute. reflexivity. }
  destruct E as (rows & s' & E & Hr). exists rows, s', 0, 1.
  assert (P : possible mach2 [0] stale_evs).
  { cbn. split; [now apply files_shows|]. split; [exact O2|]. split; [now apply files_shows|exact I]. }
  split; [exact Hm|]. split; [exact O1|]. split; [exact P|]. split; [now apply files_shows|]. split; [apply files_readable|].
  split; [exact E|]. split.
  - apply existsb_exists in Hr as (r & Hi & Hr). apply andb_true_iff in Hr as [Hc Hr]. apply Z.eqb_eq in Hc.
    destruct (rt_io _ _ _ _ _ (table_l mach2 [0] stale_evs _ _ _ _ _ Hm O1 P (files_shows mach2 [0; 1] Hm O2 Hn) E) r Hi Hc) as (p & d & -> & _).
    cbn [io_line p_pkg p_die] in Hr. apply andb_true_iff in Hr as [H1 H2]. apply Z.eqb_eq in H1, H2. subst. exact Hi.
  - exists 1. split; [right; now left|]. split; reflexivity.
Qed.

(** The same system, the same request, two histories. *)
Definition seen_evs : list event := [Ask (files mach3 [0; 1]) [LDie] LCPU; Plug [0]].

Lemma history_refuted_l : exists m on1 on2 evs1 evs2 h ls o rows1 rows2 s1 s2 r,
  machine_ok m /\ online_set m on1 /\ online_set m on2 /\ possible m on1 evs1 /\ possible m on2 evs2 /\
  online_after on1 evs1 = online_after on2 evs2 /\
  shows m (online_after on1 evs1) h /\ readable m (online_after on1 evs1) h /\
  query h ls o (after evs1 new_obj) = (Ok rows1, s1) /\ query h ls o (after evs2 new_obj) = (Ok rows2, s2) /\
  In r rows1 /\ ~ In r rows2.
Proof.
  destruct mach3_ok as [Hm Hn].
  assert (O1 : online_set mach3 [0]) by (apply on_set; auto). assert (O2 : online_set mach3 [0; 1]) by (apply on_set; auto).
  exists mach3, [0; 1], [0], seen_evs, [], (files mach3 [0]), [LDie], LCPU.
  assert (E1 : exists rows s', query (files mach3 [0]) [LDie] LCPU (after seen_evs new_obj) = (Ok rows, s') /\ In (io_line 1 1) rows).
  { eexists. eexists. split; [vm_compute; reflexivity|]. vm_compute. intuition. }
  assert (E2 : exists rows s', query (files mach3 [0]) [LDie] LCPU (after [] new_obj) = (Ok rows, s') /\ ~ In (io_line 1 1) rows).
  { eexists. eexists. split; [vm_compute; reflexivity|]. vm_compute. intuition discriminate. }
  destruct E1 as (r1 & s1 & E1 & I1), E2 as (r2 & s2 & E2 & I2). exists r1, r2, s1, s2, (io_line 1 1).
  split; [exact Hm|]. split; [exact O2|]. split; [exact O1|]. split; [split; [now apply files_shows|split; [exact O1|exact I]]|].
  split; [exact I|]. split; [reflexivity|]. split; [now apply files_shows|]. split; [apply files_readable|]. auto.
Qed.

(** ** A case: two packages, all files readable; CPU 1 goes offline and comes back. *)
Definition case_evs : list event :=
  [Ask (files mach3 [0; 1]) [LDie] LPkg; Plug [0]; Ask (files mach3 [0]) [] LCore; Plug [0; 1]].

Lemma case_l : machine_ok mach3 /\ online_set mach3 [0; 1] /\ possible mach3 [0; 1] case_evs /\
  all_dies_online mach3 [0; 1] /\ online_after [0; 1] case_evs = [0; 1] /\
  shows mach3 [0; 1] (files mach3 [0; 1]) /\ readable mach3 [0; 1] (files mach3 [0; 1]) /\
  io_die mach3 1 1 /\
  fst (query (files mach3 [0; 1]) [] LPkg (after case_evs new_obj)) =
    Ok [PL 0 (Some 0) (Some 0) (Some 0) (Some 0) (Some 0); io_line 0 1;
        PL 1 (Some 0) (Some 1) (Some 0) (Some 1) (Some 1); io_line 1 1].
Proof.
  destruct mach3_ok as [Hm Hn].
  assert (O1 : online_set mach3 [0]) by (apply on_set; auto). assert (O2 : online_set mach3 [0; 1]) by (apply on_set; auto).
  split; [exact Hm|]. split; [exact O2|]. split; [|split; [|split; [reflexivity|split; [now apply files_shows|split; [apply files_readable|split]]]]].
  - cbn. split; [now apply files_shows|]. split; [exact O1|]. split; [now apply files_shows|]. split; [exact O2|exact I].
  - intros c Hc. exists c. auto.
  - split; [|split].
    + exists [(0, [0; 1]); (1, [0; 1])], [0; 1]. cbn. intuition.
    + exists 1. cbn. auto.
    + intros (c & [<-|[<-|[]]] & H1 & H2); cbn in *; discriminate.
  - vm_compute. reflexivity.
Qed.
