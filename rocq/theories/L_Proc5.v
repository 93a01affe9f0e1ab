(** A command run in the interactive shell, from the PID line to the marker: proofs of C58. *)
From Verif Require Import Base L_Base M_Text S_Text L_Text M_Proc S_Proc L_Proc L_Proc2 L_Proc3 L_Proc4.
From Verif Require L_CPUIdle L_Uncore3.
From Coq Require Import ZifyBool.

Lemma first_line l z d w : is_line l -> Forall is_digit d -> l ++ z = d ++ NL :: w -> l = d ++ [NL].
Proof.
  intros (t & c & -> & Hc & Ht) Hd. revert t Ht. induction Hd as [|x d Hx _ IH]; intros t Ht E; cbn [app] in *.
  - destruct t as [|y t]; cbn [app] in E; injection E as E1 E2.
    + subst. reflexivity.
    + exfalso. apply Ht. left. exact E1.
  - destruct t as [|y t]; cbn [app] in E.
    + exfalso. injection E as E1 _. subst c. unfold is_digit in Hx. destruct Hc as [-> | ->]; cbn in Hx; lia.
    + injection E as -> E. cbn [app]. f_equal. apply IH; [|exact E]. intros H. apply Ht. now right.
Qed.

(** What was captured never reaches into the marker line. *)
Lemma captured_prefix m T e q0 off R p : IInv m T e q0 off R p ->
  exists rest, T = concat (get2 SOut R) ++ held SOut p ++ rest.
Proof.
  intros Hi. destruct (ii_out _ _ _ _ _ _ _ Hi) as (c & G1 & [(_ & _ & G3 & _ & Hs)|(_ & _ & _ & G3)]).
  - apply app_eq_app in G1. destruct G1 as (l & [(E1 & E2)|(E1 & E2)]).
    + destruct (Hs l E1) as (El & _). exists []. rewrite El, E1 in G3. apply app_inv_tail in G3. rewrite app_nil_r. auto.
    + exists (p_ll p ++ l). rewrite E1, <- G3, <- !app_assoc. reflexivity.
  - exists []. rewrite app_nil_r. auto.
Qed.

Lemma pid_ended pid out : newline_ended out -> newline_ended (pid_text pid out).
Proof.
  intros [-> |(t & ->)]; right; unfold pid_text.
  - exists (dec pid). reflexivity.
  - exists (dec pid ++ NL :: t). rewrite <- app_assoc. reflexivity.
Qed.

Lemma set_cnt_inv m T e q0 off R p n : IInv m T e q0 off R p ->
  IInv m T e q0 (fst off + n, snd off) R (set_cnt (fst (p_cnt p) - n, snd (p_cnt p)) p).
Proof.
  intros [Her Hcl Hl Hnl Hc Hmk Hp Ho]. split; auto.
  intros s. specialize (Hc s). destruct s; cbn [get2 fst snd p_cnt p_out set_cnt] in *; lia.
Qed.

Lemma dec_all_digits n : 0 <= n -> Forall is_digit (dec n).
Proof. intros H. apply (proj1 (proj2 (dec_numeral n H))). Qed.

Lemma strip_pid n : 0 <= n -> strip (dec n ++ [NL]) = dec n.
Proof. intros H. apply L_CPUIdle.strip_nl, L_CPUIdle.digits_nospace, dec_all_digits, H. Qed.

Lemma pid_value n : py_int0 (dec n) = Some n.
Proof.
  pose proof (L_Uncore3.str_to_int_dec_all n) as H. unfold str_to_int in H.
  destruct (py_int0 (dec n)); [congruence|discriminate].
Qed.

(** The first line is the PID line. *)
Lemma pid_line m pid out e q0 off line p : 0 <= pid ->
  IInv m (pid_text pid out) e q0 off ([line], []) p -> line = dec pid ++ [NL].
Proof.
  intros Hp Hi. pose proof (ii_lines _ _ _ _ _ _ _ Hi SOut) as Hl. cbn [get2 fst app] in Hl.
  inversion Hl as [|? ? Hline _]; subst.
  destruct (ii_out _ _ _ _ _ _ _ Hi) as (c & E & [(_ & _ & Hc & _)|(_ & _ & _ & Hc)]); cbn [get2 fst concat] in Hc; rewrite app_nil_r in Hc.
  - rewrite <- Hc in E. unfold pid_text in E. rewrite <- !app_assoc in E. cbn [app] in E.
    eapply first_line; [exact Hline|apply dec_all_digits; exact Hp|exact E].
  - unfold pid_text in Hc. eapply first_line; [exact Hline|apply dec_all_digits; exact Hp|exact Hc].
Qed.

Lemma read_pid_ok m pid out e q0 c p v p' : good_marker m (pid_text pid out) -> newline_ended out -> 0 <= e -> 0 <= pid ->
  shell_shows m (pid_text pid out) e q0 -> IInv m (pid_text pid out) e q0 (0, 0) ([], []) p ->
  read_pid IntSh c p = (Ok v, p') ->
  v = pid /\ IInv m (pid_text pid out) e q0 (1, 0) ([dec pid ++ [NL]], []) p'.
Proof.
  intros Hm Ho He Hp Hq Hi E. unfold read_pid in E.
  set (c' := Call false true (Some 1%nat, Some O) (c_first c) (c_passes c) (c_last c)) in E.
  pose proof (i_wait_inv m _ e q0 (0, 0) ([], []) c' p Hm (pid_ended pid out Ho) He Hq eq_refl Hi) as H.
  destruct (wait IntSh c' p) as [[[[o er] x]|x] p1]; [|discriminate].
  destruct H as (Hi1 & _). rewrite nil_app2 in Hi1.
  destruct o as [|line [|? ?]]; try discriminate. destruct er; [|discriminate].
  pose proof (pid_line _ _ _ _ _ _ _ _ Hp Hi1) as ->.
  rewrite (strip_pid pid Hp) in E. rewrite pid_value in E.
  destruct (Nat.ltb 128 (List.length (dec pid))); [discriminate|]. injection E as <- <-.
  split; [reflexivity|]. exact (set_cnt_inv _ _ _ _ _ _ _ 1 Hi1).
Qed.

Lemma app_line_out pid out a : (dec pid ++ [NL]) ++ a = pid_text pid out -> a = out.
Proof.
  unfold pid_text. rewrite <- app_assoc. cbn [app]. intros E. apply app_inv_head in E. injection E. auto.
Qed.

Lemma concat_pid pid : concat [dec pid ++ [NL]] = dec pid ++ [NL].
Proof. cbn [concat]. apply app_nil_r. Qed.

Lemma command_l m pid out e q p0 c v p cs rs ex p' :
  good_marker m (pid_text pid out) -> newline_ended out -> 0 <= e -> 0 <= pid ->
  shell_shows m (pid_text pid out) e q -> capturing cs ->
  run_in_intsh m c (set_queue q p0) = (Ok v, p) -> waits IntSh cs p = (rs, ex, p') ->
  v = pid /\
  (exists rest, out = got SOut rs ++ rest) /\ (exists rest, said SErr q = got SErr rs ++ rest) /\
  (forall x, finished rs x -> x = e /\ got SOut rs = out).
Proof.
  intros Hm Ho He Hp Hq Hcs Er Ew. pose proof (pid_ended pid out Ho) as HT.
  assert (Hi : IInv m (pid_text pid out) e q (0, 0) ([], []) (reinit m (set_queue q p0))).
  { apply start_inv; [exact Hq|]. exists p0. reflexivity. }
  destruct (read_pid_ok _ _ _ _ _ _ _ _ _ Hm Ho He Hp Hq Hi Er) as (-> & Hi1).
  destruct (i_waits_inv m _ e q (1, 0) Hm HT He Hq cs _ _ _ _ _ Hcs Hi1 Ew) as ((R' & Hi2) & Hfin & _).
  split; [reflexivity|]. split; [|split].
  - assert (Hh : concat (get2 SOut (app2 (app2 ([dec pid ++ [NL]], []) (all_lines rs)) R')) =
                 (dec pid ++ [NL]) ++ got SOut rs ++ concat (get2 SOut R')).
    { rewrite !get2_app2, all_lines_get, !concat_app. cbn [get2 fst]. rewrite concat_pid, <- !app_assoc. reflexivity. }
    destruct (captured_prefix _ _ _ _ _ _ _ Hi2) as (rest & G). rewrite Hh, <- app_assoc in G.
    symmetry in G. apply app_line_out in G. rewrite <- G, <- !app_assoc. eauto.
  - pose proof (ii_err _ _ _ _ _ _ _ Hi2) as G. rewrite !get2_app2, all_lines_get, !concat_app in G.
    cbn [get2 snd concat app] in G. rewrite <- G. unfold got. rewrite <- !app_assoc. eauto.
  - intros x (r & Hr & Ex). destruct (Hfin r x Hr Ex) as (-> & G). split; [reflexivity|].
    cbn [get2 fst] in G. rewrite concat_pid in G. apply app_line_out in G. exact G.
Qed.

Lemma i_raises_l m pid out e q p0 c v p cs rs ex p' :
  good_marker m (pid_text pid out) -> newline_ended out -> 0 <= e -> 0 <= pid ->
  shell_shows m (pid_text pid out) e q -> capturing cs ->
  run_in_intsh m c (set_queue q p0) = (Ok v, p) -> waits IntSh cs p = (rs, Some ex, p') ->
  ex = EError /\ (exists c', In c' cs /\ c_lines c' = (Some O, Some O)) \/
  ex = ENotFound /\ e = 127 /\ out = [] /\ exists l rest, is_line l /\ said SErr q = l ++ rest.
Proof.
  intros Hm Ho He Hp Hq Hcs Er Ew. pose proof (pid_ended pid out Ho) as HT.
  assert (Hi : IInv m (pid_text pid out) e q (0, 0) ([], []) (reinit m (set_queue q p0))).
  { apply start_inv; [exact Hq|]. exists p0. reflexivity. }
  destruct (read_pid_ok _ _ _ _ _ _ _ _ _ Hm Ho He Hp Hq Hi Er) as (-> & Hi1).
  destruct (i_waits_inv m _ e q (1, 0) Hm HT He Hq cs _ _ _ _ _ Hcs Hi1 Ew) as ((R' & Hi2) & _ & Hex).
  destruct (Hex ex eq_refl) as [H|(-> & Hx & C1 & C2)]; [now left|right]. split; [reflexivity|].
  pose proof (ii_cnt _ _ _ _ _ _ _ Hi2) as Hc. rewrite !Hc in *. cbn [get2 fst snd] in C1, C2.
  pose proof (ii_out _ _ _ _ _ _ _ Hi2) as (c2 & _ & [(G & _)|(G1 & _ & _ & G3)]); [congruence|].
  split; [congruence|].
  set (R := app2 (app2 ([dec pid ++ [NL]], []) (all_lines rs)) R') in *.
  split.
  - assert (HR : fst R = [dec pid ++ [NL]] /\ fst (p_out p') = []).
    { assert (HR0 : fst R = (dec pid ++ [NL]) :: (lines_got SOut rs ++ fst R')) by reflexivity.
      rewrite HR0 in C1. rewrite app_length in C1. cbn [List.length] in C1. rewrite app_length in C1.
      rewrite HR0. destruct (lines_got SOut rs), (fst R'), (fst (p_out p')); cbn [List.length] in C1; try lia. auto. }
    destruct HR as (HR1 & HR2). unfold held in G3. cbn [get2] in G3. rewrite HR1, HR2, concat_pid in G3.
    cbn [concat app] in G3. apply app_line_out in G3.
    destruct Ho as [E|(t & E)]; [exact E|exfalso].
    pose proof (ii_clean _ _ _ _ _ _ _ Hi2 SOut NL) as Hcl. cbn [get2] in Hcl. apply Hcl; [|now left].
    rewrite G3, E, in_app_iff. right. now left.
  - pose proof (ii_lines _ _ _ _ _ _ _ Hi2 SErr) as Hl. pose proof (ii_err _ _ _ _ _ _ _ Hi2) as G.
    assert (G' : concat (snd R ++ snd (p_out p')) ++ snd (p_partial p') ++ said SErr (p_queue p') = said SErr q)
      by (rewrite <- G, concat_app; unfold held; cbn [get2]; rewrite <- !app_assoc; reflexivity).
    cbn [get2] in Hl.
    destruct (snd R ++ snd (p_out p')) as [|l [|l2 ls]]; [cbn in C2; lia| |cbn [List.length] in C2; lia].
    inversion Hl as [|? ? Hline _]; subst. exists l. cbn [concat] in G'. rewrite app_nil_r in G'. eauto.
Qed.

(** ** A prompt environment *)

Lemma prompt_intsh m T e q0 off R x lines ps : good_marker m T -> newline_ended T -> 0 <= e -> shell_shows m T e q0 ->
  forall p, IInv m T e q0 off R p -> Forall (prompt x) ps -> (List.length (p_queue p) <= List.length ps)%nat ->
  exists p', wait_intsh false true lines ps p = (Ok tt, p') /\ IInv m T e q0 off R p' /\
    (have_enough_lines (p_out p') lines = true \/ p_queue p' = []).
Proof.
  intros Hm HT He Hq0. induction ps as [|a ps IH]; intros p Hi Hps Hlen; cbn [wait_intsh].
  - exists p. split; [reflexivity|]. split; [exact Hi|]. right. destruct (p_queue p); [reflexivity|cbn in Hlen; lia].
  - inversion Hps as [|? ? (P1 & P2 & P3 & P4) Hps']; subst.
    destruct (have_enough_lines (p_out p) lines) eqn:Ee; [exists p; auto|].
    destruct (match p_exit p with Some _ => queue_empty (a_seen a) p | None => false end) eqn:Ed.
    + exists p. split; [reflexivity|]. split; [exact Hi|]. right. destruct (p_exit p); [|discriminate].
      unfold queue_empty in Ed. rewrite P1 in Ed. destruct (p_queue p); [reflexivity|discriminate].
    + unfold get_next_queue_item. rewrite P2, P3. cbn [orb]. destruct (p_queue p) as [|i q] eqn:Eq.
      * apply IH; [exact Hi|exact Hps'|rewrite Eq; cbn; lia].
      * destruct (items_here m T e q0 off R Hq0 p i Hi) as (A & B); [rewrite Eq; now left|].
        cbn [List.length] in Hlen. destruct i as [[] d|s]; [| |exfalso; now apply (A s)].
        -- pose proof (out_step m T e q0 off R Hm HT He Hq0 p d q Hi Eq (B _ _ eq_refl)) as H.
           cbn [p_marker p_ll p_check set_queue]. destruct (watch_for_marker _ _ _ _) as [[[cdata ex] ll'] check'].
           apply IH; [exact H|exact Hps'|]. rewrite handle_queue. cbn [p_queue set_exit set_ll set_queue]. lia.
        -- pose proof (err_step m T e q0 off R p d q Hi Eq) as H.
           apply IH; [exact H|exact Hps'|]. rewrite handle_queue. cbn [p_queue set_queue]. lia.
Qed.

Lemma return_one x l : exists l', lines_to_return1 (x :: l) (Some 1%nat) = ([x], l').
Proof. destruct l; cbn; eauto. Qed.

Lemma return_zero l : exists l', lines_to_return1 l (Some O) = ([], l').
Proof. destruct l; cbn; eauto. Qed.

Lemma read_pid_live m pid out e q0 c p x : good_marker m (pid_text pid out) -> newline_ended out -> 0 <= e -> 0 <= pid ->
  shell_shows m (pid_text pid out) e q0 -> IInv m (pid_text pid out) e q0 (0, 0) ([], []) p -> p_exit p = None ->
  Forall (prompt x) (c_passes c) -> (List.length (p_queue p) <= List.length (c_passes c))%nat ->
  (List.length (dec pid) <= 128)%nat ->
  exists p', read_pid IntSh c p = (Ok pid, p').
Proof.
  intros Hm Ho He Hp Hq Hi Ex Hps Hlen Hd. pose proof (pid_ended pid out Ho) as HT.
  destruct (prompt_intsh m _ e q0 (0, 0) ([], []) x (Some 1%nat, Some O) (c_passes c) Hm HT He Hq p Hi Hps Hlen)
    as (p1 & E1 & Hi1 & Hend).
  assert (Hne : exists line ls, fst (p_out p1) = line :: ls).
  { destruct (fst (p_out p1)) as [|line ls] eqn:Eo; [exfalso|eauto].
    destruct Hend as [Hend|Hend].
    - unfold have_enough_lines in Hend. rewrite Eo in Hend. discriminate.
    - destruct (ii_out _ _ _ _ _ _ _ Hi1) as (c2 & _ & [(_ & G & _)|(_ & _ & _ & G)]); [apply G; rewrite Hend; reflexivity|].
      unfold held in G. cbn [get2 fst concat app] in G. rewrite Eo in G. cbn [concat app] in G.
      pose proof (ii_clean _ _ _ _ _ _ _ Hi1 SOut NL) as Hcl. cbn [get2] in Hcl. apply Hcl; [|now left].
      rewrite G. unfold pid_text. rewrite in_app_iff. right. now left. }
  destruct Hne as (line & ls & Eo).
  unfold read_pid, wait. cbn [c_lines c_first c_last c_passes c_capture c_zero].
  replace (process_is_done (c_first c) p) with false by (unfold process_is_done; rewrite Ex; destruct (nonemptyb (p_ll p)); reflexivity).
  unfold wait_loop. cbn [c_lines c_passes c_capture c_zero]. rewrite E1.
  destruct (get_lines_to_return (Some 1%nat, Some O) p1) as [output p2] eqn:E2.
  pose proof (i_return_inv _ _ _ _ _ _ _ _ _ _ Hi1 E2) as Hi2. rewrite nil_app2 in Hi2.
  assert (Hout : output = ([line], [])).
  { unfold get_lines_to_return in E2. cbn [fst snd] in E2. rewrite Eo in E2.
    destruct (return_one line ls) as (l1 & R1). destruct (return_zero (snd (p_out p1))) as (l2 & R2).
    rewrite R1, R2 in E2. congruence. }
  subst output. cbn [fst snd].
  pose proof (ii_cnt _ _ _ _ _ _ _ Hi2 SOut) as Hcnt. cbn [get2 fst] in Hcnt. rewrite app_length in Hcnt. cbn [List.length] in Hcnt.
  replace (fst (p_cnt p2) =? 0) with false by lia. rewrite andb_false_r. cbn [andb].
  pose proof (pid_line _ _ _ _ _ _ _ _ Hp Hi2) as ->. rewrite (strip_pid pid Hp), pid_value.
  destruct (Nat.ltb_spec 128 (List.length (dec pid))); [lia|]. eauto.
Qed.

Lemma i_succeeds_l m pid out e q p0 c c2 x :
  good_marker m (pid_text pid out) -> newline_ended out -> 0 <= e -> e <> 127 -> 0 <= pid -> (List.length (dec pid) <= 128)%nat ->
  shell_shows m (pid_text pid out) e q ->
  Forall (prompt x) (c_passes c) -> (List.length q <= List.length (c_passes c))%nat ->
  c_capture c2 = true -> c_zero c2 = false -> c_lines c2 = (None, None) -> c_first c2 = true ->
  Forall (prompt x) (c_passes c2) -> (List.length q <= List.length (c_passes c2))%nat ->
  exists p o er p', run_in_intsh m c (set_queue q p0) = (Ok pid, p) /\
    wait IntSh c2 p = (Ok (o, er, Some e), p') /\ concat o = out /\ full_lines_of (said SErr q) (concat er).
Proof.
  intros Hm Ho He Hne Hp Hd Hq Hps Hlen Hcap Hz Hl Hf1 Hps2 Hlen2. pose proof (pid_ended pid out Ho) as HT.
  assert (Hi : IInv m (pid_text pid out) e q (0, 0) ([], []) (reinit m (set_queue q p0))).
  { apply start_inv; [exact Hq|]. exists p0. reflexivity. }
  destruct (read_pid_live m pid out e q c _ x Hm Ho He Hp Hq Hi eq_refl Hps Hlen Hd) as (p & E).
  destruct (read_pid_ok _ _ _ _ _ _ _ _ _ Hm Ho He Hp Hq Hi E) as (_ & Hi1).
  assert (Hlen3 : (List.length (p_queue p) <= List.length (c_passes c2))%nat).
  { destruct (ii_past _ _ _ _ _ _ _ Hi1) as (q1 & E1). rewrite E1, app_length in Hlen2. lia. }
  destruct (prompt_intsh m _ e q (1, 0) _ x (None, None) (c_passes c2) Hm HT He Hq p Hi1 Hps2 Hlen3)
    as (p1 & E1 & Hi2 & [Hend|Hend]); [discriminate|].
  exists p.
  assert (Hw : wait IntSh c2 p = (if process_is_done (c_first c2) p then (Ok ([], [], p_exit p), p) else
     let (output, p2) := get_lines_to_return (None, None) p1 in
            if match p_exit p2 with Some 127 => true | _ => false end
               && (fst (p_cnt p2) =? 0) && (snd (p_cnt p2) =? 1)
            then (Exn ENotFound, p2)
            else (Ok (fst output, snd output,
                      if process_is_done (c_last c2) p2 then p_exit p2 else None), p2))).
  { unfold wait, wait_loop. rewrite Hl, Hz, Hcap, E1. reflexivity. }
  destruct (get_lines_to_return (None, None) p1) as [output p2] eqn:E2.
  pose proof (i_return_inv _ _ _ _ _ _ _ _ _ _ Hi2 E2) as Hi3.
  destruct (to_return_ok _ _ _ _ E2) as (Hout & Ep2).
  (* the state after a call in which the loop ran to the end *)
  assert (Hfin : forall R p', IInv m (pid_text pid out) e q (1, 0) R p' -> get2 SOut R = (dec pid ++ [NL]) :: [] ++ snd ([] : list Z, tl (get2 SOut R)) ->
    p_queue p' = [] -> p_out p' = ([], []) -> p_exit p' = Some e /\ p_ll p' = [] /\ concat (tl (get2 SOut R)) = out /\
    full_lines_of (said SErr q) (concat (get2 SErr R))).
  { intros R p' HR ER Eq Eo. pose proof (ii_out _ _ _ _ _ _ _ HR) as (c3 & _ & [(_ & G & _)|(G1 & _ & G2 & _)]);
      [exfalso; apply G; rewrite Eq; reflexivity|].
    split; [exact G1|]. split; [exact G2|].
    destruct (out_all m _ e q _ R HT p' HR (ex_intro _ e G1) Eo) as (_ & _ & G3). rewrite ER in G3.
    cbn [app snd concat] in G3. apply app_line_out in G3. split; [exact G3|].
    pose proof (ii_err _ _ _ _ _ _ _ HR) as G4. unfold held in G4. rewrite Eq, Eo in G4.
    exists (get2 SErr (p_partial p')). split; [|split].
    - rewrite <- G4. cbn [get2 snd concat app said flat_map]. rewrite app_nil_r. reflexivity.
    - apply (ii_clean _ _ _ _ _ _ _ HR).
    - apply lines_end. pose proof (ii_lines _ _ _ _ _ _ _ HR SErr) as Hlz. apply Forall_app in Hlz. apply Hlz. }
  destruct (process_is_done (c_first c2) p) eqn:Ed.
  - (* the call before had seen the end of the command already *)
    destruct (is_done_inv _ _ Ed) as ((y & Ey) & Eo & Ell).
    assert (Eq : p_queue p = []).
    { unfold process_is_done, queue_empty in Ed. rewrite Hf1 in Ed. destruct (p_queue p); [reflexivity|].
      rewrite !andb_false_r in Ed. discriminate. }
    destruct (Hfin _ p Hi1) as (G1 & G2 & G3 & G4); [reflexivity|exact Eq|exact Eo|].
    exists [], [], p. split; [exact E|]. split; [rewrite Hw, G1; reflexivity|]. split; [exact G3|exact G4].
  - assert (Eout2 : p_out p2 = ([], [])) by (apply pair_ext; intros s; destruct (Hout s) as (_ & H); destruct s; exact H).
    assert (Eq2 : p_queue p2 = []) by (rewrite Ep2; exact Hend).
    destruct (Hfin _ p2 Hi3) as (G1 & G2 & G3 & G4); [reflexivity|exact Eq2|exact Eout2|].
    rewrite G1 in Hw.
    replace (match e with 127 => true | _ => false end) with false in Hw.
    2:{ destruct e as [|[[[[[[[|[]|]|[]|]|[]|]|[]|]|[]|]|[]|]|[]|]|]; try reflexivity. congruence. }
    cbn [andb] in Hw. rewrite (done_is_done e p2) in Hw by (repeat split; assumption).
    exists (fst output), (snd output), p2. split; [exact E|]. split; [exact Hw|]. destruct output as [o er]. split; [exact G3|exact G4].
Qed.
