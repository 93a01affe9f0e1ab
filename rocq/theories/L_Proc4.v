(** Waiting for a command in the interactive shell, for every history of wait() calls: C58. *)
From Verif Require Import Base L_Base M_Text S_Text L_Text M_Proc S_Proc L_Proc L_Proc2 L_Proc3.
From Coq Require Import ZifyBool.

(** 'T': all the text the command line prints to stdout before the marker line; 'R': the lines returned
    so far; 'off': the lines that were taken off the line counters. *)
Record IInv (m T : str) (e : Z) (q0 : list item) (off : Z * Z) (R : list str * list str) (p : proc) : Prop := {
  ii_err : concat (get2 SErr R) ++ held SErr p ++ said SErr (p_queue p) = said SErr q0;
  ii_clean : clean p;
  ii_lines : forall s, Forall is_line (get2 s R ++ get2 s (p_out p));
  ii_nl : forall s, ~ In CR (said s q0) -> Forall is_nl_line (get2 s R ++ get2 s (p_out p));
  ii_cnt : forall s, get2 s (p_cnt p) = Z.of_nat (List.length (get2 s R ++ get2 s (p_out p))) - get2 s off;
  ii_marker : p_marker p = m;
  ii_past : exists q1, q0 = q1 ++ p_queue p;
  ii_out : exists c, c ++ said SOut (p_queue p) = T ++ marker_line m e /\
    (p_exit p = None /\ said SOut (p_queue p) <> [] /\
     (concat (get2 SOut R) ++ held SOut p) ++ p_ll p = c /\ suspect T c (p_ll p) (p_check p) \/
     p_exit p = Some e /\ said SOut (p_queue p) = [] /\ p_ll p = [] /\ concat (get2 SOut R) ++ held SOut p = T) }.

Lemma marker_line_nonempty m e : marker_line m e <> [].
Proof. unfold marker_line. destruct m; discriminate. Qed.

Lemma start_inv m T e q0 p : shell_shows m T e q0 -> started m q0 p -> IInv m T e q0 (0, 0) ([], []) p.
Proof.
  intros (Hs & _) (p0 & ->). split.
  - reflexivity.
  - intros [] c [].
  - intros []; constructor.
  - intros [] _; constructor.
  - intros []; reflexivity.
  - reflexivity.
  - exists []. reflexivity.
  - exists []. split; [exact Hs|]. left. split; [reflexivity|]. split; [|split; [reflexivity|]].
    + cbn [reinit p_queue set_queue]. rewrite Hs. intros E. apply app_eq_nil in E. destruct E as (_ & E).
      exact (marker_line_nonempty _ _ E).
    + split; [intros []|]. intros m' E. symmetry in E. apply app_eq_nil in E. destruct E as (_ & ->). auto.
Qed.

Section Steps.
Context (m T : str) (e : Z) (q0 : list item) (off : Z * Z) (R : list str * list str).
Hypothesis (Hm : good_marker m T) (HT : newline_ended T) (He : 0 <= e) (Hq0 : shell_shows m T e q0).

Lemma err_step p d q : IInv m T e q0 off R p -> p_queue p = Data SErr d :: q ->
  IInv m T e q0 off R (handle_queue_item SErr d true (set_queue q p)).
Proof.
  intros [Her Hcl Hl Hnl Hc Hmk (q1 & Hq) (c & Hcs & Hcase)] Eq.
  assert (Hcl' : clean (set_queue q p)) by exact Hcl.
  destruct (handle_ok SErr d (set_queue q p) Hcl') as (Hh & Hcl2 & (full & Hf & Hout & Hn & Hcnt) & Hoth & E1 & E2 & E3 & E4 & E5 & E6).
  destruct (Hoth SOut) as (O1 & O2); [discriminate|].
  assert (Hso : said SOut (p_queue p) = said SOut q) by (rewrite Eq; reflexivity).
  assert (HhO : held SOut (handle_queue_item SErr d true (set_queue q p)) = held SOut p) by (rewrite Hh; apply app_nil_r).
  split.
  - rewrite Hh, E3. cbn [p_queue set_queue]. rewrite <- Her, Eq, (said_cons SErr (Data SErr d) q), <- !app_assoc. reflexivity.
  - exact Hcl2.
  - intros s. destruct (sid_dec s SErr) as [-> |Hne]; [rewrite Hout; cbn [p_out set_queue]; rewrite app_assoc; apply Forall_app; auto|].
    rewrite (proj1 (Hoth s Hne)). apply Hl.
  - intros s Hs. destruct (sid_dec s SErr) as [-> |Hne].
    + rewrite Hout; cbn [p_out set_queue]; rewrite app_assoc; apply Forall_app. split; [auto|]. apply Hn.
      intros H. apply Hs. rewrite Hq, Eq, said_app, said_cons, !in_app_iff. right. left. cbn. now rewrite app_nil_r.
    + rewrite (proj1 (Hoth s Hne)). auto.
  - intros s. specialize (Hc s). destruct (sid_dec s SErr) as [-> |Hne].
    + rewrite Hcnt, Hout. cbn [p_out p_cnt set_queue]. rewrite Hc, !app_length. lia.
    + destruct (Hoth s Hne) as (-> & ->). exact Hc.
  - rewrite E6. exact Hmk.
  - rewrite E3. exists (q1 ++ [Data SErr d]). rewrite <- app_assoc. cbn [app p_queue set_queue]. rewrite <- Eq. exact Hq.
  - exists c. rewrite E1, E3, E4, E5, HhO. cbn [p_queue set_queue p_exit p_ll p_check]. rewrite <- Hso. auto.
Qed.

Lemma out_step p d q : IInv m T e q0 off R p -> p_queue p = Data SOut d :: q -> d <> [] ->
  IInv m T e q0 off R
    (let '(cdata, exitcode, ll, check) := watch_for_marker (p_marker p) (p_ll p) (p_check p) d in
     handle_queue_item SOut cdata true (set_exit exitcode (set_ll ll check (set_queue q p)))).
Proof.
  intros [Her Hcl Hl Hnl Hc Hmk (q1 & Hq) (c & Hcs & Hcase)] Eq Hd. rewrite Hmk.
  assert (Hsd : said SOut (p_queue p) = d ++ said SOut q) by (rewrite Eq; reflexivity).
  destruct Hcase as [(X1 & X2 & X3 & X4)|(_ & X & _)];
    [|exfalso; rewrite Hsd in X; apply app_eq_nil in X; destruct X as (X & _); now apply Hd].
  rewrite Hsd in Hcs.
  pose proof (watch_ok m T e c d (said SOut q) _ _ _ Hm HT He Hcs Hd X3 X4) as Hw.
  destruct (watch_for_marker m (p_ll p) (p_check p) d) as [[[cdata ex] ll'] check'].
  set (p1 := set_exit ex (set_ll ll' check' (set_queue q p))).
  assert (Hcl' : clean p1) by exact Hcl.
  destruct (handle_ok SOut cdata p1 Hcl') as (Hh & Hcl2 & (full & Hf & Hout & Hn & Hcnt) & Hoth & E1 & E2 & E3 & E4 & E5 & E6).
  destruct (Hoth SErr) as (O1 & O2); [discriminate|].
  assert (HhO : held SOut (handle_queue_item SOut cdata true p1) = held SOut p ++ cdata)
    by (rewrite Hh; cbn [said flat_map]; rewrite app_nil_r; reflexivity).
  assert (HhE : held SErr (handle_queue_item SOut cdata true p1) = held SErr p) by (rewrite Hh; apply app_nil_r).
  split.
  - rewrite HhE, E3. cbn [p1 p_queue set_exit set_ll set_queue]. rewrite <- Her, Eq. reflexivity.
  - exact Hcl2.
  - intros s. destruct (sid_dec s SOut) as [-> |Hne]; [rewrite Hout; cbn [p1 p_out set_exit set_ll set_queue]; rewrite app_assoc; apply Forall_app; auto|].
    rewrite (proj1 (Hoth s Hne)). apply Hl.
  - intros s Hs. destruct (sid_dec s SOut) as [-> |Hne].
    + rewrite Hout; cbn [p1 p_out set_exit set_ll set_queue]; rewrite app_assoc; apply Forall_app. split; [auto|]. apply Hn.
      intros H. apply Hs. destruct Hq0 as (-> & _). destruct Hw as [(_ & _ & _ & W)|(_ & _ & W & _)].
      * rewrite <- W, !in_app_iff. auto.
      * rewrite <- Hcs, app_assoc, <- W, !in_app_iff. auto.
    + rewrite (proj1 (Hoth s Hne)). exact (Hnl s Hs).
  - intros s. specialize (Hc s). destruct (sid_dec s SOut) as [-> |Hne].
    + rewrite Hcnt, Hout. cbn [p1 p_out p_cnt set_exit set_ll set_queue]. rewrite Hc, !app_length. lia.
    + destruct (Hoth s Hne) as (-> & ->). exact Hc.
  - rewrite E6. exact Hmk.
  - rewrite E3. exists (q1 ++ [Data SOut d]). rewrite <- app_assoc. cbn [p1 app p_queue set_exit set_ll set_queue]. rewrite <- Eq. exact Hq.
  - exists (c ++ d). rewrite E1, E3, E4, E5, HhO. cbn [p1 p_queue set_queue set_exit set_ll p_exit p_ll p_check].
    rewrite <- app_assoc. split; [exact Hcs|].
    destruct Hw as [(W1 & W2 & W3 & W4)|(W1 & W2 & W3 & W4)].
    + right. rewrite app_assoc. auto.
    + left. split; [exact W2|]. split; [exact W1|]. split; [|exact W4].
      rewrite <- W3, <- !app_assoc. reflexivity.
Qed.

Lemma items_here p i : IInv m T e q0 off R p -> In i (p_queue p) -> (forall s, i <> Closed s) /\ (forall s d, i = Data s d -> d <> []).
Proof.
  intros Hi Hin. destruct (ii_past _ _ _ _ _ _ _ Hi) as (q1 & Hq). destruct Hq0 as (_ & W1 & W2).
  assert (Hin' : In i q0) by (rewrite Hq, in_app_iff; now right).
  split; [intros s ->; exact (W1 s Hin')|intros s d ->; exact (W2 s d Hin')].
Qed.

Lemma intsh_inv zero lines ps : forall p, IInv m T e q0 off R p ->
  exists p', wait_intsh zero true lines ps p = (Ok tt, p') /\ IInv m T e q0 off R p'.
Proof.
  induction ps as [|x ps IH]; intros p Hi; cbn [wait_intsh]; [eauto|].
  destruct (have_enough_lines (p_out p) lines); [eauto|].
  destruct (match p_exit p with Some _ => queue_empty (a_seen x) p | None => false end); [eauto|].
  unfold get_next_queue_item. destruct (p_queue p) as [|i q] eqn:Eq.
  - destruct (zero || a_late x); [eauto|]. apply IH. exact Hi.
  - destruct (a_there x); [|destruct (zero || a_late x); [eauto|apply IH; exact Hi]].
    destruct (items_here p i Hi) as (A & B); [rewrite Eq; now left|].
    destruct i as [[] d|s]; [| |exfalso; now apply (A s)].
    + pose proof (out_step p d q Hi Eq (B _ _ eq_refl)) as H.
      cbn [p_marker p_ll p_check set_queue]. destruct (watch_for_marker _ _ _ _) as [[[cdata ex] ll'] check'].
      destruct (zero || a_late x); [eauto|]. apply IH. exact H.
    + pose proof (err_step p d q Hi Eq) as H. destruct (zero || a_late x); [eauto|]. apply IH. exact H.
Qed.

Lemma out_all p : IInv m T e q0 off R p -> (exists x, p_exit p = Some x) -> p_out p = ([], []) ->
  p_exit p = Some e /\ said SOut (p_queue p) = [] /\ concat (get2 SOut R) = T.
Proof.
  intros Hi (x & Ex) Eo. destruct (ii_out _ _ _ _ _ _ _ Hi) as (c & _ & [(X & _)|(X1 & X2 & _ & X3)]); [congruence|].
  split; [exact X1|]. split; [exact X2|]. unfold held in X3. rewrite Eo in X3. cbn [get2 fst concat app] in X3.
  pose proof (ii_clean _ _ _ _ _ _ _ Hi SOut) as Hcl. cbn [get2] in Hcl.
  destruct (fst (p_partial p)) as [|y t] eqn:Ep using rev_ind; [rewrite <- X3; symmetry; apply app_nil_r|].
  exfalso. clear IHt. apply (Hcl y); [rewrite in_app_iff; right; now left|].
  destruct HT as [E|(T' & E)]; rewrite E, app_assoc in X3.
  - destruct (concat (fst R) ++ t); discriminate.
  - apply app_inj_tail in X3. destruct X3 as (_ & ->). now left.
Qed.

End Steps.

Lemma i_return_inv m T e q0 off R p lines output p' : IInv m T e q0 off R p -> get_lines_to_return lines p = (output, p') ->
  IInv m T e q0 off (app2 R output) p'.
Proof.
  intros [Her Hcl Hl Hnl Hc Hmk Hp Ho] E. destruct (to_return_ok _ _ _ _ E) as (Hout & Ep).
  assert (Hs : forall s, get2 s (app2 R output) ++ get2 s (p_out p') = get2 s R ++ get2 s (p_out p)).
  { intros s. rewrite get2_app2, <- app_assoc. f_equal. symmetry. apply Hout. }
  assert (Hh : forall s, concat (get2 s (app2 R output)) ++ held s p' = concat (get2 s R) ++ held s p).
  { intros s. unfold held. rewrite Ep at 2. cbn [p_partial set_out].
    rewrite (proj1 (Hout s)), get2_app2, !concat_app, <- !app_assoc. reflexivity. }
  split.
  - rewrite <- Her, !app_assoc, Hh, Ep. reflexivity.
  - rewrite Ep. exact Hcl.
  - intros s. rewrite Hs. apply Hl.
  - intros s. rewrite Hs. apply Hnl.
  - intros s. rewrite Hs, Ep. apply Hc.
  - rewrite Ep. exact Hmk.
  - rewrite Ep. exact Hp.
  - destruct Ho as (c & H1 & H2). exists c. rewrite Hh, Ep. cbn [p_queue set_out p_exit p_ll p_check]. auto.
Qed.

Lemma is127 o : match o with Some 127 => true | _ => false end = true -> o = Some 127.
Proof.
  destruct o as [z|]; [|discriminate]. intros E.
  destruct (Z.eq_dec z 127) as [-> |Hn]; [reflexivity|exfalso].
  destruct z as [|[[[[[[[|[]|]|[]|]|[]|]|[]|]|[]|]|[]|]|[]|]|]; try discriminate; apply Hn; reflexivity.
Qed.

(** The queue only gets shorter. *)
Lemma handle_queue s d c p : p_queue (handle_queue_item s d c p) = p_queue p.
Proof. unfold handle_queue_item. destruct (extract_full_lines _). reflexivity. Qed.

Lemma intsh_queue zero cap lines ps : forall p r p', wait_intsh zero cap lines ps p = (r, p') ->
  exists q1, p_queue p = q1 ++ p_queue p'.
Proof.
  induction ps as [|x ps IH]; intros p r p' E; cbn [wait_intsh] in E; [injection E as <- <-; exists []; reflexivity|].
  destruct (have_enough_lines (p_out p) lines); [injection E as <- <-; exists []; reflexivity|].
  destruct (match p_exit p with Some _ => queue_empty (a_seen x) p | None => false end); [injection E as <- <-; exists []; reflexivity|].
  unfold get_next_queue_item in E. destruct (p_queue p) as [|i q] eqn:Eq.
  - destruct (zero || a_late x); [injection E as <- <-; rewrite Eq; exists []; reflexivity|].
    destruct (IH _ _ _ E) as (q1 & H). rewrite <- Eq. eauto.
  - destruct (a_there x).
    + assert (Hrec : forall p1, p_queue p1 = q -> (if zero || a_late x then (Ok tt, p1) else wait_intsh zero cap lines ps p1) = (r, p') ->
        exists q1, i :: q = q1 ++ p_queue p').
      { intros p1 E1 E2. destruct (zero || a_late x).
        - injection E2 as <- <-. exists [i]. rewrite E1. reflexivity.
        - destruct (IH _ _ _ E2) as (q1 & H). exists (i :: q1). rewrite <- E1, H. reflexivity. }
      destruct i as [[] d|s].
      * destruct (watch_for_marker _ _ _ _) as [[[cdata ex] ll'] check']. eapply Hrec; [|exact E]; rewrite handle_queue; reflexivity.
      * eapply Hrec; [|exact E]; rewrite handle_queue; reflexivity.
      * injection E as <- <-. exists [Closed s]. reflexivity.
    + destruct (zero || a_late x); [injection E as <- <-; rewrite Eq; exists []; reflexivity|].
      destruct (IH _ _ _ E) as (q1 & H). rewrite <- Eq. eauto.
Qed.

Lemma i_wait_queue c p r p' : wait IntSh c p = (r, p') -> exists q1, p_queue p = q1 ++ p_queue p'.
Proof.
  unfold wait, wait_loop. intros E.
  destruct (wait_intsh (c_zero c) (c_capture c) (c_lines c) (c_passes c) p) as [r1 p1] eqn:E1.
  destruct (intsh_queue _ _ _ _ _ _ _ E1) as (q1 & Hq).
  destruct (get_lines_to_return (c_lines c) p1) as [output p2] eqn:E2.
  assert (Hp2 : p_queue p2 = p_queue p1) by (destruct (to_return_ok _ _ _ _ E2) as (_ & ->); reflexivity).
  destruct (c_lines c) as [[[|n]|] [[|n2]|]]; try (injection E as <- <-; exists []; reflexivity);
    (destruct (process_is_done (c_first c) p); [injection E as <- <-; exists []; reflexivity|]);
    (destruct r1; [|injection E as <- <-; exists q1; exact Hq]);
    match type of E with context [if ?b then (Exn ENotFound, _) else _] => destruct b end; injection E as <- <-;
    exists q1; rewrite Hp2; exact Hq.
Qed.

Lemma i_waits_queue cs : forall p rs ex p', waits IntSh cs p = (rs, ex, p') -> exists q1, p_queue p = q1 ++ p_queue p'.
Proof.
  induction cs as [|c cs IH]; intros p rs ex p' E; cbn [waits] in E; [injection E as <- <- <-; exists []; reflexivity|].
  destruct (wait IntSh c p) as [[r|x] p1] eqn:Ew; destruct (i_wait_queue _ _ _ _ Ew) as (q1 & Hq).
  - destruct (waits IntSh cs p1) as [[rs1 e1] p2] eqn:E1. injection E as <- <- <-.
    destruct (IH _ _ _ _ E1) as (q2 & H2). exists (q1 ++ q2). rewrite Hq, H2, app_assoc. reflexivity.
  - injection E as <- <- <-. eauto.
Qed.

(** One wait() call. *)
Lemma i_wait_inv m T e q0 off R c p : good_marker m T -> newline_ended T -> 0 <= e -> shell_shows m T e q0 ->
  c_capture c = true -> IInv m T e q0 off R p ->
  match wait IntSh c p with
  | (Ok (o, er, x), p') =>
      IInv m T e q0 off (app2 R (o, er)) p' /\
      (forall s n, get2 s (c_lines c) = Some n -> (List.length (get2 s (o, er)) <= n)%nat) /\
      (forall v, x = Some v -> v = e /\ concat (get2 SOut (app2 R (o, er))) = T /\ said SOut (p_queue p') = [])
  | (Exn ex, p') =>
      ex = EError /\ c_lines c = (Some O, Some O) /\ p' = p \/
      ex = ENotFound /\ exists output, IInv m T e q0 off (app2 R output) p' /\ p_exit p' = Some 127 /\
        get2 SOut (p_cnt p') = 0 /\ get2 SErr (p_cnt p') = 1
  end.
Proof.
  intros Hm HT He Hq0 Hcap Hi. unfold wait.
  destruct (intsh_inv m T e q0 off R Hm HT He Hq0 (c_zero c) (c_lines c) (c_passes c) p Hi) as (p1 & El & Hi1).
  unfold wait_loop. rewrite Hcap, El.
  set (goal := fun w : res result * proc => match w with
  | (Ok (o, er, x), p') =>
      IInv m T e q0 off (app2 R (o, er)) p' /\
      (forall s n, get2 s (c_lines c) = Some n -> (List.length (get2 s (o, er)) <= n)%nat) /\
      (forall v, x = Some v -> v = e /\ concat (get2 SOut (app2 R (o, er))) = T /\ said SOut (p_queue p') = [])
  | (Exn ex, p') =>
      ex = EError /\ c_lines c = (Some O, Some O) /\ p' = p \/
      ex = ENotFound /\ exists output, IInv m T e q0 off (app2 R output) p' /\ p_exit p' = Some 127 /\
        get2 SOut (p_cnt p') = 0 /\ get2 SErr (p_cnt p') = 1
  end).
  assert (Hgo : goal (if process_is_done (c_first c) p then (Ok ([], [], p_exit p), p) else
           let (output, p2) := get_lines_to_return (c_lines c) p1 in
           if match p_exit p2 with Some 127 => true | _ => false end
              && (fst (p_cnt p2) =? 0) && (snd (p_cnt p2) =? 1)
           then (Exn ENotFound, p2)
           else (Ok (fst output, snd output,
                     if process_is_done (c_last c) p2 then p_exit p2 else None), p2))).
  { unfold goal. destruct (process_is_done (c_first c) p) eqn:Ed.
    - rewrite app2_nil. split; [exact Hi|split].
      + intros s n _. destruct s; cbn; lia.
      + intros v E. destruct (is_done_inv _ _ Ed) as (D1 & D2 & _).
        destruct (out_all m T e q0 off R HT p Hi D1 D2) as (A & B' & B). split; [congruence|auto].
    - destruct (get_lines_to_return (c_lines c) p1) as [output p2] eqn:E2.
      pose proof (i_return_inv _ _ _ _ _ _ _ _ _ _ Hi1 E2) as Hi2.
      destruct (to_return_ok _ _ _ _ E2) as (Ho & _).
      match goal with |- context [if ?b then (Exn ENotFound, _) else _] => destruct b eqn:Eb end.
      + right. split; [reflexivity|]. exists output. split; [exact Hi2|].
        apply andb_prop in Eb. destruct Eb as (Eb & E4). apply andb_prop in Eb. destruct Eb as (E5 & E3).
        split; [apply is127; exact E5|split; cbn [get2]; lia].
      + split; [|split].
        * destruct output. exact Hi2.
        * intros s n En. specialize (Ho s). rewrite En in Ho. destruct output. apply Ho.
        * intros v E. destruct (process_is_done (c_last c) p2) eqn:Ed2; [|discriminate].
          destruct (is_done_inv _ _ Ed2) as (D1 & D2 & _).
          destruct (out_all m T e q0 off _ HT p2 Hi2 D1 D2) as (A & B' & B). destruct output. split; [congruence|auto]. }
  unfold goal in Hgo. destruct (c_lines c) as [[[|n1]|] [[|n2]|]] eqn:Ec; try exact Hgo. left. auto.
Qed.

Lemma i_waits_inv m T e q0 off : good_marker m T -> newline_ended T -> 0 <= e -> shell_shows m T e q0 ->
  forall cs R p rs ex p', capturing cs -> IInv m T e q0 off R p -> waits IntSh cs p = (rs, ex, p') ->
  (exists R', IInv m T e q0 off (app2 (app2 R (all_lines rs)) R') p') /\
  (forall r x, In r rs -> snd r = Some x -> x = e /\ concat (get2 SOut R) ++ got SOut rs = T) /\
  (forall x, ex = Some x ->
     x = EError /\ (exists c, In c cs /\ c_lines c = (Some O, Some O)) \/
     x = ENotFound /\ p_exit p' = Some 127 /\ get2 SOut (p_cnt p') = 0 /\ get2 SErr (p_cnt p') = 1).
Proof.
  intros Hm HT He Hq0. induction cs as [|c cs IH]; intros R p rs ex p' Hcs Hi E; cbn [waits] in E.
  - injection E as <- <- <-. split; [|split].
    + exists ([], []). rewrite !app2_nil. exact Hi.
    + intros r x [].
    + discriminate.
  - inversion Hcs as [|? ? Hc Hcs']; subst.
    pose proof (i_wait_inv m T e q0 off R c p Hm HT He Hq0 Hc Hi) as Hw.
    destruct (wait IntSh c p) as [[[[o er] x]|x] p1] eqn:Ew.
    + destruct Hw as (Hi1 & _ & Hx). destruct (waits IntSh cs p1) as [[rs1 e1] p2] eqn:E1. injection E as <- <- <-.
      destruct (IH _ _ _ _ _ Hcs' Hi1 E1) as ((R' & A) & B & C). split; [|split].
      * exists R'. change (o, er) with (fst (o, er, x)) in A. rewrite app2_cons in A. exact A.
      * intros r v Hr Ev. 
        assert (Hgot : concat (get2 SOut R) ++ got SOut ((o, er, x) :: rs1) = concat (get2 SOut (app2 R (o, er))) ++ got SOut rs1).
        { unfold got. cbn [lines_got flat_map]. rewrite get2_app2, !concat_app, <- app_assoc. reflexivity. }
        destruct Hr as [<- |Hr].
        -- cbn [snd] in Ev. destruct (Hx v Ev) as (-> & Hall & Hend). split; [reflexivity|]. rewrite Hgot, Hall.
           (* all of 'T' was returned: the invariant leaves nothing more *)
           pose proof (ii_out _ _ _ _ _ _ _ A) as (c2 & G1 & G2).
           assert (Hpre : T ++ got SOut rs1 ++ concat (get2 SOut R') ++ held SOut p2 =
             concat (get2 SOut (app2 (app2 (app2 R (o, er)) (all_lines rs1)) R')) ++ held SOut p2).
           { rewrite !get2_app2, all_lines_get, !concat_app, <- !app_assoc. unfold got.
             rewrite <- Hall, get2_app2, concat_app, <- !app_assoc. reflexivity. }
           enough (Hnil : got SOut rs1 = []) by (rewrite Hnil; apply app_nil_r).
           destruct G2 as [(_ & G0 & _)|(_ & _ & _ & G3)].
           ++ exfalso. destruct (i_waits_queue _ _ _ _ _ E1) as (q1 & Hq). apply G0.
              rewrite Hq, said_app in Hend. apply app_eq_nil in Hend. apply Hend.
           ++ rewrite <- Hpre in G3. rewrite <- (app_nil_r T) in G3 at 2. apply app_inv_head in G3.
              apply app_eq_nil in G3. apply G3.
        -- destruct (B r v Hr Ev) as (-> & Hall). rewrite Hgot. auto.
      * intros y Ey. destruct (C y Ey) as [(C1 & c' & C2 & C3)|C1]; [|now right].
        left. split; [exact C1|]. exists c'. split; [now right|exact C3].
    + injection E as <- <- <-. destruct Hw as [(E1 & E2 & ->)|(E1 & output & Hi1 & E2 & E3 & E4)].
      * split; [|split].
        -- exists ([], []). rewrite !app2_nil. exact Hi.
        -- intros r v [].
        -- intros y Ey. injection Ey as <-. left. split; [exact E1|]. exists c. split; [now left|exact E2].
      * split; [|split].
        -- exists output. rewrite app2_nil. exact Hi1.
        -- intros r v [].
        -- intros y Ey. injection Ey as <-. right. auto.
Qed.
