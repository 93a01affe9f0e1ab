(** The output and exit code of a process with streams of its own: proofs of C57. *)
From Verif Require Import Base L_Base M_Text M_Proc S_Proc L_Proc.
From Coq Require Import ZifyBool.

Definition result := (list str * list str * option Z)%type.

Definition all_lines (rs : list result) : list str * list str := (lines_got SOut rs, lines_got SErr rs).

Lemma all_lines_get s rs : get2 s (all_lines rs) = lines_got s rs.
Proof. destruct s; reflexivity. Qed.

Lemma app2_cons R r rs : app2 (app2 R (fst r)) (all_lines rs) = app2 R (all_lines (r :: rs)).
Proof. apply pair_ext. intros s. rewrite !get2_app2, !all_lines_get, <- app_assoc. reflexivity. Qed.

Lemma app2_nil R : app2 R ([], []) = R.
Proof. apply pair_ext. intros s. rewrite get2_app2. destruct s; cbn; rewrite app_nil_r; reflexivity. Qed.

Lemma nil_app2 R : app2 ([], []) R = R.
Proof. destruct R; reflexivity. Qed.

(** The process is finished and all of its output was returned. *)
Definition done (x : Z) (p : proc) : Prop :=
  p_exit p = Some x /\ p_out p = ([], []) /\ p_queue p = [] /\ p_ll p = [].

Lemma done_is_done x p seen : done x p -> process_is_done seen p = true.
Proof. intros (E1 & E2 & E3 & E4). unfold process_is_done, queue_empty. rewrite E1, E2, E3, E4. reflexivity. Qed.

Lemma is_done_inv seen p : process_is_done seen p = true ->
  (exists x, p_exit p = Some x) /\ p_out p = ([], []) /\ p_ll p = [].
Proof.
  unfold process_is_done. rewrite !andb_true_iff. intros (((A & B) & C) & D).
  destruct (p_exit p) as [x|]; [|discriminate]. destruct (p_out p) as [[|] [|]]; try discriminate.
  destruct (p_ll p); [|discriminate]. eauto.
Qed.

Lemma closed_empty open q0 R p : stream_items open q0 -> SInv open q0 R p -> p_open p = (false, false) -> p_queue p = [].
Proof.
  intros (W1 & _ & W3) Hi Ho. destruct Hi as [_ _ _ _ _ (q1 & Hq & Hop) _].
  destruct (p_queue p) as [|i q] eqn:Eq; [reflexivity|exfalso].
  set (s := of_item i).
  assert (Hio : get2 s open = true) by (apply W1; rewrite Hq, in_app_iff; right; now left).
  assert (Hc : In (Closed s) q1).
  { destruct (in_dec (fun a b : item => ltac:(repeat decide equality)) (Closed s) q1) as [H|H]; [exact H|exfalso].
    pose proof (proj2 (Hop s) (conj Hio H)) as E. rewrite Ho in E. destruct s; discriminate. }
  apply in_split in Hc. destruct Hc as (a & b & ->).
  apply (W3 s a (b ++ i :: q)) with (i := i).
  - rewrite Hq, <- app_assoc. reflexivity.
  - rewrite in_app_iff. right. now left.
  - reflexivity.
Qed.

Lemma waits_done k x p : done x p -> forall cs rs e p', waits k cs p = (rs, e, p') ->
  p' = p /\ Forall (eq ([], [], Some x)) rs /\ (e = None \/ e = Some EError /\ exists c, In c cs /\ c_lines c = (Some O, Some O)).
Proof.
  intros Hd. induction cs as [|c cs IH]; intros rs e p' E; cbn [waits] in E.
  - injection E as <- <- <-. auto.
  - assert (Hw : wait k c p = (Ok ([], [], Some x), p) \/ wait k c p = (Exn EError, p) /\ c_lines c = (Some O, Some O)).
    { unfold wait. rewrite (done_is_done x p _ Hd). destruct Hd as (-> & _).
      destruct (c_lines c) as [[[|n]|] [[|m]|]]; auto. }
    destruct Hw as [Hw|(Hw & Hl)]; rewrite Hw in E.
    + destruct (waits k cs p) as [[rs1 e1] p1] eqn:E1. injection E as <- <- <-.
      destruct (IH _ _ _ eq_refl) as (A & B & C). split; [exact A|]. split; [now constructor|].
      destruct C as [C|(C & c' & C1 & C2)]; [now left|]. right. split; [exact C|]. exists c'. split; [now right|exact C2].
    + injection E as <- <- <-. split; [reflexivity|]. split; [constructor|]. right. split; [reflexivity|]. exists c.
      split; [now left|exact Hl].
Qed.

(** All histories: the lines returned are those taken out, and an exit code means the end. *)
Lemma waits_inv k open q0 : k <> IntSh -> stream_items open q0 -> forall cs R p rs e p',
  capturing cs -> SInv open q0 R p -> waits k cs p = (rs, e, p') ->
  (exists R', SInv open q0 (app2 (app2 R (all_lines rs)) R') p' /\ (e <> Some ENotFound -> R' = ([], []))) /\
  (forall rs1 r rs2 x, rs = rs1 ++ r :: rs2 -> snd r = Some x ->
     done x p' /\ Forall (eq ([], [], Some x)) rs2 /\ e <> Some ENotFound) /\
  (forall ex, e = Some ex ->
     ex = EError /\ (exists c, In c cs /\ c_lines c = (Some O, Some O)) \/
     ex = ENotFound /\ p_exit p' = Some 127 /\ get2 SOut (p_cnt p') = 0 /\ get2 SErr (p_cnt p') = 1).
Proof.
  intros Hk Hw. induction cs as [|c cs IH]; intros R p rs e p' Hcs Hi E; cbn [waits] in E.
  - injection E as <- <- <-. split; [|split].
    + exists ([], []). rewrite !app2_nil. auto.
    + intros rs1 r rs2 x H. destruct rs1; discriminate.
    + discriminate.
  - inversion Hcs as [|? ? Hc Hcs']; subst.
    pose proof (wait_inv k open q0 R c p Hk Hc Hi) as Hwait.
    destruct (wait k c p) as [[[[o er] x]|ex] p1] eqn:Ew.
    + destruct Hwait as (Hi1 & Hlim & Hx).
      destruct (waits k cs p1) as [[rs1 e1] p2] eqn:E1. injection E as <- <- <-.
      destruct (IH _ _ _ _ _ Hcs' Hi1 E1) as (A & B & C). split; [|split].
      * destruct A as (R' & A & A'). exists R'. split; [|exact A'].
        change (o, er) with (fst (o, er, x)) in A. rewrite app2_cons in A. exact A.
      * intros l1 r l2 v El Ev. destruct l1 as [|r1 l1].
        -- cbn [app] in El. injection El as <- <-. cbn [snd] in Ev.
           assert (Hd : done v p1).
           { destruct (Hx v Ev) as [(D1 & D2)|(D1 & D2)]; destruct (is_done_inv _ _ D1) as (_ & D3 & D4);
               (split; [exact D2|split; [exact D3|split; [|exact D4]]]);
               apply (closed_empty open q0 _ p1 Hw Hi1), (si_exit _ _ _ _ Hi1 v D2). }
           destruct (waits_done k v p1 Hd _ _ _ _ E1) as (-> & F & G).
           split; [exact Hd|]. split; [exact F|]. destruct G as [-> |(-> & _)]; discriminate.
        -- cbn [app] in El. injection El as _ El. exact (B _ _ _ _ El Ev).
      * intros ex Ee. destruct (C ex Ee) as [(C1 & c' & C2 & C3)|C1]; [|now right].
        left. split; [exact C1|]. exists c'. split; [now right|exact C3].
    + injection E as <- <- <-. destruct Hwait as [(E1 & E2)|(E1 & output & Hi1 & E2 & E3 & E4)].
      * split; [|split].
        -- exists ([], []). split; [|reflexivity]. rewrite !app2_nil.
           unfold wait in Ew. rewrite E2 in Ew. injection Ew as _ <-. exact Hi.
        -- intros rs1 r rs2 x H. destruct rs1; discriminate.
        -- intros ex' H. injection H as <-. left. split; [exact E1|]. exists c. split; [now left|exact E2].
      * split; [|split].
        -- exists output. split; [|now rewrite E1]. rewrite app2_nil. exact Hi1.
        -- intros rs1 r rs2 x H. destruct rs1; discriminate.
        -- intros ex' H. injection H as <-. right. auto.
Qed.

Lemma lines_end l : Forall is_line l -> concat l = [] \/ exists a' c, concat l = a' ++ [c] /\ line_end c.
Proof.
  intros H. destruct l as [|x l] using rev_ind; [now left|right]. apply Forall_app in H. destruct H as (_ & H).
  inversion H as [|? ? (t & c & -> & Hc & _) _]; subst. exists (concat l ++ t), c. split; [|exact Hc].
  rewrite concat_app. cbn [concat]. rewrite app_nil_r, app_assoc. reflexivity.
Qed.

Lemma output_l k open q cs rs e p' : k <> IntSh -> stream_items open q -> capturing cs ->
  waits k cs (new_proc open q) = (rs, e, p') -> forall s,
  (exists rest, said s q = got s rs ++ rest) /\
  (forall x, finished rs x -> full_lines_of (said s q) (got s rs)).
Proof.
  intros Hk Hw Hcs E s.
  destruct (waits_inv k open q Hk Hw cs _ _ _ _ _ Hcs (new_inv open q) E) as ((R' & Hi & HR') & Hfin & Hex).
  rewrite nil_app2 in Hi. pose proof (si_text _ _ _ _ Hi s) as Ht. rewrite get2_app2, all_lines_get, concat_app in Ht.
  split.
  - exists (concat (get2 s R') ++ held s p' ++ said s (p_queue p')). rewrite <- Ht, <- app_assoc. reflexivity.
  - intros x (r & Hr & Ex). apply in_split in Hr. destruct Hr as (rs1 & rs2 & ->).
    destruct (Hfin _ _ _ _ eq_refl Ex) as ((D1 & D2 & D3 & D4) & _ & He).
    rewrite (HR' He) in *. rewrite D3 in Ht. unfold held in Ht. rewrite D2 in Ht.
    exists (get2 s (p_partial p')). split; [|split].
    + rewrite <- Ht. destruct s; cbn [get2 concat said flat_map app fst snd]; rewrite ?app_nil_r; reflexivity.
    + apply (si_clean _ _ _ _ Hi).
    + apply lines_end. pose proof (proj1 (si_lines _ _ _ _ Hi s)) as Hl.
      rewrite app2_nil, all_lines_get in Hl. apply Forall_app in Hl. apply Hl.
Qed.

Lemma lines_l k open q cs rs e p' : k <> IntSh -> stream_items open q -> capturing cs ->
  waits k cs (new_proc open q) = (rs, e, p') -> forall s,
  Forall is_line (lines_got s rs) /\ (~ In CR (said s q) -> Forall is_nl_line (lines_got s rs)).
Proof.
  intros Hk Hw Hcs E s.
  destruct (waits_inv k open q Hk Hw cs _ _ _ _ _ Hcs (new_inv open q) E) as ((R' & Hi & _) & _).
  destruct (si_lines _ _ _ _ Hi s) as (L1 & L2). rewrite nil_app2, get2_app2, all_lines_get, <- app_assoc in *.
  split.
  - apply Forall_app in L1. apply L1.
  - intros H. apply L2 in H. apply Forall_app in H. apply H.
Qed.

Lemma limits_l k open q cs rs p c o er x p' : k <> IntSh -> stream_items open q -> capturing cs -> c_capture c = true ->
  waits k cs (new_proc open q) = (rs, None, p) -> wait k c p = (Ok (o, er, x), p') ->
  (forall n, fst (c_lines c) = Some n -> (List.length o <= n)%nat) /\
  (forall n, snd (c_lines c) = Some n -> (List.length er <= n)%nat).
Proof.
  intros Hk Hw Hcs Hc E Ew.
  destruct (waits_inv k open q Hk Hw cs _ _ _ _ _ Hcs (new_inv open q) E) as ((R' & Hi & _) & _).
  pose proof (wait_inv k open q _ c p Hk Hc Hi) as H. rewrite Ew in H. destruct H as (_ & H & _).
  split; intros n En; [exact (H SOut n En)|exact (H SErr n En)].
Qed.

(** ** Where the exit code comes from *)

Lemma handle_exit s d c p : p_exit (handle_queue_item s d c p) = p_exit p.
Proof. unfold handle_queue_item. destruct (extract_full_lines _). reflexivity. Qed.

Lemma local_exit zero cap lines x ps : forall p, p_exit (wait_local zero cap lines ps p) = Some x ->
  p_exit p = Some x \/ exists a, In a ps /\ a_status a = Some x.
Proof.
  induction ps as [|a ps IH]; intros p; cbn [wait_local]; [auto|].
  destruct (have_enough_lines (p_out p) lines); [auto|].
  destruct (p_exit p) eqn:Ex; [rewrite Ex; auto|].
  assert (Hrec : forall p1, p_exit p1 = None -> p_exit (if zero || a_late a then p1 else wait_local zero cap lines ps p1) = Some x ->
    None = Some x \/ exists a0, In a0 (a :: ps) /\ a_status a0 = Some x).
  { intros p1 E1. destruct (zero || a_late a); [rewrite E1; auto|]. intros H. apply IH in H. rewrite E1 in H.
    destruct H as [H|(b & Hb & Hs)]; [now left|]. right. exists b. split; [now right|exact Hs]. }
  unfold get_next_queue_item. destruct (p_queue p) as [|[s d|s] q]; [rewrite Ex; auto| |];
    (destruct (a_there a); [|rewrite Ex; auto]).
  - apply Hrec. rewrite handle_exit. exact Ex.
  - match goal with |- context [negb (fst ?u) && negb (snd ?v)] => destruct (negb (fst u) && negb (snd v)) end.
    + cbn [p_exit set_exit]. intros H. right. exists a. split; [now left|exact H].
    + apply Hrec. exact Ex.
Qed.

Lemma nointsh_exit zero cap lines x ps : forall p, p_exit (wait_nointsh zero cap lines ps p) = Some x ->
  p_exit p = Some x \/ exists a, In a ps /\ a_status a = Some x.
Proof.
  induction ps as [|a ps IH]; intros p; cbn [wait_nointsh]; [auto|].
  destruct (have_enough_lines (p_out p) lines); [auto|].
  destruct (p_exit p) eqn:Ex; [rewrite Ex; auto|].
  assert (Hrec : forall p1, p_exit p1 = None -> p_exit (if zero || a_late a then p1 else wait_nointsh zero cap lines ps p1) = Some x ->
    None = Some x \/ exists a0, In a0 (a :: ps) /\ a_status a0 = Some x).
  { intros p1 E1. destruct (zero || a_late a); [rewrite E1; auto|]. intros H. apply IH in H. rewrite E1 in H.
    destruct H as [H|(b & Hb & Hs)]; [now left|]. right. exists b. split; [now right|exact Hs]. }
  unfold get_next_queue_item. destruct (p_queue p) as [|[s d|s] q]; [apply Hrec; exact Ex| |];
    (destruct (a_there a); [|apply Hrec; exact Ex]).
  - apply Hrec. rewrite handle_exit. exact Ex.
  - match goal with |- context [negb (fst ?u) && negb (snd ?v)] => destruct (negb (fst u) && negb (snd v)) end.
    + cbn [p_exit set_exit]. intros H. right. exists a. split; [now left|exact H].
    + apply Hrec. exact Ex.
Qed.

Lemma wait_exit k c p r p' x : k <> IntSh -> wait k c p = (r, p') -> p_exit p' = Some x ->
  p_exit p = Some x \/ exists a, In a (c_passes c) /\ a_status a = Some x.
Proof.
  intros Hk. unfold wait.
  assert (Hgo : (if process_is_done (c_first c) p then (Ok ([], [], p_exit p), p)
      else match wait_loop k c p with
        | (Ok _, p1) => let (output, p2) := get_lines_to_return (c_lines c) p1 in
            if match p_exit p2 with Some 127 => true | _ => false end
               && (fst (p_cnt p2) =? 0) && (snd (p_cnt p2) =? 1)
            then (Exn ENotFound, p2)
            else (Ok (fst output, snd output, if process_is_done (c_last c) p2 then p_exit p2 else None), p2)
        | (Exn e, p1) => (Exn e, p1)
        end) = (r, p') -> p_exit p' = Some x -> p_exit p = Some x \/ exists a, In a (c_passes c) /\ a_status a = Some x).
  { destruct (process_is_done (c_first c) p); [intros E; injection E as _ <-; auto|].
    assert (Hl : forall p1, wait_loop k c p = (Ok tt, p1) -> p_exit p1 = Some x -> p_exit p = Some x \/ exists a, In a (c_passes c) /\ a_status a = Some x).
    { unfold wait_loop. intros p1 E. destruct k; [| |congruence]; injection E as <-.
      - apply local_exit.
      - apply nointsh_exit. }
    assert (Hok : exists p1, wait_loop k c p = (Ok tt, p1)) by (unfold wait_loop; destruct k; [eauto|eauto|congruence]).
    destruct Hok as (p1 & E1). specialize (Hl p1 E1). rewrite E1.
    destruct (get_lines_to_return (c_lines c) p1) as [output p2] eqn:E2.
    assert (Hp2 : p_exit p2 = p_exit p1) by (destruct (to_return_ok _ _ _ _ E2) as (_ & ->); reflexivity).
    match goal with |- context [if ?b then (Exn ENotFound, _) else _] => destruct b end;
      intros E; injection E as _ <-; rewrite Hp2; exact Hl. }
  destruct (c_lines c) as [[[|n]|] [[|m]|]]; try exact Hgo. intros E. injection E as _ <-. auto.
Qed.

Lemma waits_exit k x cs : k <> IntSh -> forall p rs e p', waits k cs p = (rs, e, p') -> p_exit p' = Some x ->
  p_exit p = Some x \/ exists c a, In c cs /\ In a (c_passes c) /\ a_status a = Some x.
Proof.
  intros Hk. induction cs as [|c cs IH]; intros p rs e p' E Hx; cbn [waits] in E.
  - injection E as <- <- <-. auto.
  - destruct (wait k c p) as [[r|ex] p1] eqn:Ew.
    + destruct (waits k cs p1) as [[rs1 e1] p2] eqn:E1. injection E as <- <- <-.
      destruct (IH _ _ _ _ E1 Hx) as [H|(c' & a & A & B & C)].
      * destruct (wait_exit _ _ _ _ _ _ Hk Ew H) as [H'|(a & A & B)]; [auto|]. right. exists c, a. split; [now left|auto].
      * right. exists c', a. split; [now right|auto].
    + injection E as <- <- <-. destruct (wait_exit _ _ _ _ _ _ Hk Ew Hx) as [H'|(a & A & B)]; [auto|].
      right. exists c, a. split; [now left|auto].
Qed.

Lemma exit_l k open q cs rs e p' x : k <> IntSh -> stream_items open q -> capturing cs ->
  waits k cs (new_proc open q) = (rs, e, p') ->
  forall rs1 r rs2, rs = rs1 ++ r :: rs2 -> snd r = Some x ->
  (exists c a, In c cs /\ In a (c_passes c) /\ a_status a = Some x) /\
  (forall s, get2 s open = true -> In (Closed s) q) /\
  Forall (eq ([], [], Some x)) rs2.
Proof.
  intros Hk Hw Hcs E rs1 r rs2 Er Ex.
  destruct (waits_inv k open q Hk Hw cs _ _ _ _ _ Hcs (new_inv open q) E) as ((R' & Hi & _) & Hfin & _).
  destruct (Hfin _ _ _ _ Er Ex) as (D & F & _).
  assert (Hp : p_exit p' = Some x) by apply D.
  split; [|split].
  - destruct (waits_exit k x cs Hk _ _ _ _ E Hp) as [H|H]; [discriminate|exact H].
  - intros s Ho. pose proof (si_exit _ _ _ _ Hi x Hp) as Hop.
    destruct (si_past _ _ _ _ Hi) as (q1 & Hq & Hiff).
    destruct (in_dec (fun a b : item => ltac:(repeat decide equality)) (Closed s) q1) as [H|H].
    + rewrite Hq, in_app_iff. now left.
    + exfalso. pose proof (proj2 (Hiff s) (conj Ho H)) as E2. rewrite Hop in E2. destruct s; discriminate.
  - exact F.
Qed.

Lemma raises_l k open q cs rs ex p' : k <> IntSh -> stream_items open q -> capturing cs ->
  waits k cs (new_proc open q) = (rs, Some ex, p') ->
  ex = EError /\ (exists c, In c cs /\ c_lines c = (Some O, Some O)) \/
  ex = ENotFound /\ (exists c a, In c cs /\ In a (c_passes c) /\ a_status a = Some 127) /\
  full_lines_of (said SOut q) [] /\ (exists l, is_line l /\ full_lines_of (said SErr q) l).
Proof.
  intros Hk Hw Hcs E.
  destruct (waits_inv k open q Hk Hw cs _ _ _ _ _ Hcs (new_inv open q) E) as ((R' & Hi & _) & _ & Hex).
  destruct (Hex ex eq_refl) as [H|(-> & Hx & C1 & C2)]; [now left|right]. split; [reflexivity|].
  split; [destruct (waits_exit k 127 cs Hk _ _ _ _ E Hx) as [H|H]; [discriminate|exact H]|].
  pose proof (closed_empty open q _ p' Hw Hi (si_exit _ _ _ _ Hi _ Hx)) as Hq.
  pose proof (si_text _ _ _ _ Hi) as Ht. rewrite Hq in Ht. unfold held in Ht.
  pose proof (si_cnt _ _ _ _ Hi) as Hc. pose proof (si_lines _ _ _ _ Hi) as Hl.
  set (R := app2 _ R') in *.
  assert (Ht' : forall s, said s q = concat (get2 s R ++ get2 s (p_out p')) ++ get2 s (p_partial p')).
  { intros s. rewrite <- (Ht s), concat_app, <- !app_assoc. cbn [said flat_map]. rewrite app_nil_r. reflexivity. }
  rewrite !Hc in *. split.
  - destruct (get2 SOut R ++ get2 SOut (p_out p')) as [|l ls] eqn:El; [|cbn [List.length] in C1; lia].
    exists (get2 SOut (p_partial p')). split; [rewrite (Ht' SOut), El; reflexivity|].
    split; [apply (si_clean _ _ _ _ Hi)|now left].
  - pose proof (proj1 (Hl SErr)) as HlE.
    destruct (get2 SErr R ++ get2 SErr (p_out p')) as [|l [|l2 ls]] eqn:El; [discriminate| |cbn [List.length] in C2; lia].
    inversion HlE as [|? ? Hline _]; subst. exists l. split; [exact Hline|].
    exists (get2 SErr (p_partial p')). split; [rewrite (Ht' SErr), El; cbn [concat]; rewrite app_nil_r; reflexivity|].
    split; [apply (si_clean _ _ _ _ Hi)|]. right. destruct Hline as (t1 & c & -> & Hc' & _). eauto.
Qed.

(** ** A prompt environment *)

Lemma enough_none o : have_enough_lines o (None, None) = false.
Proof. reflexivity. Qed.

Lemma still_open open q0 R p : all_closed open q0 -> SInv open q0 R p -> p_open p <> (false, false) -> p_queue p <> [].
Proof.
  intros (_ & Ha) Hi Ho Eq. destruct (si_past _ _ _ _ Hi) as (q1 & Hq & Hiff). rewrite Eq, app_nil_r in Hq. subst q1.
  apply Ho. apply pair_ext. intros s. destruct (get2 s (p_open p)) eqn:E; [|destruct s; reflexivity].
  apply Hiff in E. destruct E as (A & B). exfalso. apply B, Ha, A.
Qed.

Lemma open_dec (o : bool * bool) : {o = (false, false)} + {o <> (false, false)}.
Proof. destruct o as [[] []]; (left; reflexivity) || (right; discriminate). Qed.

Lemma prompt_loop (loop : bool -> bool -> limits -> list pass -> proc -> proc) open q0 R x :
  (loop = wait_local \/ loop = wait_nointsh) -> all_closed open q0 -> forall ps p, SInv open q0 R p ->
  (p_exit p = Some x \/ p_exit p = None /\ p_open p <> (false, false)) -> Forall (prompt x) ps ->
  (List.length (p_queue p) <= List.length ps)%nat -> p_exit (loop false true (None, None) ps p) = Some x.
Proof.
  intros Hloop Ha. induction ps as [|a ps IH]; intros p Hi Hp Hps Hlen.
  - assert (Hq : p_queue p = []) by (destruct (p_queue p); [reflexivity|cbn in Hlen; lia]).
    destruct Hp as [Hp|(_ & Hp)].
    + destruct Hloop as [-> | ->]; exact Hp.
    + exfalso. exact (still_open _ _ _ _ Ha Hi Hp Hq).
  - inversion Hps as [|? ? (P1 & P2 & P3 & P4) Hps']; subst.
    assert (Hgoal : p_exit p = None -> p_open p <> (false, false) -> forall it q, p_queue p = it :: q ->
      p_exit (match it with
              | Data s d => loop false true (None, None) ps (handle_queue_item s d true (set_queue q p))
              | Closed s => let p' := set_open (set2 s false (p_open p)) (set_queue q p) in
                  if negb (fst (p_open p')) && negb (snd (p_open p')) then set_exit (a_status a) p'
                  else loop false true (None, None) ps p'
              end) = Some x).
    { intros Ex Ho it q Eq. rewrite Eq in Hlen. cbn [List.length] in Hlen. destruct it as [s d|s].
      - destruct (data_inv _ _ _ _ _ _ _ Hi Eq Ex) as (Hi' & Ex'). apply IH; [exact Hi'| |exact Hps'|].
        + right. split; [exact Ex'|].
          replace (p_open (handle_queue_item s d true (set_queue q p))) with (p_open p); [exact Ho|].
          unfold handle_queue_item. destruct (extract_full_lines _). reflexivity.
        + replace (p_queue (handle_queue_item s d true (set_queue q p))) with q; [lia|].
          unfold handle_queue_item. destruct (extract_full_lines _). reflexivity.
      - pose proof (closed_inv _ _ _ _ _ _ Hi Eq Ex) as Hi'. cbn zeta.
        match goal with |- context [negb (fst ?u) && negb (snd ?v)] => destruct (negb (fst u) && negb (snd v)) eqn:Eb end.
        + exact P4.
        + apply IH; [exact Hi'| |exact Hps'|cbn [p_queue set_open set_queue]; lia].
          right. split; [exact Ex|]. intros E. rewrite E in Eb. discriminate. }
    destruct Hp as [Hp|(Hp & Ho)].
    + destruct Hloop as [-> | ->]; cbn [wait_local wait_nointsh]; rewrite enough_none, Hp; exact Hp.
    + specialize (Hgoal Hp Ho).
      destruct (p_queue p) as [|it q] eqn:Eq; [exfalso; exact (still_open _ _ _ _ Ha Hi Ho Eq)|].
      specialize (Hgoal it q eq_refl).
      destruct Hloop as [-> | ->]; cbn [wait_local wait_nointsh];
        rewrite enough_none, Hp; unfold get_next_queue_item; rewrite Eq, P2, P3; cbn [orb];
        destruct it; exact Hgoal.
Qed.

(** The status was available whenever it was asked for: closed streams mean an exit code. *)
Definition SInv2 (x : Z) (p : proc) : Prop := p_exit p = Some x \/ p_exit p = None /\ p_open p <> (false, false).

Lemma handle_open s d c p : p_open (handle_queue_item s d c p) = p_open p.
Proof. unfold handle_queue_item. destruct (extract_full_lines _). reflexivity. Qed.

Lemma loop_known (loop : bool -> bool -> limits -> list pass -> proc -> proc) zero cap lines x :
  (loop = wait_local \/ loop = wait_nointsh) -> forall ps p, SInv2 x p -> Forall (fun a => a_status a = Some x) ps ->
  SInv2 x (loop zero cap lines ps p).
Proof.
  intros Hloop. induction ps as [|a ps IH]; intros p Hp Hps.
  - destruct Hloop as [-> | ->]; exact Hp.
  - inversion Hps as [|? ? P4 Hps']; subst.
    assert (Hcont : forall p1, SInv2 x p1 -> SInv2 x (if zero || a_late a then p1 else loop zero cap lines ps p1)).
    { intros p1 H1. destruct (zero || a_late a); [exact H1|]. apply IH; assumption. }
    assert (Hgoal : p_exit p = None -> p_open p <> (false, false) -> forall it q,
      SInv2 x (match it with
              | Data s d => let p' := handle_queue_item s d cap (set_queue q p) in
                  if zero || a_late a then p' else loop zero cap lines ps p'
              | Closed s => let p' := set_open (set2 s false (p_open p)) (set_queue q p) in
                  if negb (fst (p_open p')) && negb (snd (p_open p')) then set_exit (a_status a) p'
                  else if zero || a_late a then p' else loop zero cap lines ps p'
              end)).
    { intros Ex Ho it q. destruct it as [s d|s]; cbn zeta.
      - apply Hcont. right. rewrite handle_exit, handle_open. auto.
      - match goal with |- context [negb (fst ?u) && negb (snd ?v)] => destruct (negb (fst u) && negb (snd v)) eqn:Eb end.
        + left. exact P4.
        + apply Hcont. right. split; [exact Ex|]. intros E. rewrite E in Eb. discriminate. }
    destruct Hp as [Hp|(Hp & Ho)].
    + destruct Hloop as [-> | ->]; cbn [wait_local wait_nointsh]; rewrite Hp;
        destruct (have_enough_lines (p_out p) lines); left; exact Hp.
    + specialize (Hgoal Hp Ho).
      destruct Hloop as [-> | ->]; cbn [wait_local wait_nointsh]; rewrite Hp;
        (destruct (have_enough_lines (p_out p) lines); [right; auto|]);
        unfold get_next_queue_item;
        (destruct (p_queue p) as [|it q]; [solve [right; auto | apply Hcont; right; auto]|]);
        (destruct (a_there a); [|solve [right; auto | apply Hcont; right; auto]]); specialize (Hgoal it q); destruct it; exact Hgoal.
Qed.

Lemma wait_known k c p r p' x : k <> IntSh -> wait k c p = (r, p') -> SInv2 x p ->
  Forall (fun a => a_status a = Some x) (c_passes c) -> SInv2 x p'.
Proof.
  intros Hk Ew Hp Hps. unfold wait in Ew.
  assert (Hok : exists p1, wait_loop k c p = (Ok tt, p1) /\ SInv2 x p1).
  { unfold wait_loop. destruct k; [| |congruence]; (eexists; split; [reflexivity|]).
    - apply (loop_known wait_local); auto.
    - apply (loop_known wait_nointsh); auto. }
  destruct Hok as (p1 & E1 & H1). rewrite E1 in Ew.
  destruct (get_lines_to_return (c_lines c) p1) as [output p2] eqn:E2.
  assert (Hp2 : SInv2 x p2) by (destruct (to_return_ok _ _ _ _ E2) as (_ & ->); exact H1).
  destruct (c_lines c) as [[[|n]|] [[|m]|]]; try (injection Ew as _ <-; exact Hp);
    (destruct (process_is_done (c_first c) p); [injection Ew as _ <-; exact Hp|]);
    match type of Ew with context [if ?b then (Exn ENotFound, _) else _] => destruct b end; injection Ew as _ <-; exact Hp2.
Qed.

Lemma waits_known k x cs : k <> IntSh -> forall p rs e p', waits k cs p = (rs, e, p') -> SInv2 x p ->
  (forall c a, In c cs -> In a (c_passes c) -> a_status a = Some x) -> SInv2 x p'.
Proof.
  intros Hk. induction cs as [|c cs IH]; intros p rs e p' E Hp Hst; cbn [waits] in E.
  - injection E as <- <- <-. exact Hp.
  - assert (Hc : Forall (fun a => a_status a = Some x) (c_passes c)).
    { apply Forall_forall. intros a Ha. apply (Hst c a); [now left|exact Ha]. }
    destruct (wait k c p) as [[r|ex] p1] eqn:Ew; pose proof (wait_known _ _ _ _ _ _ Hk Ew Hp Hc) as H1.
    + destruct (waits k cs p1) as [[rs1 e1] p2] eqn:E1. injection E as <- <- <-.
      apply (IH _ _ _ _ E1 H1). intros c' a Hc' Ha. apply (Hst c' a); [now right|exact Ha].
    + injection E as <- <- <-. exact H1.
Qed.

Lemma succeeds_l k open q cs rs p c x : k <> IntSh -> stream_items open q -> all_closed open q -> capturing cs ->
  waits k cs (new_proc open q) = (rs, None, p) ->
  (forall c' a, In c' cs -> In a (c_passes c') -> a_status a = Some x) ->
  c_capture c = true -> c_zero c = false -> c_lines c = (None, None) -> Forall (prompt x) (c_passes c) ->
  (List.length q <= List.length (c_passes c))%nat -> x <> 127 ->
  exists o er p', wait k c p = (Ok (o, er, Some x), p').
Proof.
  intros Hk Hw Ha Hcs E Hst Hcap Hz Hl Hps Hlen Hx.
  destruct (waits_inv k open q Hk Hw cs _ _ _ _ _ Hcs (new_inv open q) E) as ((R' & Hi & _) & _).
  set (R := app2 _ R') in *.
  assert (Hk2 : SInv2 x p).
  { apply (waits_known k x cs Hk _ _ _ _ E); [|exact Hst]. right. split; [reflexivity|].
    cbn [p_open new_proc]. destruct Ha as ([H|H] & _); destruct open as [[] []]; cbn in H; congruence. }
  assert (Hq : (List.length (p_queue p) <= List.length (c_passes c))%nat).
  { destruct (si_past _ _ _ _ Hi) as (q1 & -> & _). rewrite app_length in Hlen. lia. }
  assert (Hok : exists p1, wait_loop k c p = (Ok tt, p1) /\ SInv open q R p1 /\ p_exit p1 = Some x).
  { unfold wait_loop. rewrite Hz, Hcap, Hl. destruct k; [| |congruence]; (eexists; split; [reflexivity|]).
    - split; [apply wait_local_inv; exact Hi|]. eapply (prompt_loop wait_local); eauto.
    - split; [apply wait_nointsh_inv; exact Hi|]. eapply (prompt_loop wait_nointsh); eauto. }
  destruct Hok as (p1 & E1 & Hi1 & Ex1). unfold wait. rewrite E1, Hl.
  destruct (process_is_done (c_first c) p) eqn:Ed.
  - destruct (is_done_inv _ _ Ed) as ((y & Ey) & _). destruct Hk2 as [Hk2|(Hk2 & _)]; [|congruence].
    rewrite Hk2. eauto.
  - destruct (get_lines_to_return (None, None) p1) as [output p2] eqn:E2.
    pose proof (return_inv _ _ _ _ _ _ _ Hi1 E2) as Hi2.
    destruct (to_return_ok _ _ _ _ E2) as (Ho & Ep2).
    assert (Ex2 : p_exit p2 = Some x) by (rewrite Ep2; exact Ex1).
    assert (Hd : done x p2).
    { split; [exact Ex2|]. split; [|split].
      - apply pair_ext. intros s. destruct (Ho s) as (_ & H). destruct s; exact H.
      - apply (closed_empty open q _ p2 Hw Hi2), (si_exit _ _ _ _ Hi2 x Ex2).
      - apply (si_ll _ _ _ _ Hi2). }
    rewrite (done_is_done x p2 _ Hd), Ex2.
    replace (match x with 127 => true | _ => false end) with false; [cbn [andb]; eauto|].
    destruct x as [|[[[[[[[|[]|]|[]|]|[]|]|[]|]|[]|]|[]|]|[]|]|]; try reflexivity. congruence.
Qed.
