(** Lemmas for C57, C58: waiting without capturing, and a shell that goes away. *)
From Coq Require Import Ascii String.
From Verif Require Import Base M_Text M_Proc S_Proc L_Proc L_Proc2 L_Proc3 L_Proc4.

(** ** Nothing is captured *)
Definition silent (p : proc) : Prop := p_out p = ([], []).

Lemma handle_silent s d p : silent p -> silent (handle_queue_item s d false p).
Proof. unfold silent, handle_queue_item. destruct (extract_full_lines _). auto. Qed.

Lemma next_silent t p i p' : get_next_queue_item t p = (i, p') -> silent p -> silent p'.
Proof. unfold get_next_queue_item. destruct (p_queue p); [|destruct t]; intros [= _ <-]; auto. Qed.

Lemma local_silent zero lines ps : forall p, silent p -> silent (wait_local zero false lines ps p).
Proof.
  induction ps as [|x ps IH]; intros p H; cbn [wait_local]; [exact H|]. destruct (have_enough_lines _ _); [exact H|]. destruct (p_exit p); [exact H|].
  destruct (get_next_queue_item (a_there x) p) as [[[s d|s]|] p1] eqn:E; apply next_silent in E; try exact H; try exact E.
  - destruct (zero || a_late x); [|apply IH]; now apply handle_silent.
  - cbv zeta. destruct (negb _ && negb _); [exact E|]. destruct (zero || a_late x); [exact E|]. apply IH. exact E.
Qed.

Lemma nointsh_silent zero lines ps : forall p, silent p -> silent (wait_nointsh zero false lines ps p).
Proof.
  induction ps as [|x ps IH]; intros p H; cbn [wait_nointsh]; [exact H|]. destruct (have_enough_lines _ _); [exact H|]. destruct (p_exit p); [exact H|].
  destruct (get_next_queue_item (a_there x) p) as [[[s d|s]|] p1] eqn:E; apply next_silent in E; try exact H.
  - destruct (zero || a_late x); [|apply IH]; now apply handle_silent.
  - cbv zeta. destruct (negb _ && negb _); [exact E|]. destruct (zero || a_late x); [exact E|]. apply IH. exact E.
  - destruct (zero || a_late x); [exact E|]. now apply IH.
Qed.

Lemma intsh_silent zero lines ps : forall p, silent p -> silent (snd (wait_intsh zero false lines ps p)).
Proof.
  induction ps as [|x ps IH]; intros p H; cbn [wait_intsh]; [exact H|]. destruct (have_enough_lines _ _); [exact H|].
  destruct (match p_exit p with Some _ => queue_empty (a_seen x) p | None => false end); [exact H|].
  destruct (get_next_queue_item (a_there x) p) as [[[s d|s]|] p1] eqn:E; apply next_silent in E; try exact H; try exact E.
  - cbv zeta. match goal with |- context [if _ then (Ok tt, ?q) else _] => assert (silent q) as Hq end.
    { destruct s; [|now apply handle_silent]. destruct (watch_for_marker _ _ _ _) as [[[cd ex] ll] ck]. apply handle_silent. exact E. }
    destruct (zero || a_late x); [exact Hq|]. now apply IH.
  - cbv zeta. destruct (zero || a_late x); [exact E|]. now apply IH.
Qed.

Lemma wait_silent k c p r p' : c_capture c = false -> silent p -> wait k c p = (r, p') ->
  silent p' /\ forall o er x, r = Ok (o, er, x) -> o = [] /\ er = [].
Proof.
  intros Hc H E. unfold wait in E.
  assert (forall p1 out p2, silent p1 -> get_lines_to_return (c_lines c) p1 = (out, p2) -> out = ([], []) /\ silent p2) as G.
  { intros p1 out p2 H1. unfold get_lines_to_return. rewrite H1. cbn [fst snd]. unfold lines_to_return1.
    assert (forall n, Nat.leb (List.length (@nil str)) n = true) as L by reflexivity.
    destruct (fst (c_lines c)), (snd (c_lines c)); rewrite ?L; intros [= <- <-]; split; reflexivity. }
  assert (forall r p', match wait_loop k c p with
      | (Exn e, p1) => (Exn e, p1)
      | (Ok _, p1) =>
          let (output, p2) := get_lines_to_return (c_lines c) p1 in
          if match p_exit p2 with Some 127 => true | _ => false end && (fst (p_cnt p2) =? 0) && (snd (p_cnt p2) =? 1)
          then (Exn ENotFound, p2) else (Ok (fst output, snd output, if process_is_done (c_last c) p2 then p_exit p2 else None), p2) end = (r, p') ->
      silent p' /\ forall o er x, r = Ok (o, er, x) -> o = [] /\ er = []) as W.
  { clear r p' E. intros r p' E.
    assert (silent (snd (wait_loop k c p))) as HS.
    { unfold wait_loop. rewrite Hc. destruct k; cbn [snd]; [now apply local_silent|now apply nointsh_silent|now apply intsh_silent]. }
    destruct (wait_loop k c p) as [[[]|e] p1]; cbn [snd] in HS.
    - destruct (get_lines_to_return (c_lines c) p1) as [out p2] eqn:EG. destruct (G _ _ _ HS EG) as (-> & H2).
      destruct (_ && _ && _); injection E as <- <-; (split; [exact H2|]); intros o er x; [discriminate|]. intros [= <- <- _]. auto.
    - injection E as <- <-. split; [exact HS|]. discriminate. }
  destruct (c_lines c) as [[[|a]|] [[|b]|]] eqn:EL;
    try (injection E as <- <-; split; [exact H|discriminate]);
    (destruct (process_is_done (c_first c) p); [injection E as <- <-; split; [exact H|]; intros o er x [= <- <- _]; auto|apply W; exact E]).
Qed.

Lemma no_capture_l k open q cs rs e p' : Forall (fun c => c_capture c = false) cs -> waits k cs (new_proc open q) = (rs, e, p') ->
  Forall (fun r => fst r = ([], [])) rs.
Proof.
  assert (silent (new_proc open q)) as H by reflexivity. revert H. generalize (new_proc open q) as p. revert rs e p'.
  induction cs as [|c cs IH]; intros rs e p' p H F E; cbn [waits] in E; [injection E as <- _ _; constructor|].
  inversion F as [|? ? Hc F']; subst. destruct (wait k c p) as [[[[o er] x]|ex] p1] eqn:Ew; destruct (wait_silent _ _ _ _ _ Hc H Ew) as (H1 & R).
  - destruct (waits k cs p1) as [[rs1 e1] p2] eqn:E1. injection E as <- <- <-. destruct (R _ _ _ eq_refl) as (-> & ->). constructor; [reflexivity|].
    exact (IH _ _ _ _ H1 F' E1).
  - injection E as <- _ _. constructor.
Qed.

(** ** The shell goes away *)
Lemma starts_occurs pre : forall l, starts_with pre l = true -> exists b, l = pre ++ b.
Proof.
  induction pre as [|a pre IH]; intros l H; [exists l; reflexivity|]. destruct l as [|b l]; [discriminate|]. cbn [starts_with] in H.
  apply andb_true_iff in H. destruct H as (H1 & H2). apply Ascii.eqb_eq in H1. subst b. destruct (IH _ H2) as (c & ->). exists c. reflexivity.
Qed.

Lemma match_occurs m ll x : match_marker m ll = Some x -> exists b, ll = m ++ b.
Proof.
  unfold match_marker. destruct (starts_with (m ++ s2l ", ") ll) eqn:E; [|discriminate]. intros _. apply starts_occurs in E. destruct E as (b & ->).
  exists (s2l ", " ++ b). now rewrite app_assoc.
Qed.

Lemma rsplit_app t : forall a b, rsplit_nl t = Some (a, b) -> t = a ++ NL :: b.
Proof.
  induction t as [|c t IH]; intros a b H; [discriminate|]. cbn [rsplit_nl] in H. destruct (rsplit_nl t) as [[a' b']|].
  - injection H as <- <-. cbn [app]. f_equal. now apply IH.
  - destruct (Ascii.eqb c NL) eqn:E; [|discriminate]. injection H as <- <-. apply Ascii.eqb_eq in E. now subst.
Qed.

(** The text kept back is the end of what was said; the exit code is there only if the marker was said. *)
Lemma watch_end m t ll ck d cd ex ll' ck' : (exists a, t = a ++ ll) -> ~ occurs m (t ++ d) -> watch_for_marker m ll ck d = (cd, ex, ll', ck') ->
  ex = None /\ exists a, t ++ d = a ++ ll'.
Proof.
  intros (a & ->) NO E. unfold watch_for_marker in E.
  destruct (match rsplit_nl d with
            | Some (a, b) => (ll ++ a ++ [NL], b, true)
            | None => let check := if nonemptyb ll then ck else true in if check then ([], ll ++ d, check) else (ll ++ d, [], check)
            end) as [[cd1 ll1] ck1] eqn:E1.
  assert (exists a1, (a ++ ll) ++ d = a1 ++ ll1) as (a1 & H1).
  { destruct (rsplit_nl d) as [[x y]|] eqn:ER.
    - injection E1 as <- <- <-. apply rsplit_app in ER. subst d. exists ((a ++ ll) ++ x ++ [NL]). now rewrite <- !app_assoc.
    - cbv zeta in E1. destruct (if nonemptyb ll then ck else true); injection E1 as <- <- <-.
      + exists a. now rewrite app_assoc.
      + exists ((a ++ ll) ++ d). now rewrite app_nil_r. }
  match type of E with match ?y with _ => _ end = _ => destruct y as [ds|] eqn:EM end.
  - exfalso. apply NO. destruct (if ck1 then _ else _); [|discriminate EM]. apply match_occurs in EM. destruct EM as (b & ->). exists a1, b. exact H1.
  - injection E as <- <- <- <-. split; [reflexivity|]. eauto.
Qed.

Lemma occurs_app m a b : occurs m a -> occurs m (a ++ b).
Proof. intros (x & y & ->). exists x, (y ++ b). now rewrite <- !app_assoc. Qed.

Lemma closed_loop m s q2 cap x : forall q1 ps t p, p_queue p = q1 ++ Closed s :: q2 -> p_exit p = None -> p_marker p = m ->
  (exists a, t = a ++ p_ll p) -> ~ occurs m (t ++ said SOut q1) -> Forall (prompt x) ps -> (List.length q1 < List.length ps)%nat ->
  exists p', wait_intsh false cap (None, None) ps p = (Exn EError, p').
Proof.
  induction q1 as [|i q1 IH]; intros ps t p Hq He Hm Ha NO HP HL; (destruct ps as [|a ps]; [cbn in HL; lia|]); inversion HP as [|? ? Hp HP']; subst;
    destruct Hp as (_ & Ht & Hl & _); cbn [wait_intsh]; rewrite He; unfold have_enough_lines; cbn [fst snd enough1 orb];
    unfold get_next_queue_item; rewrite Hq, Ht; cbn [app].
  - eauto.
  - rewrite Hl. cbn [orb]. destruct i as [[|] d|s'].
    + cbv zeta. unfold said in NO. cbn [flat_map] in NO. fold (said SOut q1) in NO.
      destruct (watch_for_marker _ _ _ d) as [[[cd ex] ll'] ck'] eqn:EW.
      destruct (watch_end _ _ _ _ _ _ _ _ _ Ha (fun H => NO (eq_ind_r (occurs _) (occurs_app _ _ (said SOut q1) H) (app_assoc _ _ _))) EW) as (-> & a' & Ea).
      apply (IH ps (t ++ d)); try exact HP'; try (unfold handle_queue_item; destruct (extract_full_lines _); reflexivity).
      * unfold handle_queue_item. destruct (extract_full_lines _). cbn. exists a'. exact Ea.
      * rewrite <- app_assoc. replace (p_marker (handle_queue_item SOut cd cap (set_exit None (set_ll ll' ck' (set_queue (q1 ++ Closed s :: q2) p))))) with (p_marker p); [exact NO|].
        unfold handle_queue_item. destruct (extract_full_lines _). reflexivity.
      * cbn in HL. lia.
    + cbv zeta. apply (IH ps t); try exact HP'; try (unfold handle_queue_item; destruct (extract_full_lines _); cbn; auto; fail).
      * exact NO.
      * cbn in HL. lia.
    + eauto.
Qed.

Lemma closed_l m q1 s q2 p c x : started m (q1 ++ Closed s :: q2) p -> ~ occurs m (said SOut q1) -> c_zero c = false -> c_lines c = (None, None) ->
  Forall (prompt x) (c_passes c) -> (List.length q1 < List.length (c_passes c))%nat -> exists p', wait IntSh c p = (Exn EError, p').
Proof.
  intros (p0 & ->) NO Hz Hl HP HL. unfold wait. rewrite Hl. unfold process_is_done. cbn [p_exit reinit p_ll]. rewrite andb_false_r. cbn [andb].
  unfold wait_loop. rewrite Hz, Hl. destruct (closed_loop m s q2 (c_capture c) x q1 (c_passes c) [] (reinit m (set_queue (q1 ++ Closed s :: q2) p0))) as (p' & ->); auto.
  - exists []. reflexivity.
  - eauto.
Qed.

(** ** What is not a PID *)
Lemma first_line2 l z d w : is_line l -> (forall c, In c d -> ~ line_end c) -> l ++ z = d ++ NL :: w -> l = d ++ [NL].
Proof.
  intros (t & c & -> & Hc & Ht). revert t Ht. induction d as [|x d IH]; intros t Ht Hd E; cbn [app] in *.
  - destruct t as [|y t]; cbn [app] in E; injection E as E1 E2.
    + subst. reflexivity.
    + exfalso. apply Ht. left. exact E1.
  - destruct t as [|y t]; cbn [app] in E.
    + exfalso. injection E as E1 _. subst c. exact (Hd x (or_introl eq_refl) Hc).
    + injection E as -> E. cbn [app]. f_equal. apply IH; [| |exact E].
      * intros H. apply Ht. now right.
      * intros c' H. apply Hd. now right.
Qed.

Lemma lstrip_last p ch : p ch = false -> forall a, exists x, lstrip_by p (a ++ [ch]) = x ++ [ch].
Proof.
  intros H. induction a as [|y a IH]; cbn [app lstrip_by].
  - rewrite H. exists []. reflexivity.
  - destruct (p y); [exact IH|]. exists (y :: a). reflexivity.
Qed.

Lemma strip_first ch r : is_space ch = false -> exists x, strip (ch :: r) = ch :: x.
Proof.
  intros H. unfold strip, strip_by. cbn [lstrip_by]. rewrite H. cbn [rev]. destruct (lstrip_last is_space ch H (rev r)) as (x & ->).
  rewrite rev_app_distr. cbn [rev app]. eauto.
Qed.

Lemma letter_no_int ch x : letter ch -> py_int0 (ch :: x) = None.
Proof.
  unfold letter. intros H. unfold py_int0. cbn [lstrip_by].
  assert (is_cspace ch = false) as ->.
  { destruct ch as [[] [] [] [] [] [] [] []]; vm_compute in H |- *; try reflexivity; exfalso; (destruct H as [(A & B)|(A & B)]; first [now apply A|now apply B]). }
  assert (Ascii.eqb ch "+" = false /\ Ascii.eqb ch "-" = false /\ Ascii.eqb ch "0" = false /\ exists d, digit_val ch = Some d /\ 10 <= d) as (-> & -> & E & d & Ed & Hd).
  { destruct ch as [[] [] [] [] [] [] [] []]; vm_compute in H |- *; try (exfalso; (destruct H as [(A & B)|(A & B)]; first [now apply A|now apply B]); fail); repeat (split; [reflexivity|]); eexists; (split; [reflexivity|discriminate]). }
  unfold int_base0. rewrite E. unfold int_digits. rewrite Ed. replace (d <? 10) with false; [reflexivity|]. symmetry. apply Z.ltb_ge. exact Hd.
Qed.

Lemma letter_no_space ch : letter ch -> is_space ch = false.
Proof. unfold letter. intros H. destruct ch as [[] [] [] [] [] [] [] []]; vm_compute in H |- *; try reflexivity; exfalso; (destruct H as [(A & B)|(A & B)]; first [now apply A|now apply B]). Qed.

Lemma bogus_l m ch t out e q p0 c r p : letter ch -> (forall x, In x t -> ~ line_end x) ->
  good_marker m (ch :: t ++ NL :: out) -> newline_ended out -> 0 <= e -> shell_shows m (ch :: t ++ NL :: out) e q ->
  run_in_intsh m c (set_queue q p0) = (r, p) -> forall v, r <> Ok v.
Proof.
  intros Hc Ht Hm Ho He Hq E v ->. unfold run_in_intsh, read_pid in E.
  set (c' := Call false true (Some 1%nat, Some O) (c_first c) (c_passes c) (c_last c)) in E.
  assert (newline_ended (ch :: t ++ NL :: out)) as HT.
  { right. destruct Ho as [-> |(o & ->)]; [exists (ch :: t); reflexivity|exists (ch :: t ++ NL :: o)]. cbn [app]. now rewrite <- app_assoc. }
  assert (started m q (reinit m (set_queue q p0))) as Hs by (now exists p0).
  pose proof (i_wait_inv m _ e q (0, 0) ([], []) c' _ Hm HT He Hq eq_refl (start_inv _ _ _ _ _ Hq Hs)) as H.
  destruct (wait IntSh c' (reinit m (set_queue q p0))) as [[[[o er] x]|x] p1]; [|discriminate E].
  destruct H as (Hi & _). rewrite nil_app2 in Hi.
  destruct o as [|line [|? ?]]; try discriminate E. destruct er; [|discriminate E].
  assert (line = (ch :: t) ++ [NL]) as ->.
  { pose proof (ii_lines _ _ _ _ _ _ _ Hi SOut) as Hl. cbn [get2 fst app] in Hl. inversion Hl as [|? ? Hline _]; subst.
    assert (forall y, In y (ch :: t) -> ~ line_end y) as Hd.
    { intros y [<- |I]; [|now apply Ht]. intros [-> | ->]; unfold letter in Hc; vm_compute in Hc; destruct Hc as [(A & B)|(A & B)]; first [now apply A|now apply B]. }
    destruct (ii_out _ _ _ _ _ _ _ Hi) as (c0 & E0 & [(_ & _ & Hc0 & _)|(_ & _ & _ & Hc0)]); cbn [get2 fst concat] in Hc0; rewrite app_nil_r in Hc0.
    - rewrite <- Hc0 in E0. rewrite <- !app_assoc in E0. eapply first_line2; [exact Hline|exact Hd|]. cbn [app] in *. rewrite <- app_assoc in E0. exact E0.
    - rewrite <- ?app_assoc in Hc0. eapply first_line2; [exact Hline|exact Hd|exact Hc0]. }
  destruct (strip_first ch (t ++ [NL]) (letter_no_space _ Hc)) as (y & Ey). cbn [app] in E. rewrite Ey, (letter_no_int ch y Hc) in E.
  destruct (Nat.ltb _ _); discriminate E.
Qed.
