(** Lines and streams: lemmas for C57 and C58. *)
From Verif Require Import Base L_Base M_Text M_Proc S_Proc.
From Coq Require Import ZifyBool.

Lemma NL_CR : NL <> CR.
Proof. discriminate. Qed.

Lemma get2_set2 {A} s s' (x : A) p : get2 s' (set2 s x p) = match s, s' with SOut, SOut | SErr, SErr => x | _, _ => get2 s' p end.
Proof. destruct s, s', p; reflexivity. Qed.

Lemma pair_ext {A} (a b : A * A) : (forall s, get2 s a = get2 s b) -> a = b.
Proof. intros H. destruct a, b. generalize (H SOut), (H SErr). cbn. congruence. Qed.

Lemma sid_dec (a b : sid) : {a = b} + {a <> b}.
Proof. destruct a, b; (left; reflexivity) || (right; discriminate). Qed.

(** ** extract_full_lines() *)

Lemma nl_lines_ok t : forall cur full rest, nl_lines cur t = (full, rest) -> ~ In NL cur ->
  concat full ++ rest = rev cur ++ t /\ ~ In NL rest /\ Forall is_nl_line full.
Proof.
  induction t as [|c t IH]; intros cur full rest H Hc; cbn [nl_lines] in H.
  - injection H as <- <-. cbn [concat app]. rewrite app_nil_r. split; [reflexivity|]. split; [|constructor].
    rewrite <- in_rev. exact Hc.
  - destruct (Ascii.eqb_spec c NL) as [-> |Hne].
    + destruct (nl_lines [] t) as [f r] eqn:E. injection H as <- <-.
      destruct (IH _ _ _ E (fun H => H)) as (Ht & Hr & Hf).
      cbn [concat rev app] in *. rewrite <- !app_assoc, Ht. cbn [app]. split; [reflexivity|]. split; [exact Hr|].
      constructor; [|exact Hf]. exists (rev cur). split; [reflexivity|]. rewrite <- in_rev. exact Hc.
    + destruct (IH _ _ _ H) as (Ht & Hr & Hf).
      * intros [E|E]; [now subst|now apply Hc].
      * rewrite Ht. cbn [rev]. rewrite <- app_assoc. auto.
Qed.

Lemma last_cr_some t a b : last_cr t = Some (a, b) -> t = a ++ b /\ ~ In CR b /\ exists a', a = a' ++ [CR].
Proof.
  revert a b. induction t as [|c t IH]; intros a b H; cbn [last_cr] in H; [discriminate|].
  destruct (last_cr t) as [[a1 b1]|] eqn:E.
  - injection H as <- <-. destruct (IH _ _ eq_refl) as (-> & Hb & a' & ->).
    split; [reflexivity|]. split; [exact Hb|]. exists (c :: a'). reflexivity.
  - destruct (Ascii.eqb_spec c CR) as [-> |]; [|discriminate]. injection H as <- <-.
    split; [reflexivity|]. split; [|exists []; reflexivity].
    clear -E. induction t as [|c t IH]; [intros []|]. cbn [last_cr] in E.
    destruct (last_cr t) as [[? ?]|]; [discriminate|].
    destruct (Ascii.eqb_spec c CR); [discriminate|]. intros [H|H]; [now subst|]. now apply IH.
Qed.

Lemma last_cr_none t : last_cr t = None -> ~ In CR t.
Proof.
  induction t as [|c t IH]; intros E; [intros []|]. cbn [last_cr] in E.
  destruct (last_cr t) as [[? ?]|]; [discriminate|].
  destruct (Ascii.eqb_spec c CR); [discriminate|]. intros [H|H]; [now subst|]. now apply IH.
Qed.

Lemma nl_line_line l : is_nl_line l -> is_line l.
Proof. intros (t & -> & H). exists t, NL. repeat split; auto. now left. Qed.

Lemma extract_ok t full rest : extract_full_lines t = (full, rest) ->
  concat full ++ rest = t /\ (forall c, In c rest -> ~ line_end c) /\ Forall is_line full /\
  (~ In CR t -> Forall is_nl_line full).
Proof.
  unfold extract_full_lines. destruct (nl_lines [] t) as [f r] eqn:E.
  destruct (nl_lines_ok _ _ _ _ E (fun H => H)) as (Ht & Hr & Hf). cbn [rev app] in Ht.
  destruct (last_cr r) as [[a b]|] eqn:Er; intros H; injection H as <- <-.
  - destruct (last_cr_some _ _ _ Er) as (-> & Hb & a' & ->).
    split; [rewrite concat_app; cbn [concat]; rewrite app_nil_r, <- app_assoc; exact Ht|].
    split; [|split].
    + intros c Hc [-> | ->]; [|now apply Hb]. apply Hr. rewrite in_app_iff. now right.
    + apply Forall_app. split; [eapply Forall_impl; [|exact Hf]; exact nl_line_line|].
      constructor; [|constructor]. exists a', CR. split; [reflexivity|]. split; [now right|].
      intros Hn. apply Hr. rewrite !in_app_iff. auto.
    + intros Hn. exfalso. apply Hn. rewrite <- Ht, !in_app_iff. right. left. right. now left.
  - split; [exact Ht|]. split; [|split].
    + intros c Hc [-> | ->]; [now apply Hr|]. now apply (last_cr_none _ Er).
    + eapply Forall_impl; [|exact Hf]; exact nl_line_line.
    + intros _. exact Hf.
Qed.

Lemma line_nonempty l : is_line l -> nonemptyb l = true.
Proof. intros (t & c & -> & _). destruct t; reflexivity. Qed.

Lemma filter_lines full : Forall is_line full -> filter nonemptyb full = full.
Proof.
  induction 1 as [|l f Hl Hf IH]; [reflexivity|]. cbn [filter]. rewrite (line_nonempty l Hl), IH. reflexivity.
Qed.

(** ** _handle_queue_item() *)

Definition held (s : sid) (p : proc) : str := concat (get2 s (p_out p)) ++ get2 s (p_partial p).

Definition clean (p : proc) : Prop := forall s c, In c (get2 s (p_partial p)) -> ~ line_end c.

Lemma handle_ok s d p : clean p ->
  let p' := handle_queue_item s d true p in
  (forall s', held s' p' = held s' p ++ said s' [Data s d]) /\ clean p' /\
  (exists full, Forall is_line full /\ get2 s (p_out p') = get2 s (p_out p) ++ full /\
     (~ In CR d -> Forall is_nl_line full) /\
     get2 s (p_cnt p') = get2 s (p_cnt p) + Z.of_nat (List.length full)) /\
  (forall s', s' <> s -> get2 s' (p_out p') = get2 s' (p_out p) /\ get2 s' (p_cnt p') = get2 s' (p_cnt p)) /\
  p_exit p' = p_exit p /\ p_open p' = p_open p /\ p_queue p' = p_queue p /\ p_ll p' = p_ll p /\
  p_check p' = p_check p /\ p_marker p' = p_marker p.
Proof.
  intros Hcl. unfold handle_queue_item.
  destruct (extract_full_lines (get2 s (p_partial p) ++ d)) as [full rest] eqn:E.
  destruct (extract_ok _ _ _ E) as (Ht & Hr & Hf & Hn). cbn zeta.
  unfold held, clean. cbn [p_out p_partial p_cnt p_exit p_open p_queue p_ll p_check p_marker].
  rewrite (filter_lines full Hf).
  split; [|split; [|split; [|split]]].
  - intros s'. rewrite !get2_set2. cbn [said flat_map].
    destruct s, s'; cbn [get2 app] in *; rewrite ?app_nil_r; try reflexivity;
      rewrite concat_app, <- !app_assoc, Ht; reflexivity.
  - intros s' c. rewrite get2_set2. destruct s, s'; try apply Hr; apply Hcl.
  - exists full. rewrite !get2_set2. split; [exact Hf|]. split; [destruct s; reflexivity|].
    split; [|destruct s; reflexivity].
    intros Hd. apply Hn. rewrite in_app_iff. intros [H|H]; [|now apply Hd].
    apply (Hcl s CR H). now right.
  - intros s' Hs. rewrite !get2_set2. destruct s, s'; try congruence; auto.
  - repeat split.
Qed.

(** ** _get_lines_to_return() *)

Lemma lines1_ok l lim a b : lines_to_return1 l lim = (a, b) ->
  l = a ++ b /\ match lim with Some n => (List.length a <= n)%nat | None => b = [] end.
Proof.
  unfold lines_to_return1. destruct lim as [n|].
  - destruct (Nat.leb_spec (List.length l) n).
    + intros E. injection E as <- <-. rewrite app_nil_r. auto.
    + intros E. injection E as <- <-. rewrite firstn_skipn. split; [reflexivity|]. rewrite firstn_length. lia.
  - intros E. injection E as <- <-. rewrite app_nil_r. auto.
Qed.

Lemma to_return_ok lines p output p' : get_lines_to_return lines p = (output, p') ->
  (forall s, get2 s (p_out p) = get2 s output ++ get2 s (p_out p') /\
     match get2 s lines with Some n => (List.length (get2 s output) <= n)%nat | None => get2 s (p_out p') = [] end) /\
  p' = set_out (p_out p') p.
Proof.
  unfold get_lines_to_return. destruct lines as [l1 l2]. cbn [fst snd].
  destruct (lines_to_return1 (fst (p_out p)) l1) as [o o'] eqn:E1.
  destruct (lines_to_return1 (snd (p_out p)) l2) as [e e'] eqn:E2.
  intros E. injection E as <- <-. split; [|reflexivity].
  intros []; cbn [get2 fst snd p_out set_out].
  - exact (lines1_ok _ _ _ _ E1).
  - exact (lines1_ok _ _ _ _ E2).
Qed.

(** ** A process with streams of its own *)

Lemma said_app s a b : said s (a ++ b) = said s a ++ said s b.
Proof. unfold said. apply flat_map_app. Qed.

Lemma said_cons s i q : said s (i :: q) = said s [i] ++ said s q.
Proof. change (i :: q) with ([i] ++ q). apply said_app. Qed.

(** 'R' are the lines returned so far. *)
Record SInv (open : bool * bool) (q0 : list item) (R : list str * list str) (p : proc) : Prop := {
  si_text : forall s, concat (get2 s R) ++ held s p ++ said s (p_queue p) = said s q0;
  si_clean : clean p;
  si_lines : forall s, Forall is_line (get2 s R ++ get2 s (p_out p)) /\
                       (~ In CR (said s q0) -> Forall is_nl_line (get2 s R ++ get2 s (p_out p)));
  si_cnt : forall s, get2 s (p_cnt p) = Z.of_nat (List.length (get2 s R ++ get2 s (p_out p)));
  si_ll : p_ll p = [];
  si_past : exists q1, q0 = q1 ++ p_queue p /\
              forall s, get2 s (p_open p) = true <-> get2 s open = true /\ ~ In (Closed s) q1;
  si_exit : forall x, p_exit p = Some x -> p_open p = (false, false) }.

Lemma new_inv open q : SInv open q ([], []) (new_proc open q).
Proof.
  split; try discriminate.
  - intros []; reflexivity.
  - intros [] c [].
  - intros []; split; constructor.
  - intros []; reflexivity.
  - reflexivity.
  - exists []. split; [reflexivity|]. intros s. split; [intros H; split; [exact H|intros []]|intros [H _]; exact H].
Qed.

Lemma data_inv open q0 R p s d q : SInv open q0 R p -> p_queue p = Data s d :: q -> p_exit p = None ->
  SInv open q0 R (handle_queue_item s d true (set_queue q p)) /\
  p_exit (handle_queue_item s d true (set_queue q p)) = None.
Proof.
  intros [Ht Hcl Hl Hc Hll (q1 & Hq & Ho) He] Eq Ex.
  assert (Hcl' : clean (set_queue q p)) by exact Hcl.
  destruct (handle_ok s d (set_queue q p) Hcl') as (Hh & Hcl2 & (full & Hf & Hout & Hn & Hcnt) & Hoth & E1 & E2 & E3 & E4 & _).
  split; [|rewrite E1; exact Ex]. split.
  - intros s'. rewrite Hh, E3. cbn [p_queue set_queue]. rewrite <- (Ht s'), Eq, (said_cons s' (Data s d) q).
    rewrite <- !app_assoc. reflexivity.
  - exact Hcl2.
  - intros s'. destruct (Hl s') as (L1 & L2).
    assert (Hd : s' = s -> ~ In CR (said s' q0) -> ~ In CR d).
    { intros -> Hni H. apply Hni. rewrite Hq, Eq, said_app, said_cons, !in_app_iff. right. left.
      destruct s; cbn; now rewrite app_nil_r. }
    destruct (sid_dec s' s) as [-> |Hne].
    + rewrite Hout. cbn [p_out set_queue]. rewrite app_assoc. split; [apply Forall_app; auto|].
      intros Hni. apply Forall_app. auto.
    + rewrite (proj1 (Hoth s' Hne)). auto.
  - intros s'. specialize (Hc s'). destruct (sid_dec s' s) as [-> |Hne].
    + rewrite Hcnt, Hout. cbn [p_out p_cnt set_queue]. rewrite Hc, !app_length. lia.
    + destruct (Hoth s' Hne) as (-> & ->). exact Hc.
  - rewrite E4. exact Hll.
  - rewrite E2, E3. cbn [p_queue p_open set_queue]. exists (q1 ++ [Data s d]).
    rewrite <- app_assoc. cbn [app]. rewrite <- Eq. split; [exact Hq|].
    intros s'. rewrite Ho, in_app_iff. cbn [In]. split; intros (A & B); (split; [exact A|]).
    + intros [H|[H|[]]]; [now apply B|discriminate].
    + intros H. apply B. now left.
  - rewrite E1, E2. exact He.
Qed.

Lemma closed_inv open q0 R p s q : SInv open q0 R p -> p_queue p = Closed s :: q -> p_exit p = None ->
  SInv open q0 R (set_open (set2 s false (p_open p)) (set_queue q p)).
Proof.
  intros [Ht Hcl Hl Hc Hll (q1 & Hq & Ho) He] Eq Ex. split; cbn [set_open set_queue p_exit p_open p_queue p_cnt p_ll]; auto.
  - intros s'. rewrite <- (Ht s'), Eq, (said_cons s' (Closed s)). destruct s, s'; reflexivity.
  - exists (q1 ++ [Closed s]). rewrite <- app_assoc. cbn [app]. rewrite <- Eq. split; [exact Hq|].
    intros s'. specialize (Ho s'). destruct (sid_dec s' s) as [-> |Hne].
    + rewrite get2_set2. split; [destruct s; discriminate|]. intros (_ & B). exfalso. apply B.
      rewrite in_app_iff. right. now left.
    + replace (get2 s' (set2 s false (p_open p))) with (get2 s' (p_open p)) by (destruct s, s', (p_open p); try reflexivity; congruence).
      rewrite Ho, in_app_iff. cbn [In]. split; intros (A & B); (split; [exact A|]).
      * intros [H|[H|[]]]; [now apply B|congruence].
      * intros H. apply B. now left.
  - rewrite Ex. discriminate.
Qed.

Lemma status_inv open q0 R p x : SInv open q0 R p -> p_open p = (false, false) -> SInv open q0 R (set_exit x p).
Proof.
  intros [Ht Hcl Hl Hc Hll Hp He] Ho. split; auto.
Qed.

Lemma both_closed (o : bool * bool) : negb (fst o) && negb (snd o) = true -> o = (false, false).
Proof. destruct o as [[] []]; cbn; congruence. Qed.

Lemma wait_local_inv open q0 R zero lines ps : forall p, SInv open q0 R p ->
  SInv open q0 R (wait_local zero true lines ps p).
Proof.
  induction ps as [|x ps IH]; intros p Hi; cbn [wait_local]; [exact Hi|].
  destruct (have_enough_lines (p_out p) lines); [exact Hi|].
  destruct (p_exit p) eqn:Ex; [exact Hi|].
  unfold get_next_queue_item. destruct (p_queue p) as [|[s d|s] q] eqn:Eq; [exact Hi| |]; (destruct (a_there x); [|exact Hi]).
  - destruct (data_inv _ _ _ _ _ _ _ Hi Eq Ex) as (Hi' & _).
    destruct (zero || a_late x); [exact Hi'|]. apply IH. exact Hi'.
  - pose proof (closed_inv _ _ _ _ _ _ Hi Eq Ex) as Hi'. cbn [p_open set_queue] in *.
    match goal with |- context [negb (fst ?a) && negb (snd ?b)] => destruct (negb (fst a) && negb (snd b)) eqn:Eb end.
    + apply status_inv; [exact Hi'|]. apply both_closed. exact Eb.
    + destruct (zero || a_late x); [exact Hi'|]. apply IH. exact Hi'.
Qed.

Lemma wait_nointsh_inv open q0 R zero lines ps : forall p, SInv open q0 R p ->
  SInv open q0 R (wait_nointsh zero true lines ps p).
Proof.
  induction ps as [|x ps IH]; intros p Hi; cbn [wait_nointsh]; [exact Hi|].
  destruct (have_enough_lines (p_out p) lines); [exact Hi|].
  destruct (p_exit p) eqn:Ex; [exact Hi|].
  unfold get_next_queue_item. destruct (p_queue p) as [|[s d|s] q] eqn:Eq.
  - destruct (zero || a_late x); auto.
  - destruct (a_there x); [|destruct (zero || a_late x); auto].
    destruct (data_inv _ _ _ _ _ _ _ Hi Eq Ex) as (Hi' & _).
    destruct (zero || a_late x); [exact Hi'|]. apply IH. exact Hi'.
  - destruct (a_there x); [|destruct (zero || a_late x); auto].
    pose proof (closed_inv _ _ _ _ _ _ Hi Eq Ex) as Hi'. cbn [p_open set_queue] in *.
    match goal with |- context [negb (fst ?a) && negb (snd ?b)] => destruct (negb (fst a) && negb (snd b)) eqn:Eb end.
    + apply status_inv; [exact Hi'|]. apply both_closed. exact Eb.
    + destruct (zero || a_late x); [exact Hi'|]. apply IH. exact Hi'.
Qed.

Definition app2 (a b : list str * list str) : list str * list str := (fst a ++ fst b, snd a ++ snd b).

Lemma get2_app2 s a b : get2 s (app2 a b) = get2 s a ++ get2 s b.
Proof. destruct s; reflexivity. Qed.

Lemma return_inv open q0 R p lines output p' : SInv open q0 R p -> get_lines_to_return lines p = (output, p') ->
  SInv open q0 (app2 R output) p'.
Proof.
  intros [Ht Hcl Hl Hc Hll Hp He] E. destruct (to_return_ok _ _ _ _ E) as (Ho & Ep).
  assert (Hs : forall s, get2 s (app2 R output) ++ get2 s (p_out p') = get2 s R ++ get2 s (p_out p)).
  { intros s. rewrite get2_app2, <- app_assoc. f_equal. symmetry. apply Ho. }
  split.
  - intros s. rewrite <- (Ht s). unfold held. rewrite Ep at 2 3. cbn [p_partial p_queue set_out].
    rewrite (proj1 (Ho s)), get2_app2, !concat_app, <- !app_assoc. reflexivity.
  - rewrite Ep. exact Hcl.
  - intros s. rewrite Hs. apply Hl.
  - intros s. rewrite Hs, Ep. apply Hc.
  - rewrite Ep. exact Hll.
  - rewrite Ep. exact Hp.
  - rewrite Ep. exact He.
Qed.

(** One wait() call. *)
Lemma wait_inv k open q0 R c p : k <> IntSh -> c_capture c = true -> SInv open q0 R p ->
  match wait k c p with
  | (Ok (o, e, x), p') =>
      SInv open q0 (app2 R (o, e)) p' /\
      (forall s n, get2 s (c_lines c) = Some n -> (List.length (get2 s (o, e)) <= n)%nat) /\
      (forall v, x = Some v -> process_is_done (c_last c) p' = true /\ p_exit p' = Some v \/
                               process_is_done (c_first c) p' = true /\ p_exit p' = Some v)
  | (Exn ex, p') =>
      ex = EError /\ c_lines c = (Some O, Some O) \/
      ex = ENotFound /\ exists output, SInv open q0 (app2 R output) p' /\ p_exit p' = Some 127 /\
        get2 SOut (p_cnt p') = 0 /\ get2 SErr (p_cnt p') = 1
  end.
Proof.
  intros Hk Hcap Hi. unfold wait.
  assert (Hl : exists p1, wait_loop k c p = (Ok tt, p1) /\ SInv open q0 R p1).
  { unfold wait_loop. rewrite Hcap. destruct k; [| |congruence]; eexists; (split; [reflexivity|]).
    - apply wait_local_inv; exact Hi.
    - apply wait_nointsh_inv; exact Hi. }
  destruct Hl as (p1 & El & Hi1). rewrite El.
  assert (Hgo :
    match (if process_is_done (c_first c) p then (Ok ([], [], p_exit p), p) else
           let (output, p2) := get_lines_to_return (c_lines c) p1 in
           if match p_exit p2 with Some 127 => true | _ => false end
              && (fst (p_cnt p2) =? 0) && (snd (p_cnt p2) =? 1)
           then (Exn ENotFound, p2)
           else (Ok (fst output, snd output,
                     if process_is_done (c_last c) p2 then p_exit p2 else None), p2)) with
    | (Ok (o, e, x), p') =>
      SInv open q0 (app2 R (o, e)) p' /\
      (forall s n, get2 s (c_lines c) = Some n -> (List.length (get2 s (o, e)) <= n)%nat) /\
      (forall v, x = Some v -> process_is_done (c_last c) p' = true /\ p_exit p' = Some v \/
                               process_is_done (c_first c) p' = true /\ p_exit p' = Some v)
    | (Exn ex, p') =>
      ex = EError /\ c_lines c = (Some O, Some O) \/
      ex = ENotFound /\ exists output, SInv open q0 (app2 R output) p' /\ p_exit p' = Some 127 /\
        get2 SOut (p_cnt p') = 0 /\ get2 SErr (p_cnt p') = 1
    end).
  { destruct (process_is_done (c_first c) p) eqn:Ed.
    - split; [|split].
      + replace (app2 R ([], [])) with R; [exact Hi|]. apply pair_ext. intros s. rewrite get2_app2.
        destruct s; cbn; rewrite app_nil_r; reflexivity.
      + intros s n _. destruct s; cbn; lia.
      + intros v E. right. auto.
    - destruct (get_lines_to_return (c_lines c) p1) as [output p2] eqn:E2.
      pose proof (return_inv _ _ _ _ _ _ _ Hi1 E2) as Hi2.
      destruct (to_return_ok _ _ _ _ E2) as (Ho & _).
      match goal with |- context [if ?b then (Exn ENotFound, _) else _] => destruct b eqn:Eb end.
      + right. split; [reflexivity|]. exists output. split; [exact Hi2|].
        apply andb_prop in Eb. destruct Eb as (Eb & E4). apply andb_prop in Eb. destruct Eb as (E5 & E3).
        split; [|split; cbn [get2]; lia].
        destruct (p_exit p2) as [z|]; [|discriminate].
        destruct (Z.eq_dec z 127) as [-> |Hn]; [reflexivity|exfalso].
        destruct z as [|[[[[[[[|[]|]|[]|]|[]|]|[]|]|[]|]|[]|]|[]|]|]; try discriminate; apply Hn; reflexivity.
      + split; [|split].
        * destruct output. exact Hi2.
        * intros s n En. specialize (Ho s). rewrite En in Ho. destruct output. apply Ho.
        * intros v E. left. destruct (process_is_done (c_last c) p2); [auto|discriminate]. }
  destruct (c_lines c) as [[[|n]|] [[|m]|]] eqn:Ec; try exact Hgo. left. auto.
Qed.
