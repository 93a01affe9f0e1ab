(** Commands, schedules and counterexamples for C57 and C58. *)
From Verif Require Import Base L_Base M_Text S_Text L_Text M_Proc S_Proc L_Proc L_Proc2 L_Proc3 L_Proc4 L_Proc5.
From Coq Require Import ZifyBool.

(** ** Deciding the hypotheses *)

Fixpoint items_b (open : bool * bool) (q : list item) : bool :=
  match q with
  | [] => true
  | Data s d :: q' => get2 s open && nonemptyb d && items_b open q'
  | Closed s :: q' => get2 s open && items_b (set2 s false open) q'
  end.

Lemma items_open open q i : items_b open q = true -> In i q -> get2 (of_item i) open = true.
Proof.
  revert open. induction q as [|j q IH]; intros open H Hi; [destruct Hi|]. destruct Hi as [<- |Hi]; cbn [items_b] in H.
  - destruct j; rewrite ?andb_true_iff in H; cbn [of_item]; tauto.
  - destruct j as [s d|s]; rewrite ?andb_true_iff in H; [apply IH; tauto|].
    destruct H as (_ & H). apply IH in H; [|exact Hi]. rewrite get2_set2 in H.
    destruct s, (of_item i); try exact H; discriminate.
Qed.

Lemma items_sound open q : items_b open q = true -> stream_items open q.
Proof.
  intros H. split; [|split].
  - intros i Hi. exact (items_open open q i H Hi).
  - intros s d. revert open H. induction q as [|j q IH]; intros open H Hi; [destruct Hi|]. cbn [items_b] in H.
    destruct Hi as [-> |Hi].
    + rewrite !andb_true_iff in H. destruct d; [destruct H as ((_ & H) & _); discriminate|discriminate].
    + destruct j; rewrite ?andb_true_iff in H; eapply IH; try exact Hi; apply H.
  - intros s q1 q2 ->. revert open H. induction q1 as [|j q1 IH]; intros open H i Hi E; cbn [app items_b] in H.
    + apply andb_true_iff in H. destruct H as (_ & H). pose proof (items_open _ _ _ H Hi) as G.
      rewrite E, get2_set2 in G. destruct s; discriminate.
    + destruct j; rewrite ?andb_true_iff in H; eapply IH; try exact Hi; try exact E; apply H.
Qed.

Definition closed_b (open : bool * bool) (q : list item) : bool :=
  (fst open || snd open) &&
  forallb (fun s => negb (get2 s open) || existsb (fun i => match i, s with Closed SOut, SOut | Closed SErr, SErr => true | _, _ => false end) q) [SOut; SErr].

Lemma closed_sound open q : closed_b open q = true -> all_closed open q.
Proof.
  unfold closed_b. rewrite andb_true_iff, orb_true_iff. cbn [forallb]. rewrite !andb_true_iff, !orb_true_iff, !negb_true_iff.
  intros (H & A & B & _). split; [exact H|]. intros s Hs.
  assert (G : existsb (fun i => match i, s with Closed SOut, SOut | Closed SErr, SErr => true | _, _ => false end) q = true)
    by (destruct s; [destruct A as [A|A]|destruct B as [B|B]]; congruence).
  apply existsb_exists in G. destruct G as ([? ?|[]] & G1 & G2); destruct s; try discriminate; exact G1.
Qed.

Fixpoint occurs_b (part whole : str) : bool :=
  starts_with part whole || match whole with [] => false | _ :: t => occurs_b part t end.

Lemma occurs_sound part whole : occurs_b part whole = false -> ~ occurs part whole.
Proof.
  intros H (a & b & E). revert a b E. induction whole as [|c t IH]; intros a b E; cbn [occurs_b] in H.
  - apply orb_false_iff in H. destruct H as (H & _).
    assert (G : starts_with part [] = true); [|congruence]. apply starts_with_iff.
    symmetry in E. apply app_eq_nil in E. destruct E as (_ & E). exists b. auto.
  - apply orb_false_iff in H. destruct H as (H1 & H2). destruct a as [|x a]; cbn [app] in E.
    + assert (G : starts_with part (c :: t) = true); [|congruence]. apply starts_with_iff. exists b. exact E.
    + injection E as _ E. exact (IH H2 a b E).
Qed.

Lemma shows_sound m out e q : said SOut q = out ++ marker_line m e ->
  forallb (fun i => match i with Data _ d => nonemptyb d | Closed _ => false end) q = true -> shell_shows m out e q.
Proof.
  intros H1 H2. rewrite forallb_forall in H2. split; [exact H1|]. split.
  - intros s Hi. apply H2 in Hi. discriminate.
  - intros s d Hi ->. apply H2 in Hi. discriminate.
Qed.

(** ** Nothing more comes *)

Lemma stuck_loop k c p : p_exit p = None -> p_queue p = [] -> exists r, wait_loop k c p = (r, p) .
Proof.
  intros E Q. unfold wait_loop. destruct k.
  - exists (Ok tt). f_equal. destruct (c_passes c) as [|x ps]; [reflexivity|]. cbn [wait_local].
    destruct (have_enough_lines _ _); [reflexivity|]. rewrite E. unfold get_next_queue_item. rewrite Q. reflexivity.
  - exists (Ok tt). f_equal. induction (c_passes c) as [|x ps IH]; [reflexivity|]. cbn [wait_nointsh].
    destruct (have_enough_lines _ _); [reflexivity|]. rewrite E. unfold get_next_queue_item. rewrite Q.
    destruct (c_zero c || a_late x); [reflexivity|exact IH].
  - exists (Ok tt). induction (c_passes c) as [|x ps IH]; [reflexivity|]. cbn [wait_intsh].
    destruct (have_enough_lines _ _); [reflexivity|]. rewrite E. unfold get_next_queue_item. rewrite Q.
    destruct (c_zero c || a_late x); [reflexivity|exact IH].
Qed.

Lemma stuck k cs : forall p, p_exit p = None -> p_queue p = [] -> forall rs e p', waits k cs p = (rs, e, p') ->
  forall x, ~ finished rs x.
Proof.
  induction cs as [|c cs IH]; intros p E Q rs e p' Ew x (r & Hr & Hx); cbn [waits] in Ew.
  - injection Ew as <- <- <-. destruct Hr.
  - assert (Hw : match wait k c p with
                 | (Ok r, p1) => snd r = None /\ p_exit p1 = None /\ p_queue p1 = []
                 | (Exn _, _) => True end).
    { destruct (stuck_loop k c p E Q) as (rl & El). unfold wait. rewrite El.
      destruct (get_lines_to_return (c_lines c) p) as [output p2] eqn:E2.
      destruct (to_return_ok _ _ _ _ E2) as (_ & Ep). assert (Ex2 : p_exit p2 = None) by (rewrite Ep; exact E).
      assert (Q2 : p_queue p2 = []) by (rewrite Ep; exact Q).
      destruct (c_lines c) as [[[|n]|] [[|n2]|]]; try exact I;
        (destruct (process_is_done (c_first c) p); [auto|]); (destruct rl; [|exact I]); rewrite Ex2; cbn [andb];
        (split; [destruct (process_is_done (c_last c) p2); auto|auto]). }
    destruct (wait k c p) as [[r1|ex] p1].
    + destruct Hw as (H1 & H2 & H3). destruct (waits k cs p1) as [[rs1 e1] p2] eqn:E1. injection Ew as <- <- <-.
      destruct Hr as [<- |Hr]; [congruence|]. apply (IH p1 H2 H3 _ _ _ E1 x). exists r. auto.
    + injection Ew as <- <- <-. destruct Hr.
Qed.

(** ** A process with streams of its own *)

Definition ok_pass (x : Z) : pass := Pass true true false (Some x).
Definition lf (s : string) : str := s2l s ++ [NL].
Definition wait_all (x : Z) (n : nat) : call := Call false true (None, None) true (repeat (ok_pass x) n) true.

Definition x_open : bool * bool := (true, true).
Definition x_q : list item :=
  [Data SOut (s2l "cpu"); Data SErr (lf "warning"); Data SOut (lf "0" ++ s2l "cp"); Data SOut (lf "u1");
   Closed SErr; Closed SOut].
Definition x_line_by_line : list call :=
  [Call false true (Some 1%nat, None) true (repeat (ok_pass 3) 4) true;
   Call true true (None, None) true [ok_pass 3] true; wait_all 3 6; wait_all 3 6].

(** The last line has no newline. *)
Definition x_partial : list item := [Data SOut (lf "one"); Data SOut (s2l "two"); Closed SErr; Closed SOut].

Definition differ (a b : str) : bool := negb (str_eqb a b).
Lemma differ_neq a b : differ a b = true -> a <> b.
Proof. unfold differ, str_eqb. destruct (list_eq_dec ascii_dec a b); [discriminate|auto]. Qed.

Lemma last_line_refuted_l : exists open q cs x, stream_items open q /\ all_closed open q /\ capturing cs /\
  forall k, k <> IntSh -> exists rs p', waits k cs (new_proc open q) = (rs, None, p') /\
    finished rs x /\ got SOut rs <> said SOut q.
Proof.
  exists x_open, x_partial, [wait_all 0 4], 0. split; [apply items_sound; reflexivity|].
  split; [apply closed_sound; reflexivity|]. split; [repeat constructor|].
  intros k Hk. destruct k; [| |congruence]; (eexists; eexists; split; [vm_compute; reflexivity|]);
    (split; [eexists; split; [left; reflexivity|reflexivity]|]); apply differ_neq; reflexivity.
Qed.

(** The same text in other pieces, with a "\r" in it. *)
Definition x_cr1 : list item := [Data SOut (s2l "a" ++ [CR] ++ lf "b"); Closed SErr; Closed SOut].
Definition x_cr2 : list item := [Data SOut (s2l "a" ++ [CR]); Data SOut (lf "b"); Closed SErr; Closed SOut].

Lemma lines_refuted_l : exists open q q' cs, stream_items open q /\ stream_items open q' /\ capturing cs /\
  (forall s, said s q = said s q') /\
  forall k, k <> IntSh -> exists rs rs' p p', waits k cs (new_proc open q) = (rs, None, p) /\
    waits k cs (new_proc open q') = (rs', None, p') /\ finished rs 0 /\ finished rs' 0 /\
    lines_got SOut rs <> lines_got SOut rs'.
Proof.
  exists x_open, x_cr1, x_cr2, [wait_all 0 4]. split; [apply items_sound; reflexivity|].
  split; [apply items_sound; reflexivity|]. split; [repeat constructor|]. split; [intros []; reflexivity|].
  intros k Hk. destruct k; [| |congruence]; (do 4 eexists; split; [vm_compute; reflexivity|]);
    (split; [vm_compute; reflexivity|]);
    (split; [eexists; split; [left; reflexivity|reflexivity]|]); (split; [eexists; split; [left; reflexivity|reflexivity]|]);
    intros E; apply (f_equal (@List.length str)) in E; discriminate.
Qed.

(** The process closes its streams and does not exit before the timeout of that call. *)
Definition x_slow : list call :=
  [Call false true (None, None) true [ok_pass 0; ok_pass 0; Pass true true false None] true].

Lemma status_refuted_l : exists open q cs, stream_items open q /\ all_closed open q /\ capturing cs /\
  forall k, k <> IntSh -> exists rs p, waits k cs (new_proc open q) = (rs, None, p) /\
    forall cs' rs' e p', waits k cs' p = (rs', e, p') -> forall x, ~ finished rs' x.
Proof.
  exists x_open, [Data SOut (lf "done"); Closed SOut; Closed SErr], x_slow. split; [apply items_sound; reflexivity|].
  split; [apply closed_sound; reflexivity|]. split; [repeat constructor|].
  intros k Hk. destruct k; [| |congruence]; (eexists; eexists; split; [vm_compute; reflexivity|]);
    intros cs' rs' e p'; apply stuck; reflexivity.
Qed.

(** ** The interactive shell *)

Definition x_m : str := s2l "--- 5e1f".
Definition x_out : str := lf "cpu0" ++ lf "--- not a marker".
Definition x_shell : list item :=
  [Data SOut (s2l "41"); Data SOut (s2l "7" ++ [NL] ++ s2l "cp"); Data SErr (lf "slow");
   Data SOut (lf "u0" ++ s2l "--- "); Data SOut (lf "not a marker" ++ s2l "--- 5e");
   Data SOut (s2l "1f, 1"); Data SOut (s2l "2 ---")].
Definition x_proc : proc := new_proc (true, true) [].

Lemma x_marker_ok t : occurs_b x_m t = false -> good_marker x_m t.
Proof.
  intros H. split; [|split; [discriminate|apply occurs_sound; exact H]].
  cbn. intros G. repeat destruct G as [G|G]; try discriminate. exact G.
Qed.

Lemma x_good : good_marker x_m (pid_text 417 x_out).
Proof. apply x_marker_ok. vm_compute. reflexivity. Qed.

Lemma x_shows : shell_shows x_m (pid_text 417 x_out) 12 x_shell.
Proof. apply shows_sound; vm_compute; reflexivity. Qed.

(** Output that does not end with a newline: the marker is not at the beginning of a line. *)
Definition x_hang : list item := [Data SOut (lf "7" ++ s2l "abc--- 5e1f, 0 ---")].
Definition x_lost : list item :=
  [Data SOut (lf "7"); Data SOut (s2l "a"); Data SOut (s2l "bc"); Data SOut (s2l "--- 5e1f, 0 ---")].

Definition x_start : call := wait_all 0 6.

Lemma hang_refuted_l : exists m pid out e q p0 c p, good_marker m (pid_text pid out) /\
  shell_shows m (pid_text pid out) e q /\ run_in_intsh m c (set_queue q p0) = (Ok pid, p) /\
  forall cs rs ex p', waits IntSh cs p = (rs, ex, p') -> forall x, ~ finished rs x.
Proof.
  exists x_m, 7, (s2l "abc"), 0, x_hang, x_proc, x_start. eexists.
  split; [apply x_marker_ok; vm_compute; reflexivity|]. split; [apply shows_sound; vm_compute; reflexivity|].
  split; [vm_compute; reflexivity|]. intros cs rs ex p'. apply stuck; reflexivity.
Qed.

Lemma lost_refuted_l : exists m pid out e q p0 c p cs rs p', good_marker m (pid_text pid out) /\
  shell_shows m (pid_text pid out) e q /\ capturing cs /\ run_in_intsh m c (set_queue q p0) = (Ok pid, p) /\
  waits IntSh cs p = (rs, None, p') /\ finished rs e /\ got SOut rs <> out.
Proof.
  exists x_m, 7, (s2l "abc"), 0, x_lost, x_proc, x_start. eexists. exists [wait_all 0 6]. eexists. eexists.
  split; [apply x_marker_ok; vm_compute; reflexivity|]. split; [apply shows_sound; vm_compute; reflexivity|].
  split; [repeat constructor|]. split; [vm_compute; reflexivity|]. split; [vm_compute; reflexivity|].
  split; [eexists; split; [left; reflexivity|reflexivity]|]. apply differ_neq. reflexivity.
Qed.

(** stderr that comes after the marker is found in the output of the next command. *)
Definition x_first : list item := [Data SOut (lf "7"); Data SOut (s2l "--- 5e1f, 0 ---"); Data SErr (lf "oops")].
Definition x_m2 : str := s2l "--- c0de".
Definition x_second : list item := [Data SOut (lf "8"); Data SOut (s2l "--- c0de, 0 ---")].
Definition unseen : pass := Pass false true false (Some 0).
Definition x_hasty : call := Call false true (None, None) false (repeat unseen 6) false.

Lemma stderr_refuted_l : exists m pid e q1 m' pid' e' q2 p0 c1 p1 cs1 rs1 p2 c2 p3 cs2 rs2 p4,
  good_marker m (pid_text pid []) /\ shell_shows m (pid_text pid []) e q1 /\
  good_marker m' (pid_text pid' []) /\ shell_shows m' (pid_text pid' []) e' q2 /\
  capturing cs1 /\ capturing cs2 /\
  run_in_intsh m c1 (set_queue q1 p0) = (Ok pid, p1) /\ waits IntSh cs1 p1 = (rs1, None, p2) /\ finished rs1 e /\
  run_in_intsh m' c2 (set_queue (p_queue p2 ++ q2) p2) = (Ok pid', p3) /\ waits IntSh cs2 p3 = (rs2, None, p4) /\
  finished rs2 e' /\
  said SErr q1 <> [] /\ got SErr rs1 = [] /\ said SErr q2 = [] /\ got SErr rs2 = said SErr q1.
Proof.
  exists x_m, 7, 0, x_first, x_m2, 8, 0, x_second, x_proc, x_start. eexists. exists [x_hasty]. eexists. eexists.
  exists x_start. eexists. exists [wait_all 0 6]. eexists. eexists.
  split; [apply x_marker_ok; vm_compute; reflexivity|]. split; [apply shows_sound; vm_compute; reflexivity|].
  split.
  { split; [cbn; intros G; repeat destruct G as [G|G]; try discriminate; exact G|].
    split; [discriminate|apply occurs_sound; vm_compute; reflexivity]. }
  split; [apply shows_sound; vm_compute; reflexivity|].
  split; [repeat constructor|]. split; [repeat constructor|].
  split; [vm_compute; reflexivity|]. split; [vm_compute; reflexivity|].
  split; [eexists; split; [left; reflexivity|reflexivity]|].
  split; [vm_compute; reflexivity|]. split; [vm_compute; reflexivity|].
  split; [eexists; split; [left; reflexivity|reflexivity]|].
  split; [discriminate|]. repeat split.
Qed.

(** Exit code 127: "command not found" or not, depending on when the error message comes. *)
Definition x_nf : list item := [Data SOut (lf "7"); Data SOut (s2l "--- 5e1f, 127 ---"); Data SErr (lf "sh: nope: not found")].

Lemma not_found_refuted_l : exists m pid q p0 c p c1 c2 p1 r p2,
  good_marker m (pid_text pid []) /\ shell_shows m (pid_text pid []) 127 q /\
  c_capture c1 = true /\ c_capture c2 = true /\
  run_in_intsh m c (set_queue q p0) = (Ok pid, p) /\
  wait IntSh c1 p = (Exn ENotFound, p1) /\ wait IntSh c2 p = (Ok r, p2) /\ snd r = Some 127.
Proof.
  exists x_m, 7, x_nf, x_proc, x_start. eexists. exists (wait_all 0 6), x_hasty. do 3 eexists.
  split; [apply x_marker_ok; vm_compute; reflexivity|]. split; [apply shows_sound; vm_compute; reflexivity|].
  split; [reflexivity|]. split; [reflexivity|].
  split; [vm_compute; reflexivity|]. split; [vm_compute; reflexivity|]. split; [vm_compute; reflexivity|]. reflexivity.
Qed.
