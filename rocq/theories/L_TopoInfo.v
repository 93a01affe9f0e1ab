(** Lemmas about "pepc topology info": text, columns. *)
From Verif Require Import Base L_Base M_Text S_Text L_Text M_Osa S_Osa L_Osa M_CPUInfo S_CPUInfo M_OpTarget S_OpTarget
  M_TopoInfo S_TopoInfo.
From Coq Require Import Sorted.

(** ** Words *)
Definition stops (s : str) : Prop := match s with [] => True | c :: _ => c = " "%char end.

Lemma later_stops ws s : later_words ws s -> stops s.
Proof.
  intros H. destruct H as [|pad w ws rest Hp Hs Hw Hl]; [exact I|]. destruct pad as [|c pad]; [congruence|].
  inversion Hs; subst. reflexivity.
Qed.

Lemma word_split : forall w1 w2 r1 r2, ~ In " "%char w1 -> ~ In " "%char w2 -> stops r1 -> stops r2 ->
  w1 ++ r1 = w2 ++ r2 -> w1 = w2 /\ r1 = r2.
Proof.
  induction w1 as [|c w1 IH]; intros [|d w2] r1 r2 H1 H2 S1 S2 E; cbn [app] in E.
  - auto.
  - subst r1. cbn in S1. subst d. exfalso. apply H2. now left.
  - subst r2. cbn in S2. subst c. exfalso. apply H1. now left.
  - injection E as -> E. destruct (IH w2 r1 r2) as [-> ->]; auto; intros X; [apply H1|apply H2]; now right.
Qed.

Lemma pad_split : forall p1 p2 w1 w2 r1 r2, spaces p1 -> spaces p2 -> word w1 -> word w2 -> stops r1 -> stops r2 ->
  p1 ++ w1 ++ r1 = p2 ++ w2 ++ r2 -> w1 = w2 /\ r1 = r2.
Proof.
  induction p1 as [|c p1 IH]; intros p2 w1 w2 r1 r2 P1 P2 W1 W2 S1 S2 E.
  - destruct p2 as [|d p2]; cbn [app] in E.
    + apply word_split; auto; [apply W1|apply W2].
    + exfalso. inversion P2; subst. destruct w1 as [|x w1]; [now apply (proj1 W1)|].
      cbn [app] in E. injection E as -> E. apply (proj2 W1). now left.
  - destruct p2 as [|d p2]; cbn [app] in E.
    + exfalso. inversion P1; subst. destruct w2 as [|x w2]; [now apply (proj1 W2)|].
      cbn [app] in E. injection E as <- E. apply (proj2 W2). now left.
    + injection E as _ E. inversion P1; inversion P2; subst. eauto.
Qed.

Lemma later_unique ws1 : forall ws2 s, later_words ws1 s -> later_words ws2 s -> ws1 = ws2.
Proof.
  induction ws1 as [|w1 ws1 IH]; intros ws2 s H1 H2.
  - inversion H1; subst. inversion H2 as [|pad w ws rest Hp Hs Hw Hl E1 E2]; subst; [reflexivity|].
    destruct pad; [congruence|discriminate].
  - inversion H1 as [|pad w ws rest Hp Hs Hw Hl E1 E2]; subst.
    inversion H2 as [|pad2 w2 ws2' rest2 Hp2 Hs2 Hw2 Hl2 E1 E2].
    + destruct pad; [congruence|discriminate].
    + destruct (pad_split pad2 pad w2 w1 rest2 rest) as [-> ->]; eauto using later_stops.
      f_equal. eauto.
Qed.

Lemma reads_unique ws1 ws2 s : reads ws1 s -> reads ws2 s -> ws1 = ws2.
Proof.
  destruct ws1 as [|w1 ws1], ws2 as [|w2 ws2]; cbn [reads]; [reflexivity| | |].
  - intros -> (pad & rest & _ & Hw & _ & E). exfalso. destruct pad; [|discriminate]. destruct w2; [|discriminate].
    now apply (proj1 Hw).
  - intros (pad & rest & _ & Hw & _ & E) ->. exfalso. destruct pad; [|discriminate]. destruct w1; [|discriminate].
    now apply (proj1 Hw).
  - intros (p1 & r1 & P1 & W1 & L1 & ->) (p2 & r2 & P2 & W2 & L2 & E).
    destruct (pad_split p1 p2 w1 w2 r1 r2) as [-> ->]; eauto using later_stops.
    f_equal. eauto using later_unique.
Qed.

Lemma spaces_repeat n : spaces (repeat " "%char n).
Proof. induction n; constructor; auto. Qed.

Lemma join4_cons x t : join4 (x :: t) = x ++ concat (map (fun y => sep4 ++ y) t).
Proof.
  revert x. induction t as [|y t IH]; intros x.
  - cbn. now rewrite app_nil_r.
  - change (join4 (x :: y :: t)) with (x ++ sep4 ++ join4 (y :: t)). rewrite IH.
    cbn [map concat]. rewrite <- !app_assoc. reflexivity.
Qed.

Lemma later_more (text : col -> str) cs : forall more mws, (forall c, In c cs -> word (text c)) -> later_words mws more ->
  later_words (map text cs ++ mws)
    (concat (map (fun y => sep4 ++ y) (map (fun c => rjust (col_width c) (text c)) cs)) ++ more).
Proof.
  induction cs as [|c cs IH]; intros more mws Hw Hm; [exact Hm|].
  cbn [map concat app]. unfold rjust at 1.
  rewrite <- !app_assoc. rewrite (app_assoc sep4). constructor.
  - discriminate.
  - apply Forall_app. split; apply spaces_repeat.
  - apply Hw. now left.
  - apply IH; [intros; apply Hw; now right|exact Hm].
Qed.

Definition cols_of (ls : list level) (hy : bool) : list col := map CLvl ls ++ (if hy then [CHyb] else []).

Lemma format_reads ls hy text : (forall c, In c (cols_of ls hy) -> word (text c)) ->
  reads (map text (cols_of ls hy)) (format ls hy text).
Proof.
  intros Hw. unfold format, cols_of in *.
  assert (Hm : later_words (map text (if hy then [CHyb] else []))
                 (if hy then sep4 ++ rjust 6 (text CHyb) else [])).
  { destruct hy; [|constructor]. cbn [map]. unfold rjust. rewrite app_assoc.
    rewrite <- (app_nil_r (text CHyb)) at 3. constructor; [discriminate| | |constructor].
    - apply Forall_app. split; apply spaces_repeat.
    - apply Hw. apply in_or_app. right. now left. }
  destruct ls as [|l ls].
  - cbn [map app]. destruct hy; cbn [map app] in *; [|reflexivity].
    inversion Hm as [|pad w ws rest Hp Hs Hww Hl E1 E2]; subst. exists pad, rest. auto.
  - cbn [map app]. rewrite join4_cons. unfold rjust at 1. cbn [reads].
    exists (repeat " "%char (col_width (CLvl l) - length (text (CLvl l)))).
    eexists. split; [apply spaces_repeat|]. split; [apply Hw; now left|].
    split; [|rewrite <- !app_assoc; reflexivity].
    rewrite map_app. rewrite <- (map_map CLvl (fun c => rjust (col_width c) (text c))).
    apply later_more; [|exact Hm]. intros c Hc. apply Hw. right. apply in_or_app. now left.
Qed.

Lemma format_ext ls hy text text' : map text (cols_of ls hy) = map text' (cols_of ls hy) ->
  format ls hy text = format ls hy text'.
Proof.
  unfold cols_of, format. rewrite !map_app. intros E.
  assert (forall c, In c (map CLvl ls ++ (if hy then [CHyb] else [])) -> text c = text' c) as H.
  { rewrite <- !map_app in E. intros c Hc. revert E Hc. generalize (map CLvl ls ++ (if hy then [CHyb] else [])) as l.
    induction l as [|d l IH]; intros E Hc; [destruct Hc|]. cbn in E; injection E as E1 E2.
    destruct Hc as [<- |Hc]; auto. }
  f_equal.
  - f_equal. apply map_ext_in. intros l Hl. rewrite H; [reflexivity|]. apply in_or_app. left. now apply in_map.
  - destruct hy; [|reflexivity]. rewrite H; [reflexivity|]. apply in_or_app. right. now left.
Qed.

Lemma title_word c : word (s2l (title c)).
Proof. destruct c as [[]|]; split; try discriminate; vm_compute; intuition discriminate. Qed.

Lemma numeral_word w n : numeral w n -> word w.
Proof.
  intros (H1 & H2 & _). split; [exact H1|]. intros Hi. rewrite Forall_forall in H2. apply H2 in Hi.
  unfold is_digit in Hi. change (nat_of_ascii " ") with 32%nat in Hi. lia.
Qed.

(** ** First occurrences *)
Section Once.
  Context {A : Type} (eqb : A -> A -> bool) (eqb_eq : forall x y, eqb x y = true <-> x = y).

  Lemma filter_neq x l : ~ In x l -> filter (fun y => negb (eqb x y)) l = l.
  Proof.
    induction l as [|y t IH]; intros H; [reflexivity|]. cbn. destruct (eqb x y) eqn:E; cbn.
    - apply eqb_eq in E. subst. exfalso. apply H. now left.
    - f_equal. apply IH. intros X. apply H. now right.
  Qed.

  Lemma dedup_snoc l x : list_dedup eqb (l ++ [x]) =
    list_dedup eqb l ++ (if existsb (eqb x) l then [] else [x]).
  Proof.
    induction l as [|y t IH]; [reflexivity|]. cbn [app list_dedup existsb]. rewrite IH, filter_app. cbn [app]. f_equal.
    destruct (eqb x y) eqn:E; cbn [orb].
    - f_equal. apply eqb_eq in E. subst y. destruct (existsb (eqb x) t); cbn; [reflexivity|].
      assert (eqb x x = true) as -> by now apply eqb_eq. reflexivity.
    - f_equal. destruct (existsb (eqb x) t); cbn; [reflexivity|].
      destruct (eqb y x) eqn:E2; [|reflexivity]. apply eqb_eq in E2. subst.
      assert (eqb x x = true) by now apply eqb_eq. congruence.
  Qed.

  Lemma once_dedup l : once l (list_dedup eqb l).
  Proof.
    induction l as [|x l IH] using rev_ind; [constructor|]. rewrite dedup_snoc.
    destruct (existsb (eqb x) l) eqn:E.
    - rewrite app_nil_r. apply On_old; [exact IH|]. apply existsb_exists in E as (y & Hy & E).
      apply eqb_eq in E. now subst.
    - apply On_new; [exact IH|]. intros Hi. assert (existsb (eqb x) l = true); [|congruence].
      apply existsb_exists. exists x. split; [exact Hi|]. now apply eqb_eq.
  Qed.
End Once.

Lemma once_transfer {R A B} (T : R -> A) (W : R -> B) (l : list R) :
  (forall r s, In r l -> In s l -> (T r = T s <-> W r = W s)) ->
  forall body, once (map T l) body -> exists rs, incl rs l /\ body = map T rs /\ once (map W l) (map W rs).
Proof.
  induction l as [|x l IH] using rev_ind; intros H body Ho.
  - exists []. inversion Ho as [|l' r' y H1 H2 E1|l' r' y H1 H2 E1].
    + split; [apply incl_nil_l|]. split; [reflexivity|constructor].
    + cbn in E1. destruct l'; discriminate.
    + cbn in E1. destruct l'; discriminate.
  - rewrite map_app in Ho. cbn [map] in Ho. rewrite map_app. cbn [map].
    assert (IH' : forall b, once (map T l) b -> exists rs, incl rs l /\ b = map T rs /\ once (map W l) (map W rs)).
    { apply IH. intros r s Hr Hs. apply H; apply in_or_app; now left. }
    assert (Hin : In (T x) (map T l) <-> In (W x) (map W l)).
    { rewrite !in_map_iff. split; intros (y & E & Hy); exists y; (split; [|exact Hy]);
        (apply H; [apply in_or_app; now left|apply in_or_app; right; now left|exact E]). }
    inversion Ho as [E1|l' r' y H1 H2 E1 E2|l' r' y H1 H2 E1 E2]; subst.
    + destruct (map T l); discriminate.
    + apply app_inj_tail in E1 as [-> ->]. destruct (IH' r' H1) as (rs & Hi & -> & Hr).
      exists (rs ++ [x]). rewrite !map_app. cbn [map].
      split; [intros z Hz; apply in_app_or in Hz as [Hz|Hz]; apply in_or_app; auto|].
      split; [reflexivity|]. apply On_new; [exact Hr|]. intros X. apply H2. now apply Hin.
    + apply app_inj_tail in E1 as [-> ->]. destruct (IH' body H1) as (rs & Hi & -> & Hr).
      exists rs. split; [intros z Hz; apply in_or_app; auto|]. split; [reflexivity|].
      apply On_old; [exact Hr|]. now apply Hin.
Qed.
