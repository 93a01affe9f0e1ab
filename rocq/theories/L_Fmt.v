(** Lemmas about how values are written: lists of numbers. *)
From Coq Require Import QArith Qabs Lqa ZifyBool.
From Verif Require Import Base L_Base M_Text S_Text L_Text M_Human S_Human L_Human5 L_Human6 M_Fmt S_Fmt.

(** ** Progressions *)

Lemma progression_last f st n d : List.last (progression f st n) d = f + Z.of_nat n * st.
Proof.
  revert f. induction n as [|n IH]; intros f; [cbn; lia|].
  assert (E : exists x r, progression (f + st) st n = x :: r) by (destruct n; cbn; eauto). destruct E as (x & r & E).
  change (List.last (f :: progression (f + st) st n) d = f + Z.of_nat (S n) * st). rewrite E. change (List.last (x :: r) d = f + Z.of_nat (S n) * st).
  rewrite <- E, IH. lia.
Qed.

Lemma steps_progression st : forall t a, steps_are st (a :: t) = true -> a :: t = progression a st (length t).
Proof.
  induction t as [|b t IH]; intros a H; [reflexivity|]. cbn [steps_are] in H. apply andb_prop in H as (E & H). apply Z.eqb_eq in E.
  assert (Eb : a + st = b) by lia. cbn [length progression]. rewrite Eb. f_equal. now apply IH.
Qed.

Lemma detect_spec vals m st : (2 <= m)%nat -> detect_progression vals m = Some st ->
  exists f n, vals = progression f st n /\ (m <= S n)%nat /\ hd 0 vals = f.
Proof.
  intros Hm. unfold detect_progression. destruct (Nat.ltb_spec (length vals) m) as [|Hl]; [discriminate|].
  destruct vals as [|a [|b t]]; try discriminate. cbn zeta. destruct (steps_are (b - a) (a :: b :: t)) eqn:E; [|discriminate].
  intros [= <-]. exists a, (length (b :: t)). split; [now apply steps_progression|]. split; [exact Hl|reflexivity].
Qed.

(** ** The text *)

Lemma join_listed ts : ts <> [] -> listed ts (join_cs ts).
Proof.
  destruct ts as [|t r]; [congruence|]. intros _. cbn [join_cs]. revert t. induction r as [|x r IH]; intros t.
  - cbn [map concat]. rewrite app_nil_r. constructor.
  - cbn [map concat]. rewrite <- app_assoc. constructor. apply IH.
Qed.

Lemma rmap_Forall2 {A B} (f : A -> res B) : forall l ys, rmap l f = Ok ys -> Forall2 (fun y x => f x = Ok y) ys l.
Proof.
  induction l as [|x l IH]; intros ys E; cbn [rmap] in E; [injection E as <-; constructor|].
  destruct (f x) as [y|e] eqn:Ef; cbn [rbind] in E; [|discriminate]. destruct (rmap l f) as [zs|e]; cbn [rbind] in E; [|discriminate].
  injection E as <-. constructor; auto.
Qed.

Lemma last_removelast (l : list Z) d : l <> [] -> l = removelast l ++ [List.last l d].
Proof. apply app_removelast_last. Qed.

Definition fmtz (unit : str) (v : Z) : res str := format_unit unit (inject_Z v).

Lemma removelast_hd (a b : Z) c : removelast (a :: b :: c) = a :: removelast (b :: c).
Proof. reflexivity. Qed.

(** The numbers that get written for a list: its elements, and differences of neighbours. *)
Lemma differences_app_l l : forall d x, In d (differences l) -> In d (differences (l ++ [x])).
Proof.
  induction l as [|a [|b t] IH]; intros d x H; [destruct H|destruct H|]. cbn [differences app] in *. destruct H as [<- |H]; [now left|right].
  apply (IH d x H).
Qed.

Lemma detect_difference vals m st : (2 <= m)%nat -> detect_progression vals m = Some st -> In st (differences vals).
Proof.
  intros Hm. unfold detect_progression. destruct (Nat.ltb_spec (length vals) m) as [|Hl]; [discriminate|].
  destruct vals as [|a [|b t]]; try discriminate. cbn zeta. destruct (steps_are _ _); [|discriminate]. intros [= <-]. now left.
Qed.

(** Every non-empty list is written, if its numbers can be, and the text says what the list is. *)
Lemma format_stands (num : str -> Z -> Prop) unit l :
  l <> [] -> (forall v, In v l -> exists t, fmtz unit v = Ok t /\ num t v) ->
  (forall v, In v (differences l) -> v <> 0 -> exists t, fmtz unit v = Ok t /\ num t v) ->
  exists txt, format_nums unit l = Ok (FText txt) /\ stands num txt l.
Proof.
  intros Hl Hv Hd. destruct l as [|a [|b r]]; [congruence| |].
  - destruct (Hv a (or_introl eq_refl)) as (t & E & Hn). exists t. unfold format_nums, fmtz in *. rewrite E. split; [reflexivity|].
    apply (St_each num [t]); [constructor; [exact Hn|constructor]|constructor].
  - set (l := a :: b :: r) in *. 
    change (exists txt, (if no_step (detect_progression l 4) then
        if no_step (detect_progression (removelast l) 3) then let? ts := rmap l (fmtz unit) in Ok (FText (join_cs ts))
        else let? first := fmtz unit a in let? last := fmtz unit (List.last (removelast l) 0) in
          let? tar := fmtz unit (List.last l 0) in
          let? step := match detect_progression (removelast l) 3 with Some x => fmtz unit x | None => Exn EUnbound end in
          Ok (FText (first ++ s2l " - " ++ last ++ s2l " with step " ++ step ++ s2l ", " ++ tar))
      else let? first := fmtz unit a in let? last := fmtz unit (List.last l 0) in
        let? step := match detect_progression l 4 with Some x => fmtz unit x | None => Exn EUnbound end in
        Ok (FText (first ++ s2l " - " ++ last ++ s2l " with step " ++ step))) = Ok (FText txt) /\ stands num txt l).
    assert (Hne : l <> []) by discriminate.
    assert (Hlast : In (List.last l 0) l) by (rewrite (last_removelast l 0 Hne) at 2; apply in_app_iff; right; now left).
    destruct (Hv a (or_introl eq_refl)) as (ta & Ea & Na). destruct (Hv _ Hlast) as (tz & Ez & Nz).
    destruct (no_step (detect_progression l 4)) eqn:E4.
    + destruct (no_step (detect_progression (removelast l) 3)) eqn:E3.
      * assert (R : exists ts, rmap l (fmtz unit) = Ok ts /\ Forall2 num ts l).
        { clear -Hv. revert Hv. generalize l. clear l. induction l as [|x l IH]; intros Hv; [exists []; split; [reflexivity|constructor]|].
          destruct (Hv x (or_introl eq_refl)) as (t & E & N). destruct IH as (ts & Es & Ns); [intros; apply Hv; now right|].
          exists (t :: ts). cbn [rmap]. rewrite E. cbn [rbind]. rewrite Es. split; [reflexivity|constructor; auto]. }
        destruct R as (ts & Es & Ns). exists (join_cs ts). rewrite Es. split; [reflexivity|]. apply (St_each num ts); [exact Ns|].
        apply join_listed. intros ->. inversion Ns.
      * destruct (detect_progression (removelast l) 3) as [st|] eqn:Ed; [|discriminate].
        assert (Hst : st <> 0) by (intros ->; discriminate).
        destruct (detect_spec _ 3 st ltac:(lia) Ed) as (f & n & Ep & Hn & Hf).
        assert (Hd' : In st (differences l)).
        { rewrite (last_removelast l 0 Hne). apply differences_app_l. now apply (detect_difference _ 3) in Ed; [|lia]. }
        destruct (Hd st Hd' Hst) as (ts & Es & Ns).
        assert (Hpl : In (List.last (removelast l) 0) l).
        { rewrite (last_removelast l 0 Hne) at 2. apply in_app_iff. left.
          assert (Hr : removelast l <> []) by (unfold l; rewrite removelast_hd; discriminate).
          rewrite (last_removelast (removelast l) 0 Hr) at 2. apply in_app_iff. right. now left. }
        destruct (Hv _ Hpl) as (tp & Epl & Npl).
        rewrite Ea, Epl, Ez, Es. cbn [rbind]. eexists. split; [reflexivity|].
        rewrite (last_removelast l 0 Hne). rewrite Ep.
        assert (Ef : f = a) by (rewrite <- Hf; unfold l; rewrite removelast_hd; reflexivity). subst f.
        apply St_more; auto; [|lia]. rewrite Ep, progression_last in Npl. exact Npl.
    + destruct (detect_progression l 4) as [st|] eqn:Ed; [|discriminate].
      assert (Hst : st <> 0) by (intros ->; discriminate).
      destruct (detect_spec _ 4 st ltac:(lia) Ed) as (f & n & Ep & Hn & Hf).
      destruct (Hd st (detect_difference _ 4 _ ltac:(lia) Ed) Hst) as (ts & Es & Ns).
      rewrite Ea, Ez, Es. cbn [rbind]. eexists. split; [reflexivity|]. cbn [hd l] in Hf. rewrite Ep.
      assert (Ef : f = a) by (symmetry; exact Hf). subst f. rewrite Ep, progression_last in Nz. apply St_steps; auto. lia.
Qed.
