(** Lemmas about the lines of 'lscpu' (C80). *)
From Coq Require Import Ascii String ZifyBool Lia.
From Verif Require Import Base M_Text S_Text M_Human S_Human M_Topo S_Systemd S_Prelude M_CFreq M_Ident S_Ident L_Base L_Text L_Human L_Prelude.
Open Scope list_scope.
Open Scope Z_scope.

Notation sp := S_Systemd.spaces.

Lemma ls_all b v : sp b -> (forall d t, v = d :: t -> is_space d = false) -> lstrip_by is_space (b ++ v) = v.
Proof.
  intros Hb Hv. induction Hb as [|c b E Hb IH]; cbn [app lstrip_by]; [|now rewrite E].
  destruct v as [|d t]; [reflexivity|]. cbn [lstrip_by]. now rewrite (Hv d t eq_refl).
Qed.

Lemma sp_rev b : sp b -> sp (rev b).
Proof. intros H. apply Forall_rev. exact H. Qed.

Lemma strip_eq a x c : sp a -> sp c -> tight x -> strip (a ++ x ++ c) = x.
Proof.
  intros Ha Hc (Hh & Ht). unfold strip, strip_by. destruct x as [|y x].
  - cbn [app]. rewrite <- (app_nil_r (a ++ c)), ls_all; [reflexivity| |discriminate]. now apply Forall_app.
  - rewrite ls_all; [|exact Ha|]; [|intros d t [= <- _]; exact (Hh y x eq_refl)].
    rewrite rev_app_distr. rewrite ls_all; [apply rev_involutive|now apply sp_rev|].
    intros d t E. apply (Ht (rev t)). rewrite <- (rev_involutive (y :: x)), E. reflexivity.
Qed.

Lemma lstrip_hd p l c t : lstrip_by p l = c :: t -> p c = false.
Proof. induction l as [|d l IH]; cbn [lstrip_by]; [discriminate|]. destruct (p d) eqn:E; [exact IH|]. now intros [= <- _]. Qed.

Lemma lstrip_len p l : (length (lstrip_by p l) <= length l)%nat.
Proof. induction l as [|d l IH]; cbn [lstrip_by length]; [lia|]. destruct (p d); cbn [length]; lia. Qed.

Lemma strip_tight l : tight (strip l).
Proof.
  unfold strip, strip_by. set (m := lstrip_by is_space l). assert (Hm : forall c t, m = c :: t -> is_space c = false) by (intros c t; apply lstrip_hd).
  clearbody m. destruct (lstrip_inv is_space (rev m)) as (b & Eb & Hb).
  set (y := lstrip_by is_space (rev m)) in *. assert (Hy : forall c t, y = c :: t -> is_space c = false) by (intros c t; apply lstrip_hd).
  clearbody y. assert (Em : m = rev y ++ rev b) by (rewrite <- rev_app_distr, <- Eb; symmetry; apply rev_involutive).
  split.
  - intros c t E. rewrite E in Em. exact (Hm c _ Em).
  - intros t c E. apply (Hy c (rev t)). rewrite <- (rev_involutive y), E, rev_app_distr. reflexivity.
Qed.

Lemma strip_parts l : exists a c, sp a /\ sp c /\ l = a ++ strip l ++ c.
Proof.
  destruct (strip_inv is_space l) as (a & c & E & Ha & Hc). exists a, c.
  split; [|split; [|exact E]]; apply Forall_forall; intros x Hx; [rewrite forallb_forall in Ha; now apply Ha|rewrite forallb_forall in Hc; now apply Hc].
Qed.

Lemma prefix_some p : forall l r, after_prefix p l = Some r <-> l = p ++ r.
Proof.
  induction p as [|c p IH]; intros l r; cbn [after_prefix app]; [split; congruence|].
  destruct l as [|d l]; [split; discriminate|]. destruct (Ascii.eqb_spec c d) as [<-|N].
  - rewrite IH. split; [intros ->; reflexivity|now intros [= ->]].
  - split; [discriminate|intros [= E _]; congruence].
Qed.

Lemma suffix_some s l r : before_suffix s l = Some r <-> l = r ++ s.
Proof.
  unfold before_suffix. split.
  - destruct (after_prefix (rev s) (rev l)) as [q|] eqn:E; [|discriminate]. intros [= <-]. apply prefix_some in E.
    rewrite <- (rev_involutive l), E, rev_app_distr, rev_involutive. reflexivity.
  - intros ->. assert (E : after_prefix (rev s) (rev (r ++ s)) = Some (rev r)) by (apply prefix_some; apply rev_app_distr).
    rewrite E. cbn [option_map]. now rewrite rev_involutive.
Qed.

Lemma last_some c l r : after_last c l = Some r <-> exists m, l = m ++ c :: r /\ ~ In c r.
Proof.
  revert r. induction l as [|d l IH]; intros r; cbn [after_last].
  - split; [discriminate|]. intros (m & E & _). destruct m; discriminate E.
  - destruct (after_last c l) as [q|] eqn:E.
    + split.
      * intros [= <-]. destruct (proj1 (IH q) eq_refl) as (m & -> & N). exists (d :: m). split; [reflexivity|exact N].
      * intros (m & Em & N). destruct m as [|x m]; cbn [app] in Em; injection Em as -> El.
        -- subst l. destruct (proj1 (IH q) eq_refl) as (m & El & _). exfalso. apply N. rewrite El. apply in_elt.
        -- apply IH. exists m. split; [exact El|exact N].
    + assert (Hl : ~ In c l).
      { intros H. apply in_split in H as (x & y & ->). clear -E. revert E. induction x as [|z x IHx]; cbn [app after_last].
        - destruct (after_last c y); [discriminate|]. rewrite Ascii.eqb_refl. discriminate.
        - destruct (after_last c (x ++ c :: y)); [discriminate|]. intros _. now apply IHx. }
      destruct (Ascii.eqb_spec c d) as [<-|Nd].
      * split; [intros [= <-]; exists []; split; [reflexivity|exact Hl]|].
        intros (m & Em & N). destruct m as [|x m]; cbn [app] in Em; [now injection Em as ->|]. injection Em as _ El. exfalso. apply Hl. rewrite El. apply in_elt.
      * split; [discriminate|]. intros (m & Em & N). destruct m as [|x m]; cbn [app] in Em; injection Em as E1 El; [congruence|].
        exfalso. apply Hl. rewrite El. apply in_elt.
Qed.

(** ** The patterns *)
Lemma label_match l line v : s2l l <> [] -> tight (s2l l) ->
  match_pat (PLabel l) (strip line) = Some v <-> line_says l line v.
Proof.
  intros Hne Hl. cbn [match_pat]. split.
  - destruct (after_prefix (s2l l) (strip line)) as [r|] eqn:E; [|discriminate]. intros [= <-]. apply prefix_some in E.
    destruct (strip_parts line) as (a & c & Ha & Hc & El). destruct (lstrip_inv is_space r) as (b & Er & Hb).
    exists a, b, c. split; [exact Ha|]. split; [apply Forall_forall; rewrite forallb_forall in Hb; exact Hb|]. split; [exact Hc|].
    split.
    + split; [intros d t; apply lstrip_hd|]. intros t d Ed. destruct (strip_tight line) as (_ & Ht). apply (Ht (s2l l ++ b ++ t)).
      rewrite E, Er, Ed. now rewrite !app_assoc.
    + rewrite El, E, Er at 1. rewrite <- !app_assoc. reflexivity.
  - intros (a & b & c & Ha & Hb & Hc & Hv & ->). destruct v as [|y v].
    + assert (E : strip (a ++ s2l l ++ b ++ [] ++ c) = s2l l).
      { cbn [app]. apply strip_eq; [exact Ha| |exact Hl]. now apply Forall_app. }
      rewrite E. assert (Ep : after_prefix (s2l l) (s2l l) = Some []) by (apply prefix_some; symmetry; apply app_nil_r). now rewrite Ep.
    + assert (E : strip (a ++ s2l l ++ b ++ (y :: v) ++ c) = s2l l ++ b ++ y :: v).
      { replace (s2l l ++ b ++ (y :: v) ++ c) with ((s2l l ++ b ++ y :: v) ++ c) by (rewrite <- !app_assoc; reflexivity).
        apply strip_eq; [exact Ha|exact Hc|]. split.
        - intros d t Ed. destruct (s2l l) as [|z u]; [congruence|]. injection Ed as <- _. exact (proj1 Hl z u eq_refl).
        - intros t d Ed. destruct Hv as (_ & Hv). destruct (exists_last (l := y :: v)) as (w & x & Ew); [discriminate|].
          rewrite Ew in Ed. rewrite !app_assoc in Ed. apply app_inj_tail in Ed as [_ <-]. exact (Hv w x Ew). }
      rewrite E. assert (Ep : after_prefix (s2l l) (s2l l ++ b ++ y :: v) = Some (b ++ y :: v)) by now apply prefix_some.
      rewrite Ep. cbn [option_map]. rewrite ls_all; [reflexivity|exact Hb|apply Hv].
Qed.

Lemma freq_match line v : match_pat PFreq (strip line) = Some v <-> freq_says line v.
Proof.
  cbn [match_pat]. split.
  - destruct (after_prefix (s2l "Model name:") (strip line)) as [r|] eqn:E; [|discriminate]. apply prefix_some in E.
    destruct (after_last "@" r) as [t|] eqn:Et; [|discriminate]. apply last_some in Et as (m & Er & Nt).
    destruct (before_suffix (s2l "GHz") t) as [w|] eqn:Ew; [|discriminate]. apply suffix_some in Ew. intros [= <-].
    destruct (strip_parts line) as (a & c & Ha & Hc & El). destruct (lstrip_inv is_space w) as (b & Eb & Hb).
    exists a, m, b, c. split; [exact Ha|]. split; [apply Forall_forall; rewrite forallb_forall in Hb; exact Hb|]. split; [exact Hc|].
    split; [|split].
    + intros H. apply Nt. rewrite Ew, Eb. apply in_or_app. left. apply in_or_app. now right.
    + intros d u. apply lstrip_hd.
    + rewrite El, E, Er, Ew, Eb at 1. rewrite <- !app_assoc. cbn [app]. rewrite <- !app_assoc. reflexivity.
  - intros (a & m & b & c & Ha & Hb & Hc & Nv & Hv & ->).
    assert (E : strip (a ++ s2l "Model name:" ++ m ++ "@"%char :: b ++ v ++ s2l "GHz" ++ c) = s2l "Model name:" ++ m ++ "@"%char :: b ++ v ++ s2l "GHz").
    { replace (s2l "Model name:" ++ m ++ "@"%char :: b ++ v ++ s2l "GHz" ++ c) with ((s2l "Model name:" ++ m ++ "@"%char :: b ++ v ++ s2l "GHz") ++ c)
        by (rewrite <- !app_assoc; cbn [app]; rewrite <- !app_assoc; reflexivity).
      apply strip_eq; [exact Ha|exact Hc|]. split.
      - intros d t Ed. injection Ed as <- _. reflexivity.
      - intros t d Ed. replace (s2l "Model name:" ++ m ++ "@"%char :: b ++ v ++ s2l "GHz") with ((s2l "Model name:" ++ m ++ "@"%char :: b ++ v ++ s2l "GH") ++ ["z"%char]) in Ed
          by (rewrite <- !app_assoc; cbn [app]; rewrite <- !app_assoc; reflexivity).
        apply app_inj_tail in Ed as [_ <-]. reflexivity. }
    rewrite E. rewrite (proj2 (prefix_some _ _ _) eq_refl).
    assert (El : after_last "@" (m ++ "@"%char :: b ++ v ++ s2l "GHz") = Some (b ++ v ++ s2l "GHz")).
    { apply last_some. exists m. split; [reflexivity|]. intros H. apply in_app_or in H as [H|H].
      - unfold sp in Hb. rewrite Forall_forall in Hb. specialize (Hb _ H). discriminate Hb.
      - apply in_app_or in H as [H|H]; [contradiction|]. cbn in H. intuition discriminate. }
    rewrite El, app_assoc, (proj2 (suffix_some _ _ _) eq_refl). cbn [option_map]. now rewrite ls_all.
Qed.
