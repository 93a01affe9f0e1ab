(** Lemmas about taking a text with units apart. *)
From Coq Require Import QArith Qabs Qpower ZifyBool.
From Verif Require Import Base L_Base M_Text S_Text L_Text M_Human S_Human L_Human.

Lemma prefixb_spec x s : prefixb x s = true <-> exists r, s = x ++ r.
Proof.
  revert s. induction x as [|a x IH]; intros s; cbn [prefixb].
  - split; [|auto]. intros _. now exists s.
  - destruct s as [|b s].
    + split; [discriminate|]. intros (r & E). discriminate.
    + rewrite andb_true_iff, IH. split.
      * intros (E & r & ->). apply Ascii.eqb_eq in E as ->. now exists r.
      * intros (r & E). injection E as -> ->. split; [apply Ascii.eqb_refl|now exists r].
Qed.
Lemma skipn_app_len {A} (x r : list A) : skipn (length x) (x ++ r) = r.
Proof. induction x; [reflexivity|]. cbn. auto. Qed.
Lemma split1_found x s a b : split1 x s = Some (a, b) -> s = a ++ x ++ b.
Proof.
  revert a b. induction s as [|c t IH]; intros a b; cbn [split1].
  - destruct (prefixb x []) eqn:E; [|discriminate]. apply prefixb_spec in E as (r & E). symmetry in E.
    apply app_eq_nil in E as (-> & ->). cbn. intros [= <- <-]. reflexivity.
  - destruct (prefixb x (c :: t)) eqn:E.
    + apply prefixb_spec in E as (r & E). rewrite E, skipn_app_len. intros [= <- <-]. reflexivity.
    + destruct (split1 x t) as [(a' & b')|] eqn:Es; [|discriminate]. intros [= <- <-].
      rewrite (IH _ _ eq_refl). reflexivity.
Qed.

(** Letters a specifier starts with, and characters it goes on with *)
Definition first_char (c : ascii) : Prop :=
  In c ["E"; "P"; "T"; "G"; "M"; "k"; "K"; "m"; "u"; "n"; "d"; "D"; "h"; "H"; "B"; "s"; "W"]%char.
Definition later_char (c : ascii) : Prop := In c ["i"; "B"; "H"; "z"; "s"; "W"]%char.
Definition spec_ok (x : str) : Prop :=
  match x with [] => False | c :: t => first_char c /\ Forall later_char t /\ (c = "E"%char -> t <> []) end.
(** Text no specifier starts in *)
Fixpoint clean (v : str) : Prop :=
  match v with
  | [] => True
  | c :: t => (~ first_char c \/ (c = "E"%char /\ match t with d :: _ => ~ later_char d | [] => False end)) /\ clean t
  end.

Lemma clean_prefix x c t w : spec_ok x -> clean (c :: t) -> prefixb x ((c :: t) ++ w) = false.
Proof.
  intros Hx (Hc & _). destruct (prefixb x ((c :: t) ++ w)) eqn:E; [|reflexivity]. exfalso.
  apply prefixb_spec in E as (r & E). destruct x as [|a x]; [destruct Hx|].
  destruct Hx as (Hf & Hl & Hn). cbn in E. injection E as <- E.
  destruct Hc as [Hc|(-> & Hc)]; [now apply Hc|].
  specialize (Hn eq_refl). destruct x as [|y x]; [congruence|]. inversion Hl; subst.
  destruct t as [|d t]; [destruct Hc|]. cbn in E. injection E as <- E. auto.
Qed.
Lemma clean_split1 x v w : spec_ok x -> clean v ->
  split1 x (v ++ w) = match split1 x w with Some (a, b) => Some (v ++ a, b) | None => None end.
Proof.
  intros Hx. induction v as [|c t IH]; intros Hv.
  - cbn. destruct (split1 x w) as [(a & b)|]; reflexivity.
  - cbn [app]. cbn [split1]. rewrite app_comm_cons, clean_prefix by auto. rewrite IH by apply Hv.
    destruct (split1 x w) as [(a & b)|]; reflexivity.
Qed.

Lemma split1_nil x : spec_ok x -> split1 x [] = None.
Proof. destruct x; [intros []|reflexivity]. Qed.
Lemma clean_none x v : spec_ok x -> clean v -> split1 x v = None.
Proof. intros Hx Hv. rewrite <- (app_nil_r v), clean_split1, split1_nil by auto. reflexivity. Qed.
Lemma split1_here x w : spec_ok x -> split1 x (x ++ w) = Some ([], w).
Proof.
  intros Hx. destruct x as [|c x]; [destruct Hx|]. cbn [app split1].
  assert (E : prefixb (c :: x) (c :: x ++ w) = true) by (apply prefixb_spec; now exists w).
  rewrite E. change (c :: x ++ w) with ((c :: x) ++ w). now rewrite skipn_app_len.
Qed.

(** A text that cannot continue a specifier *)
Definition stops (w : str) : Prop := match w with [] => True | c :: _ => ~ later_char c end.
Lemma spec_past x sp w : spec_ok x -> stops w -> split1 x sp = None ->
  split1 x (sp ++ w) = match split1 x w with Some (a, b) => Some (sp ++ a, b) | None => None end.
Proof.
  intros Hx Hw. induction sp as [|c t IH]; intros E.
  - cbn. destruct (split1 x w) as [(a & b)|]; reflexivity.
  - cbn [split1] in E. destruct (prefixb x (c :: t)) eqn:Ep; [discriminate|].
    destruct (split1 x t) as [(a & b)|] eqn:Et; [discriminate|]. cbn [app split1].
    assert (E2 : prefixb x (c :: t ++ w) = false).
    { destruct (prefixb x (c :: t ++ w)) eqn:E2; [|reflexivity]. exfalso.
      apply prefixb_spec in E2 as (r & E2). change (c :: t ++ w) with ((c :: t) ++ w) in E2.
      destruct (app_eq_app _ _ _ _ E2) as (l & [(H1 & H2)|(H1 & H2)]).
      - assert (X : prefixb x (c :: t) = true) by (apply prefixb_spec; now exists l). congruence.
      - destruct l as [|y l].
        + rewrite app_nil_r in H1. assert (X : prefixb x (c :: t) = true)
            by (apply prefixb_spec; exists []; now rewrite app_nil_r). congruence.
        + subst w. destruct x as [|a x]; [destruct Hx|]. cbn in H1. injection H1 as <- ->.
          destruct Hx as (_ & Hl & _). apply Forall_app in Hl as (_ & Hl). inversion Hl; subst. now apply Hw. }
    rewrite E2, IH by reflexivity. destruct (split1 x w) as [(a & b)|]; reflexivity.
Qed.

(** *** Number texts are clean *)
Lemma not_first c : ~ In c ["E"; "P"; "T"; "G"; "M"; "k"; "K"; "m"; "u"; "n"; "d"; "D"; "h"; "H"; "B"; "s"; "W"]%char ->
  ~ first_char c.
Proof. auto. Qed.
Lemma char_class (p : ascii -> bool) l c : p c = true -> forallb (fun k => negb (p k)) l = true -> ~ In c l.
Proof. intros Hp Hl Hi. rewrite forallb_forall in Hl. specialize (Hl c Hi). now rewrite Hp in Hl. Qed.
Lemma digit_not_first c : is_digit c -> ~ first_char c.
Proof. intros H. apply is_digitb_spec in H. now apply (char_class is_digitb). Qed.
Lemma digit_not_later c : is_digit c -> ~ later_char c.
Proof. intros H. apply is_digitb_spec in H. now apply (char_class is_digitb). Qed.
Lemma cspace_not c : is_cspace c = true -> ~ first_char c /\ ~ later_char c.
Proof. intros H. split; now apply (char_class is_cspace). Qed.
Lemma space_not c : is_space c = true -> ~ first_char c /\ ~ later_char c.
Proof. intros H. split; now apply (char_class is_space). Qed.
Lemma clean_plain v : Forall (fun c => ~ first_char c) v -> clean v.
Proof. induction 1; cbn; auto. Qed.
Lemma clean_plain_app v w : Forall (fun c => ~ first_char c) v -> clean w -> clean (v ++ w).
Proof. induction 1; cbn; auto. Qed.
Lemma digits_plain v : Forall is_digit v -> Forall (fun c => ~ first_char c) v.
Proof. apply Forall_impl. apply digit_not_first. Qed.
Lemma white_plain v : white v -> Forall (fun c => ~ first_char c) v.
Proof.
  intros H. apply white_b in H. rewrite forallb_forall in H. apply Forall_forall. intros c Hc. now apply cspace_not, H.
Qed.
Lemma in_b c l : existsb (Ascii.eqb c) l = false -> ~ In c l.
Proof.
  intros H Hi. assert (X : existsb (Ascii.eqb c) l = true).
  { apply existsb_exists. exists c. split; [exact Hi|apply Ascii.eqb_refl]. } congruence.
Qed.
Lemma sign_plain st sg : sign_text st sg -> Forall (fun c => ~ first_char c) st.
Proof. intros H. destruct H; constructor; try constructor; now apply in_b. Qed.
Lemma sign_hd st sg : sign_text st sg -> match st with [] => True | c :: _ => ~ later_char c end.
Proof. intros H. destruct H; [exact I|now apply in_b..]. Qed.
Lemma number_clean v q : number v q -> clean v.
Proof.
  intros H. destruct H as [b1 st sg ip pt fp et e b2 W1 W2 Hs Hi Hf Hne Hp He].
  assert (X : clean (et ++ b2)).
  2:{ apply clean_plain_app; [now apply white_plain|]. apply clean_plain_app; [eapply sign_plain; eauto|].
      apply clean_plain_app; [now apply digits_plain|].
      apply clean_plain_app; [destruct Hp as [-> | (-> & _)]; constructor; [now apply in_b|constructor]|].
      apply clean_plain_app; [now apply digits_plain|exact X]. }
  - assert (Hb : clean b2) by (apply clean_plain; now apply white_plain).
    destruct He as [|c s g ds Hc H1 H2 H3]; [exact Hb|]. cbn [app clean]. split.
    + destruct Hc as [-> | ->]; [left; now apply in_b|right]. split; [reflexivity|].
      pose proof (sign_hd s g H1) as Hh. destruct s as [|k s]; [|exact Hh]. cbn.
      destruct ds as [|d ds]; [congruence|]. cbn. apply digit_not_later. now inversion H3.
    + rewrite <- app_assoc. apply clean_plain_app; [eapply sign_plain; eauto|].
      apply clean_plain_app; [now apply digits_plain|exact Hb].
Qed.
Lemma number_stops v q w : number v q -> stops (v ++ w).
Proof.
  intros H. pose proof (number_chars v q H) as Hc. destruct H as [b1 st sg ip pt fp et e b2 W1 W2 Hs Hi Hf Hne Hp He].
  remember (b1 ++ st ++ ip ++ pt ++ fp ++ et ++ b2) as v. destruct v as [|c v].
  - symmetry in Heqv. apply app_eq_nil in Heqv as (_ & E). apply app_eq_nil in E as (_ & E).
    apply app_eq_nil in E as (-> & E). apply app_eq_nil in E as (_ & E). apply app_eq_nil in E as (-> & _). exfalso. now apply Hne.
  - cbn [app stops]. inversion Hc as [|c' v' H _]; subst c' v'. intros L.
    refine (number_char_no c c H _ eq_refl). clear - L. unfold later_char in L.
    repeat (destruct L as [<-|L]; [cbn; tauto|]). destruct L.
Qed.
