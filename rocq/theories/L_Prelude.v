(** Proofs about '--list-mechanisms', the modules of an emulated system, '--override-cpu-model' and the 'tuned' check (C79). *)
From Coq Require Import Ascii String Lia.
From Verif Require Import Base M_Text S_Text M_Human M_CFreq M_Route M_Prelude S_Prelude L_Text.
Open Scope list_scope.
Open Scope Z_scope.

Lemma error_iff e : catches_error e = true <-> project_error e.
Proof.
  unfold project_error. destruct e; cbn; split; intros H; try reflexivity; try discriminate H; try (intros X; repeat (destruct X as [X|X]; try discriminate X); destruct X);
    exfalso; apply H; auto 10.
Qed.

Lemma mnames_iff t m : In m (mnames_used t) <-> has_mechanism t m.
Proof.
  unfold mnames_used, has_mechanism. rewrite in_flat_map. split.
  - intros ([p [l w]] & H1 & H2). eauto 6.
  - intros (p & l & w & H1 & H2). exists (p, (l, w)). split; assumption.
Qed.

Lemma list_ok f t : lists_for f t -> t <> pmqos_table ->
  exists l, list_mechanisms (s2l f) = Ok l /\ NoDup (map fst l) /\ forall m, In m (map fst l) <-> has_mechanism t m.
Proof.
  intros H Hn.
  assert (E : props_of_command (s2l f) = Ok t) by (destruct H; try reflexivity; destruct Hn; reflexivity).
  unfold list_mechanisms. rewrite E. cbn [rbind]. eexists. split; [reflexivity|].
  assert (G : forall m, In m (mnames_used t) -> In m (map fst mechanisms)).
  { clear - H. intros m Hm. destruct H; vm_compute in Hm; repeat (destruct Hm as [<- |Hm]; [cbn; auto 10|]); destruct Hm. }
  split.
  - rewrite map_map. cbn [fst].
    assert (Hnd : NoDup (map fst mechanisms)).
    { cbn [map fst mechanisms]. repeat constructor; cbn; intros X; repeat (destruct X as [X|X]; [discriminate X|]); destruct X. }
    clear - Hnd. induction mechanisms as [|m l IH]; cbn [filter map]; [constructor|]. inversion Hnd as [|? ? Hni Hnd']; subst.
    destruct (existsb _ _); cbn [map]; [|apply IH, Hnd']. constructor; [|apply IH, Hnd'].
    intros Hi. apply Hni. apply in_map_iff in Hi as (x & Hx & Hi). apply filter_In in Hi as [Hi _]. rewrite <- Hx. apply in_map, Hi.
  - intros m. rewrite map_map. cbn [fst]. rewrite in_map_iff, <- mnames_iff. split.
    + intros (x & <- & Hi). apply filter_In in Hi as [_ Hi]. apply existsb_exists in Hi as (y & Hy & Ey).
      apply String.eqb_eq in Ey. rewrite Ey. exact Hy.
    + intros Hm. destruct (proj1 (in_map_iff _ _ _) (G m Hm)) as (x & Hx & Hi). exists x. split; [exact Hx|].
      apply filter_In. split; [exact Hi|]. apply existsb_exists. exists m. split; [exact Hm|]. apply String.eqb_eq, Hx.
Qed.

Lemma list_names f t l : lists_for f t -> list_mechanisms (s2l f) = Ok l ->
  (t = pstates_table -> map fst l = ["sysfs"; "msr"; "cppc"; "doc"]%string) /\
  (t = cstates_table -> map fst l = ["sysfs"; "msr"; "doc"]%string) /\
  (t = power_table -> map fst l = ["msr"]%string).
Proof. intros H E. destruct H; vm_compute in E; try discriminate E; injection E as <-; repeat split; intros X; try discriminate X; reflexivity. Qed.

Lemma modules_ok cmd sub l : needs cmd sub l -> emul_modules (command cmd sub) = Ok l.
Proof.
  intros H. destruct H as [s H|s H|s H|s H| |s H|s H]; try reflexivity; cbn in H;
    repeat (destruct H as [<- |H]; [reflexivity|]); destruct H.
Qed.

Lemma init_modules_result init modules : forall done r l open, init_modules init modules done = (r, l, open) ->
  exists k, l = done ++ firstn k modules /\ (forall m, In m (firstn k modules) -> init m = Ok tt) /\
    ((r = Ok tt /\ k = length modules /\ open = true) \/
     exists m e, nth_error modules k = Some m /\ init m = Exn e /\ r = Exn e /\ (open = false <-> project_error e)).
Proof.
  induction modules as [|m t IH]; intros done r l open H; cbn [init_modules] in H.
  - injection H as <- <- <-. exists 0%nat. cbn. rewrite app_nil_r. repeat split; [intros ? []|]. left. repeat split.
  - destruct (init m) as [[]|e] eqn:E.
    + destruct (IH _ _ _ _ H) as (k & -> & Hk & Hr). exists (S k). cbn [firstn length]. split; [now rewrite <- app_assoc|]. split.
      * intros x [<- |Hx]; [exact E|exact (Hk x Hx)].
      * destruct Hr as [(H1 & -> & H3)|(m' & e & H1 & H2)]; [left; repeat split; assumption|right; eauto].
    + injection H as <- <- <-. exists 0%nat. cbn. rewrite app_nil_r. repeat split; [intros ? []|]. right. exists m, e. repeat split; [exact E| |].
      * intros X. apply error_iff. now destruct (catches_error e).
      * intros X. apply error_iff in X. now rewrite X.
Qed.

Lemma emul_result init cmd sub modules r l open : needs cmd sub modules -> get_emul_pman init (command cmd sub) = (r, l, open) ->
  exists k, l = firstn k modules /\ (forall m, In m l -> init m = Ok tt) /\
    ((r = Ok tt /\ l = modules /\ open = true) \/
     exists m e, nth_error modules k = Some m /\ init m = Exn e /\ r = Exn e /\ (open = false <-> project_error e)).
Proof.
  intros Hn H. unfold get_emul_pman in H. rewrite (modules_ok _ _ _ Hn) in H.
  destruct (init_modules_result init modules [] r l open H) as (k & -> & Hk & Hr). exists k. cbn [app]. split; [reflexivity|]. split; [exact Hk|].
  destruct Hr as [(H1 & -> & H3)|Hr]; [left; rewrite firstn_all; repeat split; assumption|right; exact Hr].
Qed.

(** ** Numbers *)
Lemma hex_val c d : hex_digit c d -> digit_val c = Some d /\ 0 <= d < 16 /\ Ascii.eqb c "_" = false /\ is_cspace c = false.
Proof.
  intros H.
  assert (Hu : (48 <= nat_of_ascii c)%nat /\ nat_of_ascii c <> 95%nat) by (destruct H; lia).
  assert (H95 : Ascii.eqb c "_" = false).
  { apply Ascii.eqb_neq. intros ->. apply (proj2 Hu). reflexivity. }
  assert (Hs : is_cspace c = false) by (unfold is_cspace; destruct H; lia).
  destruct H as [c H|c H|c H]; unfold digit_val; repeat split; try assumption; try lia.
  - destruct ((48 <=? Z.of_nat (nat_of_ascii c)) && (Z.of_nat (nat_of_ascii c) <=? 57)) eqn:E; [reflexivity|lia].
  - destruct ((48 <=? Z.of_nat (nat_of_ascii c)) && (Z.of_nat (nat_of_ascii c) <=? 57)) eqn:E; [lia|].
    destruct ((97 <=? Z.of_nat (nat_of_ascii c)) && (Z.of_nat (nat_of_ascii c) <=? 122)) eqn:E2; [f_equal; lia|lia].
  - destruct ((48 <=? Z.of_nat (nat_of_ascii c)) && (Z.of_nat (nat_of_ascii c) <=? 57)) eqn:E; [lia|].
    destruct ((97 <=? Z.of_nat (nat_of_ascii c)) && (Z.of_nat (nat_of_ascii c) <=? 122)) eqn:E2; [lia|].
    destruct ((65 <=? Z.of_nat (nat_of_ascii c)) && (Z.of_nat (nat_of_ascii c) <=? 90)) eqn:E3; [f_equal; lia|lia].
Qed.

Lemma scan_hex v s n : hex_from v s n -> scan_digits 16 s false v = Some (n, []).
Proof.
  induction 1 as [v|v c d s r Hc _ IH]; [reflexivity|]. destruct (hex_val c d Hc) as (E1 & E2 & E3 & _).
  cbn [scan_digits]. rewrite E3, E1. destruct (Z.ltb_spec d 16); [|lia]. rewrite <- IH. f_equal. lia.
Qed.

Lemma int_digits_hex s n : hex s n -> int_digits 16 s = Some n.
Proof.
  intros [Hne H]. destruct s as [|c t]; [now destruct Hne|]. unfold int_digits. inversion H as [|v c' d s' r Hc Ht]; subst.
  destruct (hex_val c d Hc) as (E1 & E2 & _). rewrite E1. destruct (Z.ltb_spec d 16); [|lia].
  rewrite (scan_hex 0 (c :: t) n H). reflexivity.
Qed.

(** A decimal scan stops at a letter. *)
Lemma scan_dec_hex s : forall v n acc, hex_from v s n -> Exists (fun c => ~ is_digit c) s ->
  exists w c rest, scan_digits 10 s false acc = Some (w, c :: rest) /\ is_cspace c = false.
Proof.
  induction s as [|c t IH]; intros v n acc H Hx; [inversion Hx|].
  inversion H as [|v' c' d s' r Hc Ht]; subst. destruct (hex_val c d Hc) as (E1 & E2 & E3 & E4).
  cbn [scan_digits]. rewrite E3, E1. destruct (Z.ltb_spec d 10) as [Hd|Hd].
  - apply (IH (16 * v + d) n (acc * 10 + d) Ht). inversion Hx as [? ? Hn|? ? Hn]; subst; [|exact Hn].
    destruct Hn. unfold is_digit. destruct Hc; lia.
  - exists acc, c, t. split; [reflexivity|exact E4].
Qed.

Lemma int_digits10_hex s n : hex s n -> Exists (fun c => ~ is_digit c) s -> int_digits 10 s = None.
Proof.
  intros [Hne H] Hx. destruct s as [|c t]; [reflexivity|]. unfold int_digits. inversion H as [|v c' d s' r Hc Ht]; subst.
  destruct (hex_val c d Hc) as (E1 & E2 & _). rewrite E1. destruct (d <? 10); [|reflexivity].
  destruct (scan_dec_hex (c :: t) 0 n 0 H Hx) as (w & c1 & rest & -> & Ec). cbn [forallb]. rewrite Ec. reflexivity.
Qed.

Lemma override_dec s m0 : s <> [] -> Forall is_digit s -> override_cpu_model s m0 = (Ok tt, spelled s).
Proof.
  intros Hne Hd. unfold override_cpu_model, py_int. destruct s as [|c t]; [now destruct Hne|].
  inversion Hd as [|? ? Hc Ht]; subst. cbn [lstrip_by]. rewrite (digit_nocspace c Hc).
  rewrite (digit_not c "+"), (digit_not c "-") by (auto; vm_compute; lia).
  unfold int_digits. rewrite (digit_dec_val c Hc). destruct (Z.ltb_spec (Z.of_nat (nat_of_ascii c) - 48) 10) as [|X]; [|unfold is_digit in Hc; lia].
  pose proof (scan_digits_num (c :: t) [] Hd 0) as E. rewrite app_nil_r in E. rewrite E. cbn [scan_digits forallb]. reflexivity.
Qed.

Lemma not_sign c d : hex_digit c d -> Ascii.eqb c "+" = false /\ Ascii.eqb c "-" = false.
Proof. intros H. split; apply Ascii.eqb_neq; intros ->; inversion H as [? X|? X|? X]; cbn in X; lia. Qed.

Lemma override_hex s n m0 : hex s n -> Exists (fun c => ~ is_digit c) s -> override_cpu_model s m0 = (Ok tt, n).
Proof.
  intros Hh Hx. pose proof (int_digits10_hex s n Hh Hx) as E10. pose proof (int_digits_hex s n Hh) as E16.
  destruct Hh as [Hne H]. destruct s as [|c t]; [now destruct Hne|]. inversion H as [|v c' d s' r Hc Ht]; subst.
  destruct (hex_val c d Hc) as (_ & _ & _ & Es). destruct (not_sign c d Hc) as [Ep Em].
  unfold override_cpu_model, py_int, py_int16. cbn [lstrip_by]. rewrite Es, Ep, Em, E10.
  assert (G : int_base16 (c :: t) = Some n); [|rewrite G; reflexivity].
  unfold int_base16. destruct t as [|x t]; [exact E16|].
  inversion Ht as [|v' c'' d' s'' r' Hx' Ht']; subst.
  assert (Ex : Ascii.eqb x "x" = false /\ Ascii.eqb x "X" = false).
  { split; apply Ascii.eqb_neq; intros ->; inversion Hx' as [? X|? X|? X]; cbn in X; lia. }
  destruct Ex as [-> ->]. rewrite Bool.andb_false_r. exact E16.
Qed.

Lemma override_0x x s n m0 : x = "x"%char \/ x = "X"%char -> hex s n -> override_cpu_model ("0"%char :: x :: s) m0 = (Ok tt, n).
Proof.
  intros Hx Hh. pose proof (int_digits_hex s n Hh) as E16.
  assert (Es : skip_us s = s).
  { destruct Hh as [Hne H]. destruct s as [|c t]; [reflexivity|]. inversion H as [|v c' d s' r Hc Ht]; subst.
    destruct (hex_val c d Hc) as (_ & _ & E & _). cbn [skip_us]. rewrite E. reflexivity. }
  destruct Hx as [-> | ->]; unfold override_cpu_model.
  - assert (E : py_int ("0"%char :: "x"%char :: s) = None) by reflexivity. rewrite E.
    assert (G : py_int16 ("0"%char :: "x"%char :: s) = int_digits 16 (skip_us s)) by reflexivity. rewrite G, Es, E16. reflexivity.
  - assert (E : py_int ("0"%char :: "X"%char :: s) = None) by reflexivity. rewrite E.
    assert (G : py_int16 ("0"%char :: "X"%char :: s) = int_digits 16 (skip_us s)) by reflexivity. rewrite G, Es, E16. reflexivity.
Qed.

Lemma override_result s m0 r m : override_cpu_model s m0 = (r, m) -> r = Ok tt \/ (r = Exn EError /\ m = m0).
Proof.
  unfold override_cpu_model, modify, throw. destruct (py_int s); [intros [= <- _]; now left|].
  destruct (py_int16 s); intros [= <- <-]; [now left|now right].
Qed.

Lemma foreign_facts c : foreign c ->
  (forall d, digit_val c = Some d -> 16 <= d) /\ is_cspace c = false /\ c <> "_"%char /\ c <> "+"%char /\ c <> "-"%char /\ c <> "x"%char /\ c <> "X"%char.
Proof.
  intros (Hr & Hh & Hi). split.
  - intros d. unfold digit_val.
    destruct ((48 <=? Z.of_nat (nat_of_ascii c)) && (Z.of_nat (nat_of_ascii c) <=? 57)) eqn:E1.
    { intros _. exfalso. apply (Hh (Z.of_nat (nat_of_ascii c) - 48)). apply HD_dec. lia. }
    destruct ((97 <=? Z.of_nat (nat_of_ascii c)) && (Z.of_nat (nat_of_ascii c) <=? 122)) eqn:E2.
    { intros [= <-]. destruct (Z.leb_spec (Z.of_nat (nat_of_ascii c)) 102) as [Hle|Hle]; [|lia].
      exfalso. apply (Hh (Z.of_nat (nat_of_ascii c) - 87)). apply HD_low. lia. }
    destruct ((65 <=? Z.of_nat (nat_of_ascii c)) && (Z.of_nat (nat_of_ascii c) <=? 90)) eqn:E3; [|discriminate].
    intros [= <-]. destruct (Z.leb_spec (Z.of_nat (nat_of_ascii c)) 70) as [Hle|Hle]; [|lia].
    exfalso. apply (Hh (Z.of_nat (nat_of_ascii c) - 55)). apply HD_up. lia.
  - split; [unfold is_cspace; lia|]. repeat split; intros ->; apply Hi; cbn; auto 10.
Qed.

Lemma scan_foreign b l : b <= 16 -> forall us acc v rest, Exists foreign l -> scan_digits b l us acc = Some (v, rest) -> forallb is_cspace rest = false.
Proof.
  intros Hb. induction l as [|c t IH]; intros us acc v rest Hx H; [inversion Hx|]. cbn [scan_digits] in H.
  assert (Hor : foreign c \/ Exists foreign t) by (inversion Hx; auto).
  assert (Hstop : forallb is_cspace (c :: t) = false).
  { apply Bool.not_true_iff_false. intros Hf. rewrite forallb_forall in Hf.
    apply Exists_exists in Hx as (x & Hi & Ho). apply foreign_facts in Ho as (_ & Ho & _). rewrite (Hf x Hi) in Ho. discriminate. }
  destruct (Ascii.eqb_spec c "_") as [->|Hu].
  - destruct us; [discriminate H|]. destruct Hor as [Ho|Hor]; [|exact (IH _ _ _ _ Hor H)].
    apply foreign_facts in Ho as (_ & _ & X & _). now destruct X.
  - destruct (digit_val c) as [d|] eqn:Ed.
    + destruct (Z.ltb_spec d b) as [Hd|Hd].
      * destruct Hor as [Ho|Hor]; [|exact (IH _ _ _ _ Hor H)]. apply foreign_facts in Ho as (X & _). specialize (X d Ed). lia.
      * destruct us; [discriminate H|]. injection H as _ <-. exact Hstop.
    + destruct us; [discriminate H|]. injection H as _ <-. exact Hstop.
Qed.

Lemma int_digits_foreign b l : b <= 16 -> Exists foreign l -> int_digits b l = None.
Proof.
  intros Hb Hx. unfold int_digits. destruct l as [|c t]; [reflexivity|]. destruct (digit_val c); [|reflexivity].
  destruct (_ <? b); [|reflexivity]. destruct (scan_digits b (c :: t) false 0) as [[v rest]|] eqn:E; [|reflexivity].
  rewrite (scan_foreign b _ Hb _ _ _ _ Hx E). reflexivity.
Qed.

Lemma lstrip_foreign s : Exists foreign s -> Exists foreign (lstrip_by is_cspace s).
Proof.
  induction s as [|c t IH]; intros H; [exact H|]. cbn [lstrip_by]. destruct (is_cspace c) eqn:E; [|exact H].
  inversion H as [? ? X|? ? X]; subst; [apply foreign_facts in X as (_ & X & _); congruence|exact (IH X)].
Qed.

Lemma override_foreign s m0 : Exists foreign s -> override_cpu_model s m0 = (Exn EError, m0).
Proof.
  intros Hx. apply lstrip_foreign in Hx. unfold override_cpu_model, py_int, py_int16.
  destruct (lstrip_by is_cspace s) as [|c t]; [reflexivity|].
  assert (Ht : (c = "+"%char \/ c = "-"%char) -> Exists foreign t).
  { intros Hc. inversion Hx as [? ? X|? ? X]; subst; [|exact X].
    apply foreign_facts in X as (_ & _ & _ & X & Y & _). destruct Hc; contradiction. }
  assert (H10 : forall l, Exists foreign l -> int_digits 10 l = None) by (intros l; apply int_digits_foreign; lia).
  assert (H16' : forall l, Exists foreign l -> int_digits 16 l = None) by (intros l; apply int_digits_foreign; lia).
  assert (H16 : forall l, Exists foreign l -> int_base16 l = None).
  { intros l Hl. unfold int_base16. destruct l as [|a [|x l]]; try (apply H16'; exact Hl).
    destruct (Ascii.eqb a "0" && (Ascii.eqb x "x" || Ascii.eqb x "X"))%bool eqn:E; [|apply H16'; exact Hl].
    apply andb_prop in E as [E1 E2]. apply Ascii.eqb_eq in E1. subst a. apply H16'.
    assert (Hxl : Exists foreign l).
    { inversion Hl as [? ? X|? ? Hl']; subst.
      - exfalso. destruct X as (_ & X & _). apply (X 0). exact (HD_dec "0"%char ltac:(cbn; lia)).
      - inversion Hl' as [? ? X|? ? Hl'']; subst; [|exact Hl'']. apply foreign_facts in X as (_ & _ & _ & _ & _ & X & Y).
        apply Bool.orb_prop in E2 as [E2|E2]; apply Ascii.eqb_eq in E2; contradiction. }
    destruct l as [|y l]; [exact Hxl|]. cbn [skip_us]. destruct (Ascii.eqb_spec y "_") as [->|]; [|exact Hxl].
    inversion Hxl as [? ? X|? ? X]; subst; [|exact X]. apply foreign_facts in X as (_ & _ & X & _). now destruct X. }
  destruct (Ascii.eqb_spec c "+") as [->|Hp]; [rewrite (H10 t), (H16 t); auto|].
  destruct (Ascii.eqb_spec c "-") as [->|Hm]; [rewrite (H10 t), (H16 t); auto|].
  rewrite (H10 _ Hx), (H16 _ Hx). reflexivity.
Qed.

(** ** tuned *)
Lemma tuned_result active r msgs : check_tuned active = (r, msgs) ->
  (In TunedActive msgs <-> active = Ok true) /\
  (In TunedCheckFailed msgs <-> exists e, active = Exn e /\ e <> ENotFound /\ project_error e) /\
  (length msgs <= 1)%nat /\
  (r = Ok tt \/ exists e, active = Exn e /\ r = Exn e /\ ~ project_error e).
Proof.
  unfold check_tuned. intros H.
  destruct active as [[]|e].
  1: { injection H as <- <-. split; [split; [reflexivity|now left]|]. split; [|split; [cbn; lia|now left]].
       split; [intros [X|[]]; discriminate X|intros (e & X & _); discriminate X]. }
  1: { injection H as <- <-. split; [split; [intros []|discriminate]|]. split; [|split; [cbn; lia|now left]].
       split; [intros []|intros (e & X & _); discriminate X]. }
  destruct (error_iff e) as [He1 He2].
  assert (Hd : e = ENotFound \/ e <> ENotFound) by (destruct e; (now left) || (right; discriminate)).
  destruct Hd as [->|Hd].
  - injection H as <- <-. split; [split; [intros []|discriminate]|]. split; [|split; [cbn; lia|now left]].
    split; [intros []|intros (e & X & Y & _); injection X as <-; now destruct Y].
  - assert (H' : (if catches_error e then (Ok tt, [TunedCheckFailed]) else (Exn e, [])) = (r, msgs)) by (destruct e; try exact H; now destruct Hd).
    clear H. destruct (catches_error e); injection H' as <- <-.
    + split; [split; [intros [X|[]]; discriminate X|discriminate]|]. split; [|split; [cbn; lia|now left]].
      split; [intros _; exists e; repeat split; auto|intros _; now left].
    + split; [split; [intros []|discriminate]|]. split.
      * split; [intros []|]. intros (e' & X & _ & Y). injection X as <-. discriminate (He2 Y).
      * split; [cbn; lia|]. right. exists e. repeat split. intros Y. discriminate (He2 Y).
Qed.
