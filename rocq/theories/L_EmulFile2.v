(** Lemmas about the emulated registers (C81). *)
From Coq Require Import Ascii String ZifyBool Lia.
From Verif Require Import Base M_Text M_EmulFile S_EmulFile L_Base.
Open Scope list_scope.
Open Scope nat_scope.

Lemma write_length p (x d : str) : x <> [] -> length (write_at p x d) = Nat.max (length d) (p + length x).
Proof.
  intros Hx. unfold write_at. destruct x as [|c x]; [now destruct Hx|]. rewrite !app_length, firstn_length, repeat_length, skipn_length. lia.
Qed.

Lemma nth_skip {A} (z : A) n : forall l i, nth i (skipn n l) z = nth (n + i) l z.
Proof. induction n as [|n IH]; intros l i; [reflexivity|]. destruct l as [|y l]; [destruct i; reflexivity|]. cbn [skipn Nat.add nth]. apply IH. Qed.

Lemma nth_first {A} (z : A) n : forall l i, i < n -> nth i (firstn n l) z = nth i l z.
Proof.
  induction n as [|n IH]; intros l i Hi; [lia|]. destruct l as [|y l]; [reflexivity|]. destruct i as [|i]; [reflexivity|]. cbn [firstn nth]. apply IH. lia.
Qed.

Lemma nth_write p (x d : str) i : x <> [] ->
  nth i (write_at p x d) nul = if (p <=? i) && (i <? p + length x) then nth (i - p) x nul else nth i d nul.
Proof.
  intros Hx. unfold write_at. destruct x as [|c x]; [now destruct Hx|]. remember (c :: x) as y. clear Heqy Hx c x.
  assert (Hl : length (firstn p d ++ repeat nul (p - length d)) = p) by (rewrite app_length, firstn_length, repeat_length; lia).
  rewrite app_assoc. destruct (Nat.leb_spec p i) as [H1|H1]; cbn [andb].
  - rewrite app_nth2 by lia. rewrite Hl. destruct (Nat.ltb_spec i (p + length y)) as [H2|H2].
    + apply app_nth1. lia.
    + rewrite app_nth2 by lia. rewrite nth_skip. f_equal. lia.
  - rewrite app_nth1 by lia. destruct (Nat.lt_ge_cases i (length d)) as [H2|H2].
    + rewrite app_nth1 by (rewrite firstn_length; lia). apply nth_first. lia.
    + rewrite app_nth2 by (rewrite firstn_length; lia). rewrite nth_repeat. symmetry. apply nth_overflow. lia.
Qed.

(** The bytes of a register, zeros beyond the end of the file *)
Definition bytes (a : nat) (d : str) : str := map (fun i => nth (a * 8 + i) d nul) (seq 0 8).

Lemma eight (x : str) : length x = 8 -> x = map (fun i => nth i x nul) (seq 0 8).
Proof. intros H. do 9 (destruct x as [|? x]; try discriminate H). reflexivity. Qed.

Lemma bytes_same a x d : length x = 8 -> bytes a (write_at (a * 8) x d) = x.
Proof.
  intros H. rewrite (eight x H) at 2. unfold bytes. apply map_ext_in. intros i Hi. apply in_seq in Hi. rewrite nth_write by (intros ->; discriminate H).
  replace ((a * 8 <=? a * 8 + i) && (a * 8 + i <? a * 8 + length x)) with true by lia. f_equal. lia.
Qed.

Lemma bytes_other a b x d : length x = 8 -> a <> b -> bytes b (write_at (a * 8) x d) = bytes b d.
Proof.
  intros H Hab. unfold bytes. apply map_ext_in. intros i Hi. apply in_seq in Hi. rewrite nth_write by (intros ->; discriminate H).
  replace ((a * 8 <=? b * 8 + i) && (b * 8 + i <? a * 8 + length x)) with false; [reflexivity|]. rewrite H. lia.
Qed.

Lemma read_bytes a d : a * 8 + 8 <= length d -> msr_read a d = bytes a d.
Proof.
  intros H. unfold msr_read, read_at, bytes. assert (Hl : length (firstn 8 (skipn (a * 8) d)) = 8) by (rewrite firstn_length, skipn_length; lia).
  rewrite (eight _ Hl). apply map_ext_in. intros i Hi. apply in_seq in Hi. rewrite nth_first by lia. apply nth_skip.
Qed.

Lemma msr_same_l a x d : length x = 8 -> msr_read a (msr_write a x d) = x.
Proof.
  intros H. unfold msr_write. rewrite read_bytes; [now apply bytes_same|]. rewrite write_length by (intros ->; discriminate H). lia.
Qed.

Lemma msr_other_l a b x d : length x = 8 -> a <> b -> b * 8 + 8 <= length d -> msr_read b (msr_write a x d) = msr_read b d.
Proof.
  intros H Hab Hb. unfold msr_write. rewrite !read_bytes; [now apply bytes_other|exact Hb|]. rewrite write_length by (intros ->; discriminate H). lia.
Qed.

(** ** The file made from the recorded values *)
Definition dict (pairs : list (nat * str)) (data : list (nat * str)) := fold_left (fun data av => dset Nat.eqb data (fst av * 8)%nat (snd av)) pairs data.
Definition fill (data : list (nat * str)) (d : str) := fold_left (fun d ov => write_at (fst ov) (snd ov) d) data d.
Definition good (data : list (nat * str)) : Prop := NoDup (map fst data) /\ Forall (fun ov => (exists a, fst ov = a * 8) /\ length (snd ov) = 8) data.

Lemma dset_member (d : list (nat * str)) k v o w : In (o, w) (dset Nat.eqb d k v) -> In (o, w) d \/ (o = k /\ w = v).
Proof.
  induction d as [|(k', v') d IH]; cbn [dset]; [intros [[= <- <-]|[]]; auto|].
  destruct (Nat.eqb_spec k k') as [->|Hk]; intros [E|H].
  - injection E as <- <-. auto.
  - left. now right.
  - left. now left.
  - destruct (IH H) as [G|G]; [left; now right|auto].
Qed.

Lemma good_dset data a v : good data -> length v = 8 -> good (dset Nat.eqb data (a * 8) v).
Proof.
  intros (Hn & Hf) Hv. split; [apply dset_NoDup; [apply Nat.eqb_eq|exact Hn]|]. rewrite Forall_forall in *. intros (o, w) Hin.
  apply dset_member in Hin as [Hin|(-> & ->)]; [now apply Hf|]. cbn. eauto.
Qed.

Lemma dict_good pairs : forall data, Forall (fun av => length (snd av) = 8) pairs -> good data -> good (dict pairs data).
Proof.
  induction pairs as [|(a, v) pairs IH]; intros data Hp Hd; [exact Hd|]. inversion Hp; subst. cbn [dict fold_left]. apply IH; [assumption|]. now apply good_dset.
Qed.

Lemma dict_none a pairs : forall data, ~ In a (map fst pairs) -> dget Nat.eqb (dict pairs data) (a * 8) = dget Nat.eqb data (a * 8).
Proof.
  induction pairs as [|(b, v) pairs IH]; intros data Ha; [reflexivity|]. cbn [map fst In] in Ha. cbn [dict fold_left fst snd].
  unfold dict in IH. rewrite IH by tauto. apply dget_dset_other; [apply Nat.eqb_eq|]. lia.
Qed.

Lemma dict_last a pairs v : last_value a pairs v -> forall data, dget Nat.eqb (dict pairs data) (a * 8) = Some v.
Proof.
  induction 1 as [v l H|x v l H IH]; intros data; cbn [dict fold_left fst snd].
  - pose proof (dict_none a l (dset Nat.eqb data (a * 8) v) H) as E. unfold dict in E. rewrite E. apply dget_dset_same, Nat.eqb_eq.
  - apply IH.
Qed.

Lemma fill_bytes a : forall data d, good data ->
  bytes a (fill data d) = match dget Nat.eqb data (a * 8) with Some v => v | None => bytes a d end.
Proof.
  induction data as [|(o, w) data IH]; intros d (Hn & Hf); [reflexivity|]. inversion Hn as [|? ? Hnot Hn']; subst. inversion Hf as [|? ? ((b & Eo) & Hw) Hf']; subst.
  cbn [fst snd] in *. subst o. cbn [fill fold_left fst snd dget]. unfold fill in IH. rewrite IH by (now split).
  destruct (Nat.eqb_spec (a * 8) (b * 8)) as [E|E].
  - assert (a = b) by lia. subst b. assert (En : dget Nat.eqb data (a * 8) = None) by (apply dget_None; [apply Nat.eqb_eq|exact Hnot]).
    rewrite En. now apply bytes_same.
  - destruct (dget Nat.eqb data (a * 8)); [reflexivity|]. apply bytes_other; [exact Hw|lia].
Qed.

Lemma fill_mono : forall data d, length d <= length (fill data d).
Proof.
  induction data as [|(o, w) data IH]; intros d; [apply le_n|]. cbn [fill fold_left fst snd]. eapply Nat.le_trans; [|apply IH].
  destruct w as [|c w]; [apply le_n|]. rewrite write_length by discriminate. lia.
Qed.

Lemma fill_length o w : forall data d, In (o, w) data -> length w = 8 -> o + 8 <= length (fill data d).
Proof.
  induction data as [|(o', w') data IH]; intros d Hin Hw; [destruct Hin|]. cbn [fill fold_left fst snd]. destruct Hin as [[= -> ->]|Hin]; [|now apply IH].
  eapply Nat.le_trans; [|apply fill_mono]. rewrite write_length by (intros ->; discriminate Hw). lia.
Qed.

Lemma dict_listed b v pairs : last_value b pairs v -> Forall (fun av => length (snd av) = 8) pairs -> b * 8 + 8 <= length (init_msrs pairs).
Proof.
  intros Hl Hp. pose proof (dict_last b pairs v Hl []) as E. apply (dget_In Nat.eqb Nat.eqb_eq) in E.
  pose proof (dict_good pairs [] Hp (conj (NoDup_nil _) (Forall_nil _))) as (_ & Hf). rewrite Forall_forall in Hf. destruct (Hf _ E) as (_ & Hv).
  exact (fill_length _ _ _ [] E Hv).
Qed.

Lemma init_bytes a pairs : Forall (fun av => length (snd av) = 8) pairs ->
  bytes a (init_msrs pairs) = match dget Nat.eqb (dict pairs []) (a * 8) with Some v => v | None => bytes a [] end.
Proof. intros Hp. apply (fill_bytes a (dict pairs []) []). apply dict_good; [exact Hp|]. split; constructor. Qed.

Lemma init_l a v pairs : Forall (fun av => length (snd av) = 8) pairs -> last_value a pairs v -> msr_read a (init_msrs pairs) = v.
Proof.
  intros Hp Hl. rewrite read_bytes; [|exact (dict_listed a v pairs Hl Hp)]. rewrite (init_bytes a pairs Hp). now rewrite (dict_last a pairs v Hl []).
Qed.

Lemma listed_last b pairs : In b (map fst pairs) -> exists v, last_value b pairs v.
Proof.
  induction pairs as [|(a, v) pairs IH]; intros H; [destruct H|]. destruct (in_dec Nat.eq_dec b (map fst pairs)) as [Hi|Hi].
  - destruct (IH Hi) as (w & Hw). exists w. now constructor.
  - destruct H as [E|H]; [|now destruct Hi]. cbn in E. subst a. exists v. now constructor.
Qed.

Lemma init_zero_l a b pairs : Forall (fun av => length (snd av) = 8) pairs -> ~ In a (map fst pairs) -> In b (map fst pairs) -> a < b ->
  msr_read a (init_msrs pairs) = repeat Ascii.zero 8.
Proof.
  intros Hp Ha Hb Hab. destruct (listed_last b pairs Hb) as (w & Hw). pose proof (dict_listed b w pairs Hw Hp) as Hl.
  rewrite read_bytes by lia. rewrite (init_bytes a pairs Hp), (dict_none a pairs [] Ha). cbn [dget]. unfold bytes.
  rewrite (map_ext _ (fun _ => nul)); [reflexivity|]. intros i. now destruct (a * 8 + i).
Qed.
