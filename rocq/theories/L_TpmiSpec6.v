(** Lemmas for C70: which files are accepted as descriptions of registers. *)
From Coq Require Import ZifyBool.
From Verif Require Import Base L_Base M_Text L_Text M_Tpmi M_TpmiSpec S_TpmiSpec.

Lemma fold_set_dget (kvs : list (str * yval)) : forall d k v,
  dget str_eqb (fold_left (fun d kv => dset str_eqb d (fst kv) (snd kv)) kvs d) k = Some v -> In (k, v) kvs \/ dget str_eqb d k = Some v.
Proof.
  induction kvs as [|(k', v') t IH]; intros d k v; cbn [fold_left fst snd]; [now right|].
  intros H. apply IH in H as [H|H]; [left; now right|].
  destruct (str_eqb k' k) eqn:E.
  - apply (proj1 (str_eqb_spec k' k)) in E. subst k'. rewrite (dget_dset_same _ str_eqb_spec) in H. injection H as <-. left. now left.
  - right. rewrite (dget_dset_other _ str_eqb_spec) in H; [exact H|]. intros ->. rewrite (proj2 (str_eqb_spec _ _) eq_refl) in E. discriminate.
Qed.

Lemma fold_set_keys (kvs : list (str * yval)) : forall d k,
  In k (map fst (fold_left (fun d kv => dset str_eqb d (fst kv) (snd kv)) kvs d)) <-> In k (map fst kvs) \/ In k (map fst d).
Proof.
  induction kvs as [|(k', v') t IH]; intros d k; cbn [fold_left fst snd map]; [cbn [In]; tauto|].
  rewrite IH. rewrite (dset_keys_In _ str_eqb_spec). cbn [In]. intuition congruence.
Qed.

Lemma load_fdict_ok c fd : load_fdict c = Ok fd -> exists kvs l, c = CMap kvs /\
  (forall key, In key (map fst kvs) <-> In key (map s2l ["name"; "desc"; "feature-id"; "registers"]%string)) /\
  In (s2l "registers"%string, YRegs l) kvs /\ format_fdict l = Ok fd.
Proof.
  unfold load_fdict. destruct c as [| |kvs]; [discriminate|discriminate|]. set (d := fold_left _ kvs []).
  destruct (dget str_eqb d k_regs) as [v|] eqn:Ev; [|discriminate].
  destruct (forallb _ d) eqn:E1; cbn [negb]; [|discriminate]. destruct (forallb _ top_keys) eqn:E2; cbn [negb]; [|discriminate].
  destruct v as [t|l]; [discriminate|]. intros H. exists kvs, l. split; [reflexivity|]. rewrite forallb_forall in E1, E2.
  assert (Hk : forall k, In k (map fst d) <-> In k (map fst kvs)).
  { intros k. unfold d. rewrite fold_set_keys. cbn [map In]. tauto. }
  split; [|split; [|exact H]].
  - intros key. rewrite <- Hk. change (map s2l _) with top_keys. split.
    + intros H1. apply in_map_iff in H1 as (kv & <- & H1). specialize (E1 _ H1). apply existsb_exists in E1 as (x & Hx & Ex).
      apply (proj1 (str_eqb_spec _ _)) in Ex. rewrite Ex. exact Hx.
    + intros H1. specialize (E2 _ H1). cbn beta in E2. destruct (dget str_eqb d key) as [v|] eqn:E; [|discriminate].
      apply (dget_In _ str_eqb_spec) in E. apply in_map_iff. now exists (key, v).
  - apply fold_set_dget in Ev as [Ev|Ev]; [exact Ev|discriminate Ev].
Qed.

Lemma four_keys_l : forall dirs fname fd, get_fdict dirs fname = Ok fd -> exists k files kvs l,
  nth_error dirs k = Some files /\
  (forall k' files', (k' < k)%nat -> nth_error dirs k' = Some files' -> ~ In (fname ++ s2l ".yml"%string) (map fst files')) /\
  In (fname ++ s2l ".yml"%string, CMap kvs) files /\
  (forall key, In key (map fst kvs) <-> In key (map s2l ["name"; "desc"; "feature-id"; "registers"]%string)) /\
  In (s2l "registers"%string, YRegs l) kvs /\ format_fdict l = Ok fd.
Proof.
  intros dirs fname fd. induction dirs as [|d t IH]; cbn [get_fdict]; [discriminate|].
  destruct (dget str_eqb d (fname ++ s2l ".yml")) as [c|] eqn:E.
  - intros H. apply load_fdict_ok in H as (kvs & l & -> & H1 & H2 & H3). exists 0%nat, d, kvs, l.
    split; [reflexivity|]. split; [intros k' f Hl; lia|]. split; [exact (dget_In _ str_eqb_spec _ _ _ E)|]. auto.
  - intros H. destruct (IH H) as (k & files & kvs & l & H1 & H2 & H3). exists (S k), files, kvs, l. split; [exact H1|]. split; [|exact H3].
    intros [|k'] f Hl Hf; cbn [nth_error] in Hf.
    + injection Hf as <-. now apply (dget_None _ str_eqb_spec) in E.
    + apply (H2 k' f); [lia|exact Hf].
Qed.
