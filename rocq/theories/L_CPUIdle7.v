(** The statements of C31 and C49. *)
From Coq Require Import Ascii String ZifyBool Permutation Sorted.
From Verif Require Import Base L_Base L_Monad M_CPUInfo S_CPUInfo L_CPUInfo M_Text S_Text L_Text M_Human L_Human M_CPUIdle S_CPUIdle L_CPUIdle L_CPUIdle2 L_CPUIdle3 L_CPUIdle4 L_CPUIdle5 L_CPUIdle6.

Lemma asked_swap mc nst csnames cpus c0 c n : (is_all csnames -> same_names mc nst (cs_targets mc cpus)) ->
  In c0 (cs_targets mc cpus) -> In c (cs_targets mc cpus) ->
  asked csnames (own_names mc nst c0) n <-> asked csnames (own_names mc nst c) n.
Proof.
  intros Hs H0 Hc. unfold asked. destruct csnames as [t|l]; [|reflexivity]. destruct (str_eqb t (s2l "all"%string)) eqn:E; [|reflexivity].
  apply str_eqb_eq in E. subst t. specialize (Hs eq_refl). split; apply Hs; assumption.
Qed.

Lemma reach mc nst b flags gov tick rf wf ops : idle_ok mc nst -> flags_ok mc nst flags -> (b = true -> rf = []) ->
  Inv mc nst b (irun mc ops (idle_init flags gov tick rf wf)) /\ gov_ok mc (irun mc ops (idle_init flags gov tick rf wf)).
Proof.
  intros Hok Hf Hr. destruct (init_Inv mc nst b flags gov tick rf wf Hf Hr) as (A & B). now apply (run_Inv mc nst Hok).
Qed.

Lemma hd_of {A} (l : list A) x : In x l -> exists y, hd_error l = Some y /\ In y l.
Proof. destruct l as [|y l]; [intros []|]. intros _. exists y. split; [reflexivity|now left]. Qed.

Lemma info_exact : forall mc nst, idle_ok mc nst -> forall flags, flags_ok mc nst flags -> forall ops gov tick wf cpus csnames r s',
  get_cstates_info mc cpus csnames (irun mc ops (idle_init flags gov tick [] wf)) = (Ok r, s') ->
  (is_all csnames -> same_names mc nst (cs_targets mc cpus)) ->
  NoDup (map fst r) /\ (forall c, In c (cs_targets mc cpus) <-> In c (map fst r)) /\
  (forall c info, In (c, info) r -> tells mc nst (id_flags s') c (asked csnames (own_names mc nst c)) info).
Proof.
  intros mc nst Hok flags Hf ops gov tick wf cpus csnames r s' E Hs.
  destruct (reach mc nst true flags gov tick [] wf ops Hok Hf ltac:(reflexivity)) as (HI & _).
  assert (H := post_run _ _ _ _ _ _ (info_post mc nst Hok (fun _ _ => False) true cpus csnames _ HI) E). cbn beta iota in H.
  destruct H as (_ & _ & _ & l & ns & Hl & Hr & Hns & Ho & Hsh).
  destruct (norm_cpus mc nst Hok cpus l Hl) as (N1 & N2 & N3). rewrite Hr. split; [exact N1|]. split; [intros c; now rewrite N3|].
  intros c info Hc. destruct (Hsh c info Hc) as (S1 & S2 & S3).
  assert (Hcl : In c l) by (rewrite <- Hr; apply in_map_iff; now exists (c, info)).
  destruct (hd_of l c Hcl) as (c0 & H0 & H0l).
  assert (Ha : forall n, In n ns <-> asked csnames (own_names mc nst c) n).
  { intros n. rewrite (Hns c0 H0). apply (asked_swap mc nst csnames cpus); [exact Hs|now apply N3|now apply N3]. }
  split; [exact S1|]. split.
  - intros i Hi Hw. apply S2; [exact Hi|]. now apply Ha.
  - intros n cs H. destruct (S3 n cs H) as (i & Hi & -> & Hw & D & B). destruct (B eq_refl) as (off & O1 & O2).
    exists i, off. split; [exact Hi|]. split; [reflexivity|]. split; [now apply Ha|]. split; [exact D|]. now split.
Qed.

Lemma info_frame : forall mc nst, idle_ok mc nst -> forall flags, flags_ok mc nst flags -> forall ops gov tick rf wf cpus csnames,
  let s := irun mc ops (idle_init flags gov tick rf wf) in
  forall c i, id_flags (snd (get_cstates_info mc cpus csnames s)) c i = id_flags s c i.
Proof.
  intros mc nst Hok flags Hf ops gov tick rf wf cpus csnames s c i.
  destruct (reach mc nst false flags gov tick rf wf ops Hok Hf ltac:(discriminate)) as (HI & _). fold s in HI.
  assert (H := info_post mc nst Hok (fun _ _ => False) false cpus csnames _ HI). unfold post in H.
  destruct (get_cstates_info mc cpus csnames s) as ([r|e], s'); destruct H as (_ & (A & _) & _); cbn [snd]; apply A; auto.
Qed.

Lemma toggle_exact : forall mc nst, idle_ok mc nst -> forall flags, flags_ok mc nst flags -> forall ops gov tick rf wf csnames cpus en ts s',
  let s := irun mc ops (idle_init flags gov tick rf wf) in
  toggle_cstates mc csnames cpus en s = (Ok ts, s') ->
  (is_all csnames -> same_names mc nst (cs_targets mc cpus)) ->
  (forall c i, In c (cs_targets mc cpus) -> 0 <= i < nst c -> asked csnames (own_names mc nst c) (cs_name mc c i) ->
     id_flags s' c i = flag_text (negb en)) /\
  (forall c i, ~ (In c (cs_targets mc cpus) /\ 0 <= i < nst c /\ asked csnames (own_names mc nst c) (cs_name mc c i)) ->
     id_flags s' c i = id_flags s c i) /\
  NoDup (map fst ts) /\
  (forall c names, In (c, names) ts -> In c (cs_targets mc cpus) /\ NoDup names /\
     forall n, In n names <-> In n (own_names mc nst c) /\ asked csnames (own_names mc nst c) n) /\
  (forall c n, In c (cs_targets mc cpus) -> asked csnames (own_names mc nst c) n -> In c (map fst ts)).
Proof.
  intros mc nst Hok flags Hf ops gov tick rf wf csnames cpus en ts s' s E Hs.
  destruct (reach mc nst false flags gov tick rf wf ops Hok Hf ltac:(discriminate)) as (HI & _). fold s in HI.
  assert (H := post_run _ _ _ _ _ _ (toggle_post mc nst Hok false csnames cpus en _ HI) E). cbn beta iota in H.
  destruct H as (_ & (Hfr & _) & _ & l & ns & Hl & Hns & Ho & Hfl & T1 & T2 & T3).
  destruct (norm_cpus mc nst Hok cpus l Hl) as (N1 & N2 & N3).
  assert (Ha : forall c, In c l -> forall n, In n ns <-> asked csnames (own_names mc nst c) n).
  { intros c Hc n. destruct (hd_of l c Hc) as (c0 & H0 & H0l). rewrite (Hns c0 H0). apply (asked_swap mc nst csnames cpus); [exact Hs|now apply N3|now apply N3]. }
  split; [|split; [|split; [exact T1|split]]].
  - intros c i Hc Hi Hw. apply N3 in Hc. apply Hfl; [exact Hc|exact Hi|]. now apply (Ha c).
  - intros c i Hn. apply Hfr. intros (Hc & Hi & c0 & H0 & Hw). apply Hn. split; [exact Hc|]. split; [exact Hi|].
    now apply (asked_swap mc nst csnames cpus c0 c).
  - intros c names H. destruct (T2 c names H) as (Hc & Hnd & Hin). split; [now apply N3|]. split; [exact Hnd|].
    intros n. rewrite Hin, (Ha c Hc). split; [|tauto]. intros H1. split; [|exact H1]. apply Ho; [exact Hc|]. now apply (Ha c).
  - intros c n Hc Hn. apply N3 in Hc. destruct (T3 c n Hc) as (names & H); [now apply (Ha c)|]. apply in_map_iff. now exists (c, names).
Qed.

Lemma toggle_frame : forall mc nst, idle_ok mc nst -> forall flags, flags_ok mc nst flags -> forall ops gov tick rf wf csnames cpus en c i,
  let s := irun mc ops (idle_init flags gov tick rf wf) in
  let s' := snd (toggle_cstates mc csnames cpus en s) in
  (~ toggles mc nst csnames cpus c i -> id_flags s' c i = id_flags s c i) /\
  (In c (ci_online (mc_ci mc)) -> 0 <= i < nst c -> exists off, id_flags s' c i = flag_text off).
Proof.
  intros mc nst Hok flags Hf ops gov tick rf wf csnames cpus en c i s s'.
  destruct (reach mc nst false flags gov tick rf wf ops Hok Hf ltac:(discriminate)) as (HI & _). fold s in HI.
  assert (H := toggle_post mc nst Hok false csnames cpus en _ HI). unfold post in H. unfold s'.
  destruct (toggle_cstates mc csnames cpus en s) as ([r|e], s1); destruct H as ((I1 & _) & (A & _) & _); cbn [snd];
    (split; [apply A|intros Hc Hi; now apply I1]).
Qed.

Lemma unknown_refused : forall mc nst, idle_ok mc nst -> forall flags, flags_ok mc nst flags -> forall ops gov tick rf wf csnames cpus en c n,
  let s := irun mc ops (idle_init flags gov tick rf wf) in
  (In c (cs_targets mc cpus) /\ ~ is_all csnames /\ asked csnames (own_names mc nst c) n /\ ~ In n (own_names mc nst c)) \/
  (In c (cs_targets mc cpus) /\ ~ In c (ci_online (mc_ci mc))) ->
  (forall r, fst (get_cstates_info mc cpus csnames s) <> Ok r) /\ (forall r, fst (toggle_cstates mc csnames cpus en s) <> Ok r).
Proof.
  intros mc nst Hok flags Hf ops gov tick rf wf csnames cpus en c n s HB.
  destruct (reach mc nst false flags gov tick rf wf ops Hok Hf ltac:(discriminate)) as (HI & _). fold s in HI.
  assert (G : forall l ns, normalize_cpus (mc_ci mc) cpus false = Ok l ->
     (forall c0, hd_error l = Some c0 -> forall n, In n ns <-> asked csnames (own_names mc nst c0) n) ->
     (forall c n, In c l -> In n ns -> In n (own_names mc nst c)) -> False).
  { intros l ns Hl Hns Ho. destruct (norm_cpus mc nst Hok cpus l Hl) as (N1 & N2 & N3).
    destruct HB as [(Hc & Hna & Hw & Hno)|(Hc & Hno)].
    - apply Hno. apply N3 in Hc. apply Ho; [exact Hc|]. destruct (hd_of l c Hc) as (c0 & H0 & H0l). rewrite (Hns c0 H0).
      apply (asked_swap mc nst csnames cpus c0 c); [contradiction|now apply N3|now apply N3|exact Hw].
    - apply Hno, N2. now apply N3. }
  split; intros r E.
  - assert (H := info_post mc nst Hok (fun _ _ => False) false cpus csnames _ HI). unfold post in H.
    destruct (get_cstates_info mc cpus csnames s) as (x, s'). cbn [fst] in E. subst x.
    destruct H as (_ & _ & _ & l & ns & Hl & _ & Hns & Ho & _). exact (G l ns Hl Hns Ho).
  - assert (H := toggle_post mc nst Hok false csnames cpus en _ HI). unfold post in H.
    destruct (toggle_cstates mc csnames cpus en s) as (x, s'). cbn [fst] in E. subst x.
    destruct H as (_ & _ & _ & l & ns & Hl & Hns & Ho & _). exact (G l ns Hl Hns Ho).
Qed.

Lemma has_names_from mc nst csnames cpus : (is_all csnames -> same_names mc nst (cs_targets mc cpus)) ->
  (forall c n, In c (cs_targets mc cpus) -> asked csnames (own_names mc nst c) n -> In n (own_names mc nst c)) ->
  has_names mc nst csnames cpus.
Proof.
  intros Hs Hn c0 c n H0 Hc Ha. apply Hn; [exact Hc|]. now apply (asked_swap mc nst csnames cpus c0 c).
Qed.

Lemma known_from mc cpus : incl (cs_targets mc cpus) (ci_online (mc_ci mc)) -> cpus_known mc cpus.
Proof. intros H l ->. exact H. Qed.

Lemma info_succeeds : forall mc nst, idle_ok mc nst -> forall flags, flags_ok mc nst flags -> forall ops gov tick wf cpus csnames,
  incl (cs_targets mc cpus) (ci_online (mc_ci mc)) ->
  (is_all csnames -> same_names mc nst (cs_targets mc cpus)) ->
  (forall c n, In c (cs_targets mc cpus) -> asked csnames (own_names mc nst c) n -> In n (own_names mc nst c)) ->
  exists r, fst (get_cstates_info mc cpus csnames (irun mc ops (idle_init flags gov tick [] wf))) = Ok r.
Proof.
  intros mc nst Hok flags Hf ops gov tick wf cpus csnames Hc Hs Hn. set (s := irun mc ops _).
  destruct (reach mc nst true flags gov tick [] wf ops Hok Hf ltac:(reflexivity)) as (HI & _). fold s in HI.
  assert (H := info_post mc nst Hok (fun _ _ => False) true cpus csnames _ HI). unfold post in H.
  destruct (get_cstates_info mc cpus csnames s) as ([r|e], s'); [now exists r|]. exfalso. destruct H as (_ & _ & H).
  apply H; [now apply HI|now apply known_from|now apply has_names_from].
Qed.

Lemma toggle_succeeds : forall mc nst, idle_ok mc nst -> obeys mc nst -> forall flags, flags_ok mc nst flags -> forall ops gov tick rf wf csnames cpus en,
  let s := irun mc ops (idle_init flags gov tick rf wf) in
  id_rf s = [] -> id_wf s = [] ->
  incl (cs_targets mc cpus) (ci_online (mc_ci mc)) ->
  (is_all csnames -> same_names mc nst (cs_targets mc cpus)) ->
  (forall c n, In c (cs_targets mc cpus) -> asked csnames (own_names mc nst c) n -> In n (own_names mc nst c)) ->
  exists ts, fst (toggle_cstates mc csnames cpus en s) = Ok ts.
Proof.
  intros mc nst Hok Hob flags Hf ops gov tick rf wf csnames cpus en s Hr Hw Hc Hs Hn.
  destruct (reach mc nst false flags gov tick rf wf ops Hok Hf ltac:(discriminate)) as (HI & _). fold s in HI.
  assert (H := toggle_post mc nst Hok false csnames cpus en _ HI). unfold post in H.
  destruct (toggle_cstates mc csnames cpus en s) as ([r|e], s'); [now exists r|]. exfalso. destruct H as (_ & _ & H).
  apply H. split; [exact Hob|]. split; [exact Hr|]. split; [exact Hw|]. split; [now apply known_from|now apply has_names_from].
Qed.

(** The governor. *)
Lemma gov_read : forall mc nst, idle_ok mc nst -> gov_stores mc -> forall flags, flags_ok mc nst flags -> forall ops gov tick rf wf g s',
  let s := irun mc ops (idle_init flags gov tick rf wf) in
  get_current_governor mc s = (Ok g, s') -> g = strip (id_gov s) /\ id_gov s' = id_gov s.
Proof.
  intros mc nst Hok HS flags Hf ops gov tick rf wf g s' s E.
  destruct (reach mc nst false flags gov tick rf wf ops Hok Hf ltac:(discriminate)) as (HI & HG). fold s in HI, HG.
  assert (H := post_run _ _ _ _ _ _ (gov_post mc nst Hok false s HI HG) E). cbn beta iota in H. destruct H as (_ & A & _ & B).
  split; [now apply B|apply A].
Qed.

Lemma gov_set : forall mc nst, idle_ok mc nst -> gov_stores mc -> forall flags, flags_ok mc nst flags -> forall ops gov tick rf wf g r s',
  let s := irun mc ops (idle_init flags gov tick rf wf) in
  set_current_governor mc g s = (r, s') ->
  (r = Ok tt -> strip (id_gov s') = g /\ offered mc g) /\
  (r <> Ok tt -> id_gov s' = id_gov s) /\
  (forall c i, id_flags s' c i = id_flags s c i).
Proof.
  intros mc nst Hok HS flags Hf ops gov tick rf wf g r s' s E.
  destruct (reach mc nst false flags gov tick rf wf ops Hok Hf ltac:(discriminate)) as (HI & HG). fold s in HI, HG.
  assert (H := post_run _ _ _ _ _ _ (set_gov_post mc nst Hok false g s HI HG) E). destruct r as [[]|e]; cbn beta iota in H.
  - destruct H as (_ & _ & A & B & C & _). split; [intros _; split; [now apply B|exact C]|]. split; [congruence|exact A].
  - destruct H as (_ & _ & A & B & C). split; [discriminate|]. split; [intros _; exact B|exact A].
Qed.

Lemma gov_untouched : forall mc nst, idle_ok mc nst -> forall flags, flags_ok mc nst flags -> forall ops gov tick rf wf o,
  let s := irun mc ops (idle_init flags gov tick rf wf) in
  (forall g, o <> ISetGovernor g) -> id_gov (istep mc o s) = id_gov s.
Proof.
  intros mc nst Hok flags Hf ops gov tick rf wf o s Ho.
  destruct (reach mc nst false flags gov tick rf wf ops Hok Hf ltac:(discriminate)) as (HI & HG). fold s in HI, HG.
  destruct o as [cpus cs|cs cpus en| | | |g]; cbn [istep].
  - assert (H := info_post mc nst Hok (fun _ _ => False) false cpus cs s HI). unfold post in H.
    destruct (get_cstates_info mc cpus cs s) as ([r|e], s'); destruct H as (_ & (_ & A & _) & _); exact A.
  - assert (H := toggle_post mc nst Hok false cs cpus en s HI). unfold post in H.
    destruct (toggle_cstates mc cs cpus en s) as ([r|e], s'); destruct H as (_ & (_ & A & _) & _); exact A.
  - assert (H := driver_post mc nst Hok (fun _ _ => False) false s HI). unfold post in H.
    destruct (get_idle_driver mc s) as ([r|e], s'); [destruct H as (_ & _ & (_ & A & _) & _)|destruct H as (_ & (_ & A & _) & _)]; exact A.
  - assert (H := gov_post mc nst Hok false s HI HG). unfold post in H.
    destruct (get_current_governor mc s) as ([r|e], s'); destruct H as (_ & (_ & A & _) & _); exact A.
  - assert (H := avail_post mc nst Hok false s HI HG). unfold post in H.
    destruct (get_available_governors mc s) as ([r|e], s'); destruct H as (_ & (_ & A & _) & _); exact A.
  - now destruct (Ho g).
Qed.

Lemma gov_untouched_run mc nst : idle_ok mc nst -> forall ops2 b s, Inv mc nst b s -> gov_ok mc s ->
  (forall o g, In o ops2 -> o <> ISetGovernor g) -> id_gov (irun mc ops2 s) = id_gov s.
Proof.
  intros Hok. induction ops2 as [|o ops2 IH]; intros b s HI HG Hno; [reflexivity|]. cbn [irun fold_left].
  destruct (step_Inv mc nst Hok b o s HI HG) as (HI1 & HG1). change (id_gov (irun mc ops2 (istep mc o s)) = id_gov s).
  rewrite (IH b); [|assumption|assumption|intros x g Hx; apply Hno; now right].
  assert (Ho : forall g, o <> ISetGovernor g) by (intros g; apply Hno; now left). clear IH HI1 HG1.
  destruct o as [cpus cs|cs cpus en| | | |g]; cbn [istep].
  - assert (H := info_post mc nst Hok (fun _ _ => False) b cpus cs s HI). unfold post in H.
    destruct (get_cstates_info mc cpus cs s) as ([r|e], s'); destruct H as (_ & (_ & A & _) & _); exact A.
  - assert (H := toggle_post mc nst Hok b cs cpus en s HI). unfold post in H.
    destruct (toggle_cstates mc cs cpus en s) as ([r|e], s'); destruct H as (_ & (_ & A & _) & _); exact A.
  - assert (H := driver_post mc nst Hok (fun _ _ => False) b s HI). unfold post in H.
    destruct (get_idle_driver mc s) as ([r|e], s'); [destruct H as (_ & _ & (_ & A & _) & _)|destruct H as (_ & (_ & A & _) & _)]; exact A.
  - assert (H := gov_post mc nst Hok b s HI HG). unfold post in H.
    destruct (get_current_governor mc s) as ([r|e], s'); destruct H as (_ & (_ & A & _) & _); exact A.
  - assert (H := avail_post mc nst Hok b s HI HG). unfold post in H.
    destruct (get_available_governors mc s) as ([r|e], s'); destruct H as (_ & (_ & A & _) & _); exact A.
  - now destruct (Ho g).
Qed.

(** The governor last set is the one that is read, whatever is done in between. *)
Lemma gov_last_set : forall mc nst, idle_ok mc nst -> gov_stores mc -> forall flags, flags_ok mc nst flags ->
  forall ops ops2 gov tick rf wf g s1 g' s2,
  set_current_governor mc g (irun mc ops (idle_init flags gov tick rf wf)) = (Ok tt, s1) ->
  (forall o g, In o ops2 -> o <> ISetGovernor g) ->
  get_current_governor mc (irun mc ops2 s1) = (Ok g', s2) -> g' = g.
Proof.
  intros mc nst Hok HS flags Hf ops ops2 gov tick rf wf g s1 g' s2 E1 Hno E2.
  destruct (reach mc nst false flags gov tick rf wf ops Hok Hf ltac:(discriminate)) as (HI & HG).
  assert (H := post_run _ _ _ _ _ _ (set_gov_post mc nst Hok false g _ HI HG) E1). cbn beta iota in H.
  destruct H as (HI1 & HG1 & _ & Hg & _). destruct (run_Inv mc nst Hok false ops2 s1 HI1 HG1) as (HI2 & HG2).
  assert (H := post_run _ _ _ _ _ _ (gov_post mc nst Hok false _ HI2 HG2) E2). cbn beta iota in H. destruct H as (_ & _ & _ & B).
  rewrite B by exact HS. rewrite (gov_untouched_run mc nst Hok ops2 false s1) by assumption. now apply Hg.
Qed.

Lemma gov_refused : forall mc nst, idle_ok mc nst -> forall flags, flags_ok mc nst flags -> forall ops gov tick rf wf g,
  let s := irun mc ops (idle_init flags gov tick rf wf) in
  ~ offered mc g -> fst (set_current_governor mc g s) <> Ok tt /\ id_gov (snd (set_current_governor mc g s)) = id_gov s.
Proof.
  intros mc nst Hok flags Hf ops gov tick rf wf g s Hno.
  destruct (reach mc nst false flags gov tick rf wf ops Hok Hf ltac:(discriminate)) as (HI & HG). fold s in HI, HG.
  assert (H := set_gov_post mc nst Hok false g s HI HG). unfold post in H.
  destruct (set_current_governor mc g s) as ([[]|e], s'); cbn [fst snd].
  - now destruct H as (_ & _ & _ & _ & H & _).
  - destruct H as (_ & _ & _ & H & _). split; [discriminate|exact H].
Qed.

Lemma gov_set_succeeds : forall mc nst, idle_ok mc nst -> gov_accepts mc -> forall flags, flags_ok mc nst flags -> forall ops gov tick rf wf g,
  let s := irun mc ops (idle_init flags gov tick rf wf) in
  id_rf s = [] -> id_wf s = [] -> offered mc g -> fst (set_current_governor mc g s) = Ok tt.
Proof.
  intros mc nst Hok Ha flags Hf ops gov tick rf wf g s Hr Hw Ho.
  destruct (reach mc nst false flags gov tick rf wf ops Hok Hf ltac:(discriminate)) as (HI & HG). fold s in HI, HG.
  assert (H := set_gov_post mc nst Hok false g s HI HG). unfold post in H.
  destruct (set_current_governor mc g s) as ([[]|e], s'); [reflexivity|]. exfalso. destruct H as (_ & _ & _ & _ & H). now apply H.
Qed.

Lemma gov_get_succeeds : forall mc nst, idle_ok mc nst -> mc_hasgov mc = true -> forall flags, flags_ok mc nst flags -> forall ops gov tick rf wf,
  let s := irun mc ops (idle_init flags gov tick rf wf) in
  id_rf s = [] -> exists g, fst (get_current_governor mc s) = Ok g.
Proof.
  intros mc nst Hok Ha flags Hf ops gov tick rf wf s Hr.
  destruct (reach mc nst false flags gov tick rf wf ops Hok Hf ltac:(discriminate)) as (HI & HG). fold s in HI, HG.
  assert (H := gov_post mc nst Hok false s HI HG). unfold post in H.
  destruct (get_current_governor mc s) as ([g|e], s'); [now exists g|]. exfalso. destruct H as (_ & _ & _ & [H|H]); congruence.
Qed.
