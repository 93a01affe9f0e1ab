(** Lemmas: a CPU that /proc/cpuinfo does not describe. *)
From Verif Require Import Base L_Base L_Monad M_Text S_Text L_Text M_CPUInfo S_CPUInfo M_Topo S_Topo L_Topo.
From Coq Require Import ZifyBool Sorted Permutation.

Lemma mfor_stuck {S A} (body : A -> M S unit) x l : In x l -> (forall s s', body x s <> (Ok tt, s')) ->
  forall s s', mfor l body s <> (Ok tt, s').
Proof.
  intros Hi Hx. induction l as [|y l IH]; [destruct Hi|]. intros s s' H.
  change (mfor (y :: l) body) with (body y ;; mfor l body) in H. unfold mbind in H.
  destruct (body y s) as ([[]|e], s1) eqn:E; [|discriminate]. destruct Hi as [-> |Hi].
  - exact (Hx _ _ E).
  - exact (IH Hi _ _ H).
Qed.

Lemma missing_l m on h ls o tl l t c : h_online h = Ok tl -> list_file tl l -> In c l ->
  h_cpuinfo h = Ok t -> on <> [] -> cpuinfo_file m on t -> ~ In c on ->
  exists e, fst (query h ls o new_obj) = Exn e.
Proof.
  intros H1 H2 H3 H4 H5 H6 H7. destruct (cpuinfo_missing m on t c H5 H6 H7) as (info & E & Hd).
  destruct (query h ls o new_obj) as ([rows|e], s') eqn:Q; [|exists e; reflexivity]. exfalso.
  unfold query, get_topology_of in Q. set (lv := match ls with [] => all_levels | _ => ls end) in *.
  assert (Hl : lv <> []) by (unfold lv; destruct ls; discriminate).
  unfold mbind, gets at 1, new_obj at 1 in Q. cbn [o_must] in Q.
  change (ret tt new_obj) with (Ok tt, new_obj) in Q. cbv beta iota in Q.
  unfold gets at 1 in Q. cbn [o_done new_obj] in Q.
  set (want := filter _ (level_union lv (skeys o))) in *.
  assert (Hw : exists w0 ws, want = w0 :: ws).
  { destruct lv as [|v lv']; [congruence|]. unfold want, level_union. cbn [app filter].
    assert (E0 : has_level v [] = false) by reflexivity. rewrite E0. cbn [negb]. eexists. eexists. reflexivity. }
  destruct Hw as (w0 & ws & Ew). rewrite Ew in Q.
  assert (On : online_cpus h new_obj = (Ok (dedup l), Obj (Some (dedup l)) [] false [] [] [])).
  { unfold online_cpus. cbn [o_cpus new_obj]. rewrite H1, (list_read _ _ H2). reflexivity. }
  assert (Hc : In c (dedup l)) by (apply dedup_In; exact H3).
  assert (On2 : online_cpus h (Obj (Some (dedup l)) [] false [] [] []) = (Ok (dedup l), Obj (Some (dedup l)) [] false [] [] [])).
  { unfold online_cpus. cbn [o_cpus]. destruct (dedup l); [destruct Hc | reflexivity]. }
  unfold gets at 1 in Q. cbn [o_tables new_obj] in Q. rewrite On in Q. unfold ret at 1 in Q. cbv beta iota in Q. rewrite On2 in Q.
  unfold filling in Q at 1. cbn [o_comp o_io] in Q.
  match type of Q with context [fill h ?w ?cs ?st] => set (W := st) in *; destruct (fill h w cs W) as ([[]|e], w1) eqn:F end; [|discriminate].
  unfold fill in F. assert (P : forall a, has_level LPkg (level_union a [LPkg; LCore]) = true).
  { intros a. unfold has_level, level_union. rewrite existsb_app. destruct (existsb (level_eqb LPkg) a) eqn:Ea; [reflexivity|].
    cbn [filter]. unfold has_level. rewrite Ea. cbn [negb existsb orb]. reflexivity. }
  rewrite P in F. cbn [orb] in F. unfold mbind at 1 in F.
  destruct (add_cores_and_packages h (dedup l) W) as ([[]|e], w2) eqn:A; [|discriminate].
  unfold add_cores_and_packages in A. unfold mbind at 1, lift at 1 in A. rewrite H4 in A. unfold mbind at 1, lift at 1 in A. rewrite E in A.
  revert A. apply (mfor_stuck _ c); [exact Hc|]. intros s1 s2 K. rewrite Hd in K. discriminate.
Qed.
