(** Lemmas for C71: C-states for people. *)
From Coq Require Import Ascii String ZifyBool.
From Verif Require Import Base L_Base L_Monad M_CPUInfo S_CPUInfo L_CPUInfo L_CPUInfo2 M_Text S_Text L_Text M_Human M_CPUIdle S_CPUIdle L_CPUIdle5 L_CPUIdle7
  M_CSave S_CSave L_CSave L_CSave2 L_CSave3 M_Props M_OpTarget M_Print S_Print L_Print4 M_InfoCmd S_InfoCmd.

Lemma flat_map_concat_map' {A B} (f : A -> list B) l : concat (map f l) = flat_map f l.
Proof. induction l; cbn; [reflexivity|now f_equal]. Qed.

Definition key_shown (key : str) : bool := match key_name key with Some _ => true | None => false end.

Definition details_of (d : list (str * kinfo)) : list (str * cval) :=
  flat_map (fun kk => if key_shown (fst kk) then map (fun vc => (fst kk, fst vc)) (snd kk) else []) d.

Lemma rmap_ok {A B} (f : A -> res B) (g : A -> B) l : (forall x, In x l -> f x = Ok (g x)) -> rmap l f = Ok (map g l).
Proof.
  induction l as [|x t IH]; cbn [rmap map]; intros H; [reflexivity|].
  rewrite (H x) by now left. cbn [rbind]. rewrite IH by (intros y I; apply H; now right). reflexivity.
Qed.

Lemma key_shown_In key : key_shown key = true <-> In key cs_details.
Proof.
  unfold key_shown, key_name, cs_details. cbn [map In]. split.
  - destruct (str_eqb key (s2l "latency"%string)) eqn:E1; [apply str_eqb_spec in E1; intuition|].
    destruct (str_eqb key (s2l "residency"%string)) eqn:E2; [apply str_eqb_spec in E2; intuition|].
    destruct (str_eqb key (s2l "desc"%string)) eqn:E3; [apply str_eqb_spec in E3; intuition|discriminate].
  - intros H. assert (H' : key = s2l "desc"%string \/ key = s2l "latency"%string \/ key = s2l "residency"%string) by intuition.
    destruct H' as [->|[->| ->]]; reflexivity.
Qed.

Lemma detail_ok ci (group : bool) key v name sfx : key_name key = Some (name, sfx) ->
  val_msg ci (val_text v) name None (Some (if group then s2l "    - "%string else s2l " - "%string)) sfx None = Ok (detail_line group (key, v)).
Proof.
  unfold key_name, val_msg, detail_line. cbn [rbind fst snd opt_text].
  destruct (str_eqb key (s2l "latency"%string)) eqn:E1.
  { apply str_eqb_spec in E1. subst key. intros [= <- <-]. cbn [opt_text]. f_equal.
    change (str_eqb (s2l "latency"%string) (s2l "desc"%string)) with false. destruct group, v; reflexivity. }
  destruct (str_eqb key (s2l "residency"%string)) eqn:E2.
  { apply str_eqb_spec in E2. subst key. intros [= <- <-]. cbn [opt_text]. f_equal.
    change (str_eqb (s2l "residency"%string) (s2l "desc"%string)) with false. destruct group, v; reflexivity. }
  destruct (str_eqb key (s2l "desc"%string)) eqn:E3; [|discriminate]. intros [= <- <-]. cbn [opt_text]. f_equal.
  destruct group, v; cbn [val_text app]; reflexivity.
Qed.

Lemma details_ok ci (group : bool) d :
  detail_lines ci (if group then s2l "    - "%string else s2l " - "%string) d = Ok (map (detail_line group) (details_of d)).
Proof.
  unfold detail_lines.
  rewrite (rmap_ok (A := str * kinfo) (B := list str) _ (fun kk => map (detail_line group) (if key_shown (fst kk) then map (fun vc => (fst kk, fst vc)) (snd kk) else []))).
  - cbn [rbind]. f_equal. unfold details_of. rewrite <- flat_map_concat_map'. rewrite concat_map, map_map. reflexivity.
  - intros (key, k) _. cbn [fst snd]. unfold key_shown. destruct (key_name key) as [(name, sfx)|] eqn:E; [|reflexivity].
    rewrite map_map. apply rmap_ok. intros (v, l) _. cbn [fst]. now apply detail_ok.
Qed.

Lemma status_inv ci action (group : bool) n k ls :
  rmap k (fun vc => val_msg ci (on_off (fst vc)) n (Some (snd vc)) (if group then Some (s2l " - "%string) else None) None action) = Ok ls ->
  exists sts, ls = map (status_line action group n) sts /\
    Forall2 (fun vc st => fst st = (M_CSave.truthy (fst vc), snd vc) /\ fmt_cpus ci (snd vc) = Ok (snd st)) k sts.
Proof.
  revert ls. induction k as [|(v, l) t IH]; cbn [rmap]; intros ls H.
  - injection H as <-. exists []. split; [reflexivity|constructor].
  - match type of H with rbind ?r _ = _ => destruct r as [x|] eqn:E1 end; cbn [rbind] in H; [|discriminate H].
    match type of H with rbind ?r _ = _ => destruct r as [xs|] eqn:E2 end; cbn [rbind] in H; [|discriminate H]. injection H as <-.
    destruct (IH _ eq_refl) as (sts & -> & HF). cbn [fst snd] in E1. unfold val_msg in E1.
    destruct (fmt_cpus ci l) as [tx|] eqn:Et; cbn [rbind] in E1; [|discriminate E1]. injection E1 as <-.
    exists ((M_CSave.truthy v, l, tx) :: sts). split.
    + cbn [map]. f_equal. unfold status_line, action_text. cbn [fst snd opt_text]. rewrite app_nil_r. unfold on_off.
      destruct action as [[|ch at']|], group, (M_CSave.truthy v); cbn [s2l list_ascii_of_string app opt_text]; rewrite <- ?app_assoc; reflexivity.
    + constructor; [|exact HF]. cbn [fst snd]. split; [reflexivity|exact Et].
Qed.

Lemma status_live ci action (group : bool) n k : (forall v l, In (v, l) k -> exists t, fmt_cpus ci l = Ok t) ->
  exists ls, rmap k (fun vc => val_msg ci (on_off (fst vc)) n (Some (snd vc)) (if group then Some (s2l " - "%string) else None) None action) = Ok ls.
Proof.
  intros H. apply rmap_total. intros (v, l) I. cbn [fst snd]. unfold val_msg. destruct (H v l I) as (t & ->). cbn [rbind]. eauto.
Qed.

(** The blocks of an aggregate dictionary. *)
Definition block_of (ci : cpuinfo) (nd : str * list (str * kinfo)) (b : cs_block) : Prop :=
  cb_name b = fst nd /\ cb_detail b = details_of (snd nd) /\
  exists k, dget str_eqb (snd nd) (s2l "disable"%string) = Some k /\
    Forall2 (fun vc st => fst st = (M_CSave.truthy (fst vc), snd vc) /\ fmt_cpus ci (snd vc) = Ok (snd st)) k (cb_status b).

Definition has_status (nd : str * list (str * kinfo)) : bool :=
  match dget str_eqb (snd nd) (s2l "disable"%string) with Some _ => true | None => false end.

Lemma cstate_lines_inv ci action (group : bool) nd o :
  cstate_lines ci (if group then Some (s2l " - "%string) else None) (if group then s2l "    - "%string else s2l " - "%string) action nd = Ok o ->
  (has_status nd = false /\ o = None) \/ (has_status nd = true /\ exists b, block_of ci nd b /\ o = Some (block_text action group b)).
Proof.
  unfold cstate_lines, has_status. destruct (dget str_eqb (snd nd) (s2l "disable"%string)) as [k|] eqn:Ek; [|intros [= <-]; now left].
  intros H. match type of H with rbind ?r _ = _ => destruct r as [l1|] eqn:E1 end; cbn [rbind] in H; [|discriminate H].
  apply status_inv in E1 as (sts & -> & HF). rewrite details_ok in H. cbn [rbind] in H. injection H as <-. right. split; [reflexivity|].
  exists (CB (fst nd) sts (details_of (snd nd))). split; [|reflexivity]. split; [reflexivity|]. split; [reflexivity|]. now exists k.
Qed.

Lemma rcs_human_inv ci descr action group a ls n : a <> [] -> rcs_human ci descr group action a = Ok (ls, n) ->
  exists blocks, ls = cs_text action group descr blocks /\ n = Z.of_nat (length blocks) /\ Forall2 (block_of ci) (filter has_status a) blocks.
Proof.
  unfold rcs_human. intros Ha. destruct a as [|x t]; [contradiction|]. clear Ha.
  intros H. match type of H with rbind ?r _ = _ => destruct r as [ll|] eqn:E end; cbn [rbind] in H; [|discriminate H]. injection H as <- <-.
  assert (exists blocks, flat_map (fun o => match o with Some b => [b] | None => [] end) ll = map (block_text action group) blocks /\
           Forall2 (block_of ci) (filter has_status (x :: t)) blocks) as (blocks & -> & HF).
  { revert ll E. generalize (x :: t). intros l. induction l as [|nd l IH]; cbn [rmap filter]; intros ll E.
    - injection E as <-. exists []. split; [reflexivity|constructor].
    - match type of E with rbind ?r _ = _ => destruct r as [o|] eqn:E1 end; cbn [rbind] in E; [|discriminate E].
      match type of E with rbind ?r _ = _ => destruct r as [os|] eqn:E2 end; cbn [rbind] in E; [|discriminate E]. injection E as <-.
      destruct (IH _ eq_refl) as (blocks & Hb & HF). apply cstate_lines_inv in E1 as [(-> & ->)|(-> & b & Hbk & ->)].
      + exists blocks. split; [exact Hb|exact HF].
      + exists (b :: blocks). split; [cbn [flat_map map app]; now f_equal|]. now constructor. }
  exists blocks. split; [reflexivity|]. split; [now rewrite map_length|exact HF].
Qed.

Lemma rcs_human_live ci descr action group a : (forall n key v l, says_cs a n key v l -> exists t, fmt_cpus ci l = Ok t) ->
  exists r, rcs_human ci descr group action a = Ok r.
Proof.
  intros H. unfold rcs_human. destruct a as [|x t] eqn:Ea; [eauto|]. rewrite <- Ea in *. clear x t Ea.
  destruct (rmap_total (cstate_lines ci (if group then Some (s2l " - "%string) else None) (if group then s2l "    - "%string else s2l " - "%string) action) a) as (ll & ->).
  - intros nd I. unfold cstate_lines. destruct (dget str_eqb (snd nd) (s2l "disable"%string)) as [k|] eqn:Ek; [|eauto].
    destruct (status_live ci action group (fst nd) k) as (l1 & ->).
    + intros v l Iv. apply (H (fst nd) (s2l "disable"%string) v). exists (snd nd), k. split; [now destruct nd|]. split; [|exact Iv].
      now apply (dget_In _ str_eqb_spec).
    + cbn [rbind]. rewrite details_ok. cbn [rbind]. eauto.
  - cbn [rbind]. eauto.
Qed.
