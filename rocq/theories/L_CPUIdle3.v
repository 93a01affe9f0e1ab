(** Reading the C-states of CPUs into the cache. *)
From Coq Require Import Ascii String ZifyBool Permutation Sorted.
From Verif Require Import Base L_Base L_Monad M_CPUInfo S_CPUInfo L_CPUInfo M_Text S_Text L_Text M_Human L_Human M_CPUIdle S_CPUIdle L_CPUIdle L_CPUIdle2.

(** Nothing but the time and the coming read errors is different. *)
Definition quiet (s s' : idle) : Prop :=
  id_flags s' = id_flags s /\ id_gov s' = id_gov s /\ id_wf s' = id_wf s /\ id_cs s' = id_cs s /\
  id_cdrv s' = id_cdrv s /\ id_cgov s' = id_cgov s /\ id_cavail s' = id_cavail s /\ (id_rf s = [] -> id_rf s' = []).

Lemma quiet_refl s : quiet s s.
Proof. unfold quiet. tauto. Qed.

Lemma quiet_trans a b c : quiet a b -> quiet b c -> quiet a c.
Proof.
  intros (A1 & A2 & A3 & A4 & A5 & A6 & A7 & A8) (B1 & B2 & B3 & B4 & B5 & B6 & B7 & B8). unfold quiet.
  repeat split; try congruence. auto.
Qed.

Lemma rd_io_post s : post rd_io s (fun _ s' => quiet s s') (fun _ s' => quiet s s' /\ id_rf s <> []).
Proof.
  unfold post, rd_io. destruct (id_rf s) as [|[|] t] eqn:E; unfold quiet; cbn; repeat split; try congruence.
Qed.

Definition quiet_w (s s' : idle) : Prop :=
  id_flags s' = id_flags s /\ id_gov s' = id_gov s /\ id_rf s' = id_rf s /\ id_cs s' = id_cs s /\
  id_cdrv s' = id_cdrv s /\ id_cgov s' = id_cgov s /\ id_cavail s' = id_cavail s /\ (id_wf s = [] -> id_wf s' = []).

Lemma wr_io_post s : post wr_io s (fun _ s' => quiet_w s s') (fun _ s' => quiet_w s s' /\ id_wf s <> []).
Proof.
  unfold post, wr_io. destruct (id_wf s) as [|[|] t] eqn:E; unfold quiet_w; cbn; repeat split; try congruence.
Qed.

Lemma line_inj c i f d j g : 0 <= c -> 0 <= i -> f <> [] -> 0 <= d -> 0 <= j -> g <> [] ->
  cst_path c i f = cst_path d j g -> (c, i, f) = (d, j, g).
Proof.
  intros Hc Hi Hf Hd Hj Hg E. assert (H := parse_path c i f Hc Hi Hf). rewrite E in H. rewrite parse_path in H by assumption. congruence.
Qed.

Section Read.
  Variable mc : machine.
  Variable nst : Z -> Z.
  Hypothesis Hok : idle_ok mc nst.
  Notation online := (ci_online (mc_ci mc)).

  Lemma files_ok c i f : In (c, i, f) (mc_files mc) -> 0 <= c /\ 0 <= i /\ f <> [] /\ ~ In "/"%char f /\ Forall (fun x => is_space x = false) f.
  Proof. destruct Hok as (_ & _ & _ & _ & _ & H & _). apply H. Qed.

  Lemma cpu_facts c : In c online -> 2 <= nst c /\
     (forall i f, In f cst_fnames -> (In (c, i, f) (mc_files mc) <-> 0 <= i < nst c)) /\
     (forall i f t, 0 <= i < nst c -> In f cst_fnames ->
        one_line (mc_text mc c i f t) /\ (is_int (strip (mc_text mc c i f t)) = true -> py_int (strip (mc_text mc c i f t)) <> None)) /\
     (forall i t, 0 <= i < nst c ->
        mc_text mc c i (s2l "name"%string) t = mc_text mc c i (s2l "name"%string) 0 /\
        py_int (strip (mc_text mc c i (s2l "name"%string) 0)) = None) /\
     (forall i j, 0 <= i < nst c -> 0 <= j < nst c -> cs_name mc c i = cs_name mc c j -> i = j) /\
     (forall i old off new, 0 <= i < nst c ->
        mc_store mc c i old (flag_text off) = Some new -> new = flag_text off \/ new = old).
  Proof. destruct Hok as (_ & _ & _ & _ & _ & _ & H). apply H. Qed.

  Lemma name_in : In (s2l "name"%string) cst_fnames.
  Proof. now left. Qed.

  Lemma cpu_pos c : In c online -> 0 <= c.
  Proof.
    intros Hc. destruct (cpu_facts c Hc) as (H2 & Hf & _). assert (H : In (c, 0, s2l "name"%string) (mc_files mc)) by (apply Hf; [apply name_in|lia]).
    now apply files_ok in H.
  Qed.

  Lemma in_sorted f : In f fnames_sorted <-> In f cst_fnames.
  Proof. split; apply Permutation_in; [apply fnames_perm|apply Permutation_sym, fnames_perm]. Qed.

  (** The lines 'find' prints for some CPUs, sorted and filtered. *)
  Definition found (cpus : list Z) : list str :=
    map line_of (filter (fun t => let '(c, _, _) := t in inb c cpus) (mc_files mc)).
  Definition keepb (p : str) : bool := existsb (str_eqb (strip (last (split_on "/" p) []))) cst_fnames.

  Lemma keepb_line c i f : In (c, i, f) (mc_files mc) -> keepb (line_of (c, i, f)) = true <-> In f cst_fnames.
  Proof.
    intros H. apply files_ok in H as (Hc & Hi & Hf & Hs & Hb). unfold keepb, line_of.
    replace (cst_path c i f ++ ["010"%char]) with ((cpu_prefix ++ dec c ++ state_mid ++ dec i) ++ "/"%char :: (f ++ ["010"%char])).
    2: { rewrite path_eq. now rewrite <- !app_assoc. }
    rewrite last_split. 2: { rewrite in_app_iff. intros [H|[H|[]]]; [contradiction|discriminate]. }
    rewrite strip_nl by exact Hb. rewrite existsb_exists. split.
    - intros (x & Hx & E). apply str_eqb_eq in E. now subst x.
    - intros H. exists f. split; [exact H|]. now apply str_eqb_eq.
  Qed.

  Lemma fpaths_eq cpus : incl cpus online -> NoDup cpus ->
    filter keepb (sort_by str_leb (found cpus)) = all_lines nst (sort_by num_leb cpus).
  Proof.
    intros Hin Hnd.
    assert (Hs : forall c, In c (sort_by num_leb cpus) <-> In c cpus) by (intros; apply sort_by_In).
    assert (Hnds : NoDup (sort_by num_leb cpus)) by (eapply Permutation_NoDup; [apply Permutation_sym, sort_by_perm|exact Hnd]).
    apply sorted_perm_eq.
    - apply filter_sorted, sort_sorted.
    - apply all_sorted; [apply sort_by_sorted; [apply num_leb_total|apply num_leb_trans]|exact Hnds|].
      intros c Hc. apply cpu_pos, Hin. now apply Hs.
    - apply NoDup_Permutation.
      + apply NoDup_filter. eapply Permutation_NoDup; [apply Permutation_sym, sort_by_perm|].
        unfold found.
        assert (Hf : NoDup (filter (fun t => let '(c, _, _) := t in inb c cpus) (mc_files mc))) by (apply NoDup_filter; apply Hok).
        assert (Hall : forall t, In t (filter (fun t => let '(c, _, _) := t in inb c cpus) (mc_files mc)) -> In t (mc_files mc)).
        { intros t Ht. now apply filter_In in Ht. }
        revert Hf Hall. generalize (filter (fun t => let '(c, _, _) := t in inb c cpus) (mc_files mc)). intros l Hf Hall.
        induction Hf as [|t l Ht Hl IH]; [constructor|]. cbn [map]. constructor.
        * intros H. apply in_map_iff in H as (u & E & Hu). apply Ht. destruct t as ((c, i), f), u as ((d, j), g).
          unfold line_of in E. apply app_inj_tail in E as (E & _).
          destruct (files_ok c i f) as (? & ? & ? & _); [apply Hall; now left|].
          destruct (files_ok d j g) as (? & ? & ? & _); [apply Hall; now right|].
          assert (X : (d, j, g) = (c, i, f)) by (now apply line_inj). injection X as -> -> ->. exact Hu.
        * apply IH. intros u Hu. apply Hall. now right.
      + unfold all_lines. apply NoDup_flat_map'; [exact Hnds| |].
        * intros c Hc. apply NoDup_flat_map'; [apply states_NoDup| |].
          -- intros i Hi. apply FinFun.Injective_map_NoDup.
             ++ intros f g E. unfold line_of in E. apply app_inj_tail in E as (E & _). rewrite !path_eq in E.
                do 4 apply app_inv_head in E. congruence.
             ++ unfold fnames_sorted. repeat constructor; cbn; intuition discriminate.
          -- intros i j b Hi Hj Hb1 Hb2. apply in_map_iff in Hb1 as (f & <- & Hf). apply in_map_iff in Hb2 as (g & E & Hg).
             apply states_In in Hi, Hj. apply Hs, Hin, cpu_pos in Hc. unfold line_of in E. apply app_inj_tail in E as (E & _).
             apply fnames_plain in Hf as (Hf & _), Hg as (Hg & _).
             assert (E2 := line_inj c j g c i f Hc ltac:(lia) Hg Hc ltac:(lia) Hf E). congruence.
        * intros c d b Hc Hd Hb1 Hb2. apply in_flat_map in Hb1 as (i & Hi & Hb1). apply in_flat_map in Hb2 as (j & Hj & Hb2).
          apply in_map_iff in Hb1 as (f & <- & Hf). apply in_map_iff in Hb2 as (g & E & Hg).
          apply states_In in Hi, Hj. apply Hs, Hin, cpu_pos in Hc, Hd. unfold line_of in E. apply app_inj_tail in E as (E & _).
          apply fnames_plain in Hf as (Hf & _), Hg as (Hg & _).
          assert (E2 := line_inj d j g c i f Hd ltac:(lia) Hg Hc ltac:(lia) Hf E). congruence.
      + intros b. rewrite filter_In, sort_by_In. unfold found, all_lines. rewrite in_map_iff, in_flat_map. split.
        * intros ((t & <- & Ht) & Hk). apply filter_In in Ht as (Ht & Hc). destruct t as ((c, i), f). apply inb_In in Hc.
          exists c. split; [now apply Hs|]. apply keepb_line in Hk; [|exact Ht].
          apply in_flat_map. exists i. rewrite states_In. destruct (cpu_facts c (Hin c Hc)) as (_ & Hfi & _).
          split; [now apply (Hfi i f Hk)|]. apply in_map_iff. exists f. split; [reflexivity|]. now apply in_sorted.
        * intros (c & Hc & Hb). apply in_flat_map in Hb as (i & Hi & Hb). apply in_map_iff in Hb as (f & <- & Hf).
          apply states_In in Hi. apply Hs in Hc. apply in_sorted in Hf. destruct (cpu_facts c (Hin c Hc)) as (_ & Hfi & _).
          assert (HF : In (c, i, f) (mc_files mc)) by (now apply (Hfi i f Hf)). split.
          -- exists (c, i, f). split; [reflexivity|]. apply filter_In. split; [exact HF|]. now apply inb_In.
          -- now apply keepb_line.
  Qed.

  (** The contents of the files when the flags are [flags], at time [t]. *)
  Definition contents (flags : Z -> Z -> str) (t : Z) (c i : Z) (f : str) : str :=
    if str_eqb f (s2l "disable"%string) then flags c i else mc_text mc c i f t.

  Lemma content_at s c i f : In (c, i, f) (mc_files mc) ->
    cst_content mc s (removelast (line_of (c, i, f))) = contents (id_flags s) (id_tick s) c i f.
  Proof.
    intros H. unfold line_of. rewrite removelast_last. unfold cst_content.
    destruct (find _ (mc_files mc)) as [((d, j), g)|] eqn:E.
    - apply find_some in E as (Hin & E). apply str_eqb_eq in E.
      apply files_ok in H as (? & ? & ? & _), Hin as (? & ? & ? & _).
      assert (X : (d, j, g) = (c, i, f)) by (now apply line_inj). injection X as -> -> ->. reflexivity.
    - apply (find_none _ _ E) in H. cbn beta iota in H. assert (X : str_eqb (cst_path c i f) (cst_path c i f) = true) by (now apply str_eqb_eq). rewrite X in H. discriminate.
  Qed.

  Lemma contents_good flags t c i : flags_ok mc nst flags -> In c online -> 0 <= i < nst c ->
    good (contents flags t) c i /\ named (contents flags t) c i /\ name_of (contents flags t) c i = cs_name mc c i /\
    forall f, In f cst_fnames -> one_line (contents flags t c i f).
  Proof.
    intros Hfl Hc Hi. destruct (cpu_facts c Hc) as (_ & _ & Ht & Hn & _). destruct (Hn i t Hi) as (En & Hnn). split; [|split; [|split]].
    - split; [now apply cpu_pos|]. split; [lia|]. intros f Hf. apply in_sorted in Hf. unfold contents.
      destruct (str_eqb f _) eqn:E.
      + destruct (Hfl c i Hc Hi) as (off & ->). apply flag_parse.
      + apply parse_says. now apply (Ht i f t).
    - unfold named, contents. change (str_eqb (s2l "name"%string) (s2l "disable"%string)) with false. cbn iota. now rewrite En.
    - unfold name_of, contents, cs_name. change (str_eqb (s2l "name"%string) (s2l "disable"%string)) with false. cbn iota. now rewrite En.
    - intros f Hf. unfold contents. destruct (str_eqb f _) eqn:E.
      + destruct (Hfl c i Hc Hi) as (off & ->). apply flag_line.
      + now apply (Ht i f t).
  Qed.

  (** Reading either fails, or gives the C-states of all the CPUs. *)
  Lemma read_post cpus s : flags_ok mc nst (id_flags s) -> cpus <> [] -> incl cpus online -> NoDup cpus ->
    post (read_cstates_info mc cpus) s
      (fun g s' => quiet s s' /\ ((exists e, g = ([], Some e) /\ id_rf s <> []) \/
         exists t, g = (map (fun c => (c, info_of (contents (id_flags s) t) (states (nst c)) c)) (sort_by num_leb cpus), None)))
      (fun _ _ => False).
  Proof.
    intros Hfl Hne Hin Hnd.
    assert (Hs : forall c, In c (sort_by num_leb cpus) <-> In c cpus) by (intros; apply sort_by_In).
    assert (HF : post (read_fpaths_and_values mc cpus) s
      (fun r s' => quiet s s' /\ exists t, r = (all_lines nst (sort_by num_leb cpus),
          map snd (flat_map (fun c => flat_map (fun i => grp (contents (id_flags s) t) c i fnames_sorted) (states (nst c))) (sort_by num_leb cpus))))
      (fun e s' => quiet s s' /\ e = EError /\ id_rf s <> [])).
    { unfold read_fpaths_and_values. apply post_bind.
      assert (Hio : forall s, post rd_io s (fun _ s' => quiet s s') (fun e s' => quiet s s' /\ e = EError /\ id_rf s <> [])).
      { clear. intros s. unfold post, rd_io. destruct (id_rf s) as [|[|] t] eqn:E; unfold quiet; cbn; repeat split; try congruence. }
      eapply post_conseq; [apply Hio| |now auto]. intros u1 s1 Q1. cbn beta zeta.
      match goal with |- context[match ?f with [] => _ | _ => _ end] => change f with (found cpus) end.
      destruct (found cpus) as [|f0 fr] eqn:Ef.
      - exfalso. destruct cpus as [|c l]; [congruence|].
        assert (H : In (line_of (c, 0, s2l "name"%string)) (found (c :: l))).
        { unfold found. apply in_map. apply filter_In. destruct (cpu_facts c) as (H2 & Hf & _); [apply Hin; now left|]. split.
          - apply Hf; [apply name_in|lia].
          - apply inb_In. now left. }
        rewrite Ef in H. destruct H.
      - rewrite <- Ef. clear f0 fr Ef.
        change (filter (fun p => existsb (str_eqb (strip (last (split_on "/" p) []))) cst_fnames)) with (filter keepb).
        rewrite fpaths_eq by assumption.
        apply post_bind. eapply post_conseq; [apply Hio| |].
        2: { intros e s2 (Q2 & -> & Hr). split; [now apply (quiet_trans s s1)|]. split; [reflexivity|].
             intros H0. apply Hr. now apply Q1. }
        intros u2 s2 Q2. cbn beta. assert (Q := quiet_trans _ _ _ Q1 Q2).
        apply post_bind, post_gets.
        assert (Ev : map (fun p => cst_content mc s2 (removelast p)) (all_lines nst (sort_by num_leb cpus)) =
          map snd (flat_map (fun c => flat_map (fun i => grp (contents (id_flags s) (id_tick s2)) c i fnames_sorted) (states (nst c))) (sort_by num_leb cpus))).
        { unfold all_lines. rewrite !flat_map_concat_map, !concat_map, !map_map. f_equal. apply map_ext_in. intros c Hc. apply Hs in Hc.
          rewrite !flat_map_concat_map, !concat_map, !map_map. f_equal. apply map_ext_in. intros i Hi. apply states_In in Hi.
          unfold grp. rewrite !map_map. apply map_ext_in. intros f Hf. cbn [snd].
          destruct (cpu_facts c (Hin c Hc)) as (_ & Hfi & _). apply in_sorted in Hf.
          rewrite content_at by (now apply (Hfi i f Hf)). destruct Q as (Q & _). now rewrite Q. }
        rewrite Ev. rewrite lines_concat.
        2: { apply Forall_forall. intros x Hx. apply in_map_iff in Hx as ((p, y) & <- & Hx). cbn [snd].
             apply in_flat_map in Hx as (c & Hc & Hx). apply in_flat_map in Hx as (i & Hi & Hx). apply in_map_iff in Hx as (f & E & Hf).
             apply states_In in Hi. apply Hs, Hin in Hc. apply in_sorted in Hf. injection E as _ <-.
             now apply (contents_good (id_flags s) (id_tick s2) c i). }
        rewrite <- Ev at 1. rewrite map_length, Nat.eqb_refl. apply post_ret. split; [exact Q|]. now exists (id_tick s2). }
    unfold read_cstates_info, post in *. destruct (read_fpaths_and_values mc cpus s) as ([(fp, vals)|e] & s').
    - destruct HF as (Q & t & E). injection E as -> ->. split; [exact Q|]. right. exists t.
      rewrite <- (read_groups (contents (id_flags s) t) nst (sort_by num_leb cpus)).
      + f_equal. set (G := flat_map _ (sort_by num_leb cpus)).
        assert (EL : all_lines nst (sort_by num_leb cpus) = map fst G).
        { unfold G, all_lines. rewrite !flat_map_concat_map, !concat_map, !map_map. f_equal. apply map_ext. intros c.
          rewrite !flat_map_concat_map, !concat_map, !map_map. f_equal. }
        rewrite EL. clear. induction G as [|(a, b) G IH]; [reflexivity|]. cbn [map combine fst snd]. now rewrite IH.
      + intros E. destruct cpus as [|c l]; [congruence|]. assert (H : In c (sort_by num_leb (c :: l))) by (apply Hs; now left). rewrite E in H. destruct H.
      + eapply Permutation_NoDup; [apply Permutation_sym, sort_by_perm|exact Hnd].
      + intros c Hc. apply Hs, Hin in Hc. split; [now apply cpu_facts|]. intros i Hi.
        destruct (contents_good (id_flags s) t c i) as (? & ? & _); auto.
    - destruct HF as (Q & -> & Hr). split; [exact Q|]. left. now exists EError.
  Qed.
End Read.
