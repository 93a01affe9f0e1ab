(** Lemmas about the emulated files (C81). *)
From Coq Require Import Ascii String ZifyBool Lia Permutation Sorting.Sorted.
From Verif Require Import Base M_Text S_Text M_Human S_Human S_Systemd S_Ident M_TpmiSpec M_Route M_EmulFile S_EmulFile L_Base L_Text L_EP L_TpmiSpec2 L_Ident L_Ident2 L_Ident3.
Open Scope list_scope.

Lemma str_eqb_iff a b : str_eqb a b = true <-> a = b.
Proof. apply str_eqb_eq. Qed.

(** ** Writing at the start of what was cut *)
Lemma truncate_length n d : length (truncate n d) = n.
Proof. unfold truncate. rewrite app_length, firstn_length, repeat_length. lia. Qed.

Lemma overwrite (x y d : str) : (length y <= length x)%nat -> write_at 0 x (truncate (length y) d) = x.
Proof.
  intros H. unfold write_at. destruct x as [|c x].
  - destruct y; [|cbn in H; lia]. unfold truncate. cbn. reflexivity.
  - cbn [firstn app Nat.sub repeat]. rewrite skipn_all2; [now rewrite app_nil_r|]. rewrite truncate_length. cbn [Nat.add]. exact H.
Qed.

Lemma plain_write x d : truncate_write x d = x.
Proof. now apply overwrite. Qed.

(** ** Sessions: each write gives a text that does not depend on what there was *)
Definition put (s : fs) path x := dset str_eqb s path x.
Lemma put_same s path x : content (put s path x) path = Some x.
Proof. unfold content, put. apply dget_dset_same, str_eqb_iff. Qed.
Lemma put_other s path x : only_changed path s (put s path x).
Proof. intros p Hp. unfold content, put. apply dget_dset_other; [apply str_eqb_iff|congruence]. Qed.

Definition gives (h : how) (P : str -> Prop) (f : str -> str) : Prop :=
  forall path s d x, P x -> content s path = Some d -> sysfs_write path h x s = (Ok tt, put s path (f x)).

Lemma writes h P f path : gives h P f -> forall xs x s d, Forall P xs -> P x -> content s path = Some d ->
  exists s', mfor (xs ++ [x]) (sysfs_write path h) s = (Ok tt, s') /\ content s' path = Some (f x) /\ only_changed path s s'.
Proof.
  intros Hg. induction xs as [|y xs IH]; intros x s d Hxs Hx Hd.
  - cbn [app mfor]. unfold mbind. rewrite (Hg path s d x Hx Hd). cbn. eexists. split; [reflexivity|]. split; [apply put_same|apply put_other].
  - inversion Hxs as [|? ? Hy Hys]; subst. cbn [app mfor]. unfold mbind. rewrite (Hg path s d y Hy Hd).
    destruct (IH x (put s path (f y)) (f y) Hys Hx (put_same _ _ _)) as (s' & E & Ec & Eo). exists s'. split; [exact E|]. split; [exact Ec|].
    intros p Hp. rewrite (Eo p Hp). now apply put_other.
Qed.

Lemma how_plain path d : plain_file path -> file_how path d = HPlain.
Proof.
  intros (Ha & He). unfold file_how.
  destruct (ends_with (s2l "pcie_aspm/parameters/policy") path) eqn:E1; [apply ends_with_iff in E1; now destruct (Ha E1)|].
  destruct (ends_with (s2l "/energy_perf_bias") path) eqn:E2; [apply ends_with_iff in E2; now destruct (He E2)|reflexivity].
Qed.

Lemma how_aspm path d : aspm_file path -> file_how path d = HAspm (replace (replace (strip d) (s2l "[") []) (s2l "]") []).
Proof. intros Ha. unfold file_how. apply ends_with_iff in Ha. now rewrite Ha. Qed.

Lemma same_tail {A} (a b x y : list A) : a ++ x = b ++ y -> length x = length y -> x = y.
Proof. intros E L. apply (f_equal (@rev A)) in E. rewrite !rev_app_distr in E.
  assert (H : firstn (length x) (rev x ++ rev a) = firstn (length x) (rev y ++ rev b)) by now rewrite E.
  rewrite !firstn_app in H. rewrite !rev_length in H. rewrite <- L, !Nat.sub_diag in H. cbn [firstn] in H. rewrite !app_nil_r in H.
  rewrite !firstn_all2 in H by (rewrite rev_length; lia). apply (f_equal (@rev A)) in H. now rewrite !rev_involutive in H.
Qed.

Lemma how_epb path d : epb_file path -> file_how path d = HEpb.
Proof.
  intros (a & ->). unfold file_how.
  destruct (ends_with (s2l "pcie_aspm/parameters/policy") (a ++ s2l "/energy_perf_bias")) eqn:E1.
  - apply ends_with_iff in E1 as (b & E). apply (f_equal (fun l => hd "0"%char (rev l))) in E. rewrite !rev_app_distr in E. discriminate E.
  - assert (E2 : ends_with (s2l "/energy_perf_bias") (a ++ s2l "/energy_perf_bias") = true) by (apply ends_with_iff; now exists a). now rewrite E2.
Qed.

Lemma gives_plain : gives HPlain (fun _ => True) (fun x => x).
Proof. intros path s d x _ Hd. unfold sysfs_write. unfold content in Hd. rewrite Hd. now rewrite plain_write. Qed.

Lemma session_open path xs s d : content s path = Some d ->
  sysfs_session path MUpdate xs s = mfor xs (sysfs_write path (file_how path d)) s.
Proof. intros Hd. unfold sysfs_session, mbind, sysfs_open. unfold content in Hd. now rewrite Hd. Qed.

Lemma last_write_l s path d xs x : plain_file path -> content s path = Some d ->
  exists s', sysfs_session path MUpdate (xs ++ [x]) s = (Ok tt, s') /\ content s' path = Some x /\ only_changed path s s'.
Proof.
  intros Hp Hd. rewrite (session_open _ _ _ _ Hd), (how_plain _ _ Hp).
  apply (writes HPlain (fun _ => True) (fun x => x) path gives_plain xs x s d); [|exact I|exact Hd]. apply Forall_forall. now intros.
Qed.

(** ** The bias *)
Definition bias_text (x : str) : str := match dget str_eqb epb_policies (strip x) with Some n => n ++ newline | None => x end.
Lemma gives_epb : gives HEpb (fun _ => True) bias_text.
Proof.
  intros path s d x _ Hd. unfold sysfs_write. unfold content in Hd. rewrite Hd. unfold epb_write, bias_text, put.
  destruct (dget str_eqb epb_policies (strip x)) as [n|]; now rewrite overwrite.
Qed.

Lemma bias_tight name v : In (name, v) bias_names -> tight (s2l name).
Proof.
  intros H. unfold bias_names in H. cbn [In] in H.
  assert (G : forall l, forallb (fun c => negb (is_space c)) l = true -> tight l).
  { intros l Hl. rewrite forallb_forall in Hl. split; intros; subst; apply negb_true_iff, Hl; [now left|apply in_or_app; right; now left]. }
  repeat (destruct H as [[= <- <-]|H]; [apply G; reflexivity|]). destruct H.
Qed.

Lemma bias_named x name v : In (name, v) bias_names -> names_bias x name -> bias_text x = s2l v ++ [ascii_of_nat 10].
Proof.
  intros H (a & b & Ha & Hb & ->). unfold bias_text. rewrite (strip_eq a _ b Ha Hb (bias_tight name v H)).
  unfold bias_names in H. cbn [In] in H. repeat (destruct H as [[= <- <-]|H]; [reflexivity|]). destruct H.
Qed.

Lemma bias_unnamed x : (forall name v, In (name, v) bias_names -> ~ names_bias x name) -> bias_text x = x.
Proof.
  intros H. unfold bias_text. destruct (dget str_eqb epb_policies (strip x)) as [n|] eqn:E; [|reflexivity]. exfalso.
  apply (dget_In str_eqb str_eqb_iff) in E. destruct (strip_parts x) as (a & b & Ha & Hb & Ex).
  unfold epb_policies in E. cbn [In] in E.
  assert (G : forall name v, In (name, v) bias_names -> s2l name = strip x -> False).
  { intros name v Hn Es. apply (H name v Hn). exists a, b. rewrite Es. auto. }
  destruct E as [[= E1 _]|[[= E1 _]|[[= E1 _]|[[= E1 _]|[[= E1 _]|[]]]]]].
  - apply (G "performance"%string "0"%string); [cbn; auto 10|exact E1].
  - apply (G "balance-performance"%string "4"%string); [cbn; auto 10|exact E1].
  - apply (G "normal"%string "6"%string); [cbn; auto 10|exact E1].
  - apply (G "balance-power"%string "8"%string); [cbn; auto 10|exact E1].
  - apply (G "power"%string "15"%string); [cbn; auto 10|exact E1].
Qed.

Lemma epb_l s path d xs x : epb_file path -> content s path = Some d ->
  exists s', sysfs_session path MUpdate (xs ++ [x]) s = (Ok tt, s') /\ only_changed path s s' /\
    (forall name v, In (name, v) bias_names -> names_bias x name -> content s' path = Some (s2l v ++ [ascii_of_nat 10])) /\
    ((forall name v, In (name, v) bias_names -> ~ names_bias x name) -> content s' path = Some x).
Proof.
  intros Hp Hd. rewrite (session_open _ _ _ _ Hd), (how_epb _ _ Hp).
  destruct (writes HEpb (fun _ => True) bias_text path gives_epb xs x s d) as (s' & E & Ec & Eo); [apply Forall_forall; now intros|exact I|exact Hd|].
  exists s'. split; [exact E|]. split; [exact Eo|]. split.
  - intros name v Hn Hx. now rewrite Ec, (bias_named x name v Hn Hx).
  - intros Hx. now rewrite Ec, (bias_unnamed x Hx).
Qed.

(** ** The policy of ASPM *)
Definition all_policies : str := s2l "default performance powersave powersupersave".
Definition is_policy (x : str) : Prop := exists p, x = s2l (policy_name p).
Definition shown (x : str) : str := replace all_policies x (s2l "[" ++ x ++ s2l "]").

Lemma shown_policy p : shown (s2l (policy_name p)) = policy_text p.
Proof. destruct p; vm_compute; reflexivity. Qed.

Lemma policy_shorter p : (length (s2l (policy_name p)) <= length (policy_text p))%nat.
Proof. apply Nat.leb_le. destruct p; vm_compute; reflexivity. Qed.

Lemma aspm_line pol x l d : replace pol x (s2l "[" ++ x ++ s2l "]") = l -> (length x <= length l)%nat -> aspm_write pol x d = l.
Proof. intros <- H. unfold aspm_write. now apply overwrite. Qed.

Lemma policies_shown p : replace all_policies (s2l (policy_name p)) (s2l "[" ++ s2l (policy_name p) ++ s2l "]") = policy_text p.
Proof. destruct p; vm_compute; reflexivity. Qed.

Lemma aspm_shown p d : aspm_write all_policies (s2l (policy_name p)) d = shown (s2l (policy_name p)).
Proof. rewrite shown_policy. apply aspm_line; [apply policies_shown|apply policy_shorter]. Qed.

Lemma gives_aspm : gives (HAspm all_policies) is_policy shown.
Proof.
  intros path s d x (p & ->) Hd. unfold sysfs_write. unfold content in Hd. rewrite Hd. now rewrite aspm_shown.
Qed.

Lemma policies_read p b : S_Systemd.spaces b -> replace (replace (strip (policy_text p ++ b)) (s2l "[") []) (s2l "]") [] = all_policies.
Proof.
  intros Hb. assert (E : strip (policy_text p ++ b) = policy_text p).
  { apply (strip_eq [] (policy_text p) b (Forall_nil _) Hb). split.
    - intros c t E. destruct p; injection E as <- _; reflexivity.
    - intros t c E. apply (f_equal (@rev ascii)) in E. rewrite rev_app_distr in E. destruct p; injection E as <- _; reflexivity. }
  rewrite E. destruct p; vm_compute; reflexivity.
Qed.

Lemma aspm_l s path p b ps q : aspm_file path -> S_Systemd.spaces b -> content s path = Some (policy_text p ++ b) ->
  exists s', sysfs_session path MUpdate (map (fun r => s2l (policy_name r)) (ps ++ [q])) s = (Ok tt, s') /\
    content s' path = Some (policy_text q) /\ only_changed path s s'.
Proof.
  intros Hp Hb Hd. rewrite (session_open _ _ _ _ Hd), (how_aspm _ _ Hp), (policies_read p b Hb), map_app. cbn [map].
  assert (Hps : Forall is_policy (map (fun r => s2l (policy_name r)) ps)).
  { apply Forall_forall. intros x Hx. apply in_map_iff in Hx as (r & <- & _). now exists r. }
  destruct (writes (HAspm all_policies) is_policy shown path gives_aspm _ (s2l (policy_name q)) s _ Hps (ex_intro _ q eq_refl) Hd) as (s' & E & Ec & Eo).
  exists s'. rewrite shown_policy in Ec. auto.
Qed.

(** ** The other modes *)
Lemma read_mode_l s path xs r s' : sysfs_session path MRead xs s = (r, s') -> s' = s /\ (xs <> [] -> content s path <> None -> r = Exn EError).
Proof.
  unfold sysfs_session, mbind, sysfs_open. unfold content. destruct (dget str_eqb s path) as [d|] eqn:Ed.
  - destruct xs as [|x xs]; cbn [mfor]; [intros [= <- <-]; split; [reflexivity|congruence]|]. unfold mbind, sysfs_write. rewrite Ed. intros [= <- <-]. auto.
  - intros [= <- <-]. split; [reflexivity|]. intros _ H. now destruct H.
Qed.

Lemma missing_l s path m xs : m <> MWrite -> content s path = None -> sysfs_session path m xs s = (Exn ENotFound, s).
Proof. intros Hm Hd. unfold sysfs_session, mbind, sysfs_open. unfold content in Hd. rewrite Hd. destruct m; [reflexivity|reflexivity|now destruct Hm]. Qed.

Lemma write_mode_l s path xs : exists s', sysfs_session path MWrite xs s = (Exn EError, s') /\ content s' path = Some [] /\ only_changed path s s'.
Proof. exists (put s path []). split; [reflexivity|]. split; [apply put_same|apply put_other]. Qed.

(** ** Which CPUs are online *)
Lemma numeral_py ds c : numeral ds c -> py_int ds = Some c.
Proof. intros H. rewrite (numeral_unique ds (dec c) c H (dec_numeral c (numeral_nonneg _ _ H))). apply py_int_dec. exact (numeral_nonneg _ _ H). Qed.

Definition shows_on (s : fs) (name : str) : bool :=
  match dget str_eqb s (online_file name) with None => true | Some d => str_eqb (strip d) (s2l "1") end.

Lemma online_cons_cpu s (name ds : str) (names : list str) c : name = s2l "cpu" ++ ds -> numeral ds c ->
  online_cpus s (name :: names) = if shows_on s name then ds :: online_cpus s names else online_cpus s names.
Proof.
  intros -> Hd. cbn [online_cpus]. assert (Eb : begins (s2l "cpu" ++ ds) (s2l "cpu") = true) by (apply begins_iff; now exists ds).
  rewrite Eb. cbn [negb]. change (skipn 3 (s2l "cpu" ++ ds)) with ds. rewrite (is_int_num ds c (numeral_py ds c Hd)). cbn [negb].
  unfold shows_on, online_file. change cpu_base with (s2l "/sys/devices/system/cpu/").
  destruct (dget str_eqb s _) as [d|]; reflexivity.
Qed.

Lemma online_cons_other s (name : str) (names : list str) : other_dir name -> online_cpus s (name :: names) = online_cpus s names.
Proof.
  intros [H|(c & t & -> & Hc)]; cbn [online_cpus].
  - destruct (begins name (s2l "cpu")) eqn:E; [apply begins_iff in E as (q & E); now destruct (H q)|reflexivity].
  - assert (Eb : begins (s2l "cpu" ++ c :: t) (s2l "cpu") = true) by (apply begins_iff; now exists (c :: t)).
    rewrite Eb. cbn [negb]. change (skipn 3 (s2l "cpu" ++ c :: t)) with (c :: t). rewrite is_int_letter; [reflexivity|]. right. lia.
Qed.

Lemma shows_on_iff s name : shows_on s name = true <->
  (content s (online_file name) = None \/ exists a b, S_Systemd.spaces a /\ S_Systemd.spaces b /\ content s (online_file name) = Some (a ++ s2l "1" ++ b)).
Proof.
  unfold shows_on, content. destruct (dget str_eqb s (online_file name)) as [d|]; [|split; auto]. rewrite str_eqb_eq. split.
  - intros E. right. destruct (strip_parts d) as (a & b & Ha & Hb & Ed). exists a, b. rewrite <- E, <- Ed. auto.
  - intros [H|(a & b & Ha & Hb & [= ->])]; [discriminate H|]. apply (strip_eq a (s2l "1") b Ha Hb). split.
    + intros c t [= <- _]. reflexivity.
    + intros t c E. destruct t as [|? [|? ?]]; inversion E; subst; reflexivity.
Qed.

Lemma not_both name c : cpu_dir name c -> other_dir name -> False.
Proof.
  intros (ds & -> & Hn) [H|(x & t & E & Hx)]; [now apply (H ds)|].
  apply app_inv_head in E. subst ds. destruct Hn as (_ & Hd & _). inversion Hd; subst. unfold is_digit in *. lia.
Qed.

Lemma online_numbers s (names : list str) : Forall (fun n => (exists c, cpu_dir n c) \/ other_dir n) names ->
  exists ns, rmap (online_cpus s names) (fun c => match py_int c with Some n => Ok n | None => Exn EError end) = Ok ns /\
    Forall (fun n => 0 <= n)%Z ns /\ forall c, In c ns <-> is_online s names c.
Proof.
  induction names as [|name names IH]; intros H.
  - exists []. split; [reflexivity|]. split; [constructor|]. intros c. split; [intros []|intros (n & [] & _)].
  - inversion H as [|? ? H1 H2]; subst. destruct (IH H2) as (ns & E & Hn & Hi).
    assert (Hrest : forall c, (exists n, In n names /\ cpu_dir n c /\
        (content s (online_file n) = None \/ exists a b, S_Systemd.spaces a /\ S_Systemd.spaces b /\ content s (online_file n) = Some (a ++ s2l "1" ++ b))) <-> In c ns)
      by (intros c; symmetry; apply Hi).
    destruct H1 as [(c & ds & En & Hds)|Ho].
    + rewrite (online_cons_cpu s name ds names c En Hds). destruct (shows_on s name) eqn:Es.
      * cbn [rmap]. rewrite (numeral_py ds c Hds). cbn [rbind]. rewrite E. cbn [rbind]. exists (c :: ns). split; [reflexivity|].
        split; [constructor; [exact (numeral_nonneg _ _ Hds)|exact Hn]|]. intros c'. split.
        { intros [<-|Hc]; [exists name; split; [now left|]; split; [exists ds; auto|now apply shows_on_iff]|].
          apply Hi in Hc as (n & Hin & R). exists n. split; [now right|exact R]. }
        { intros (n & [<-|Hin] & Hcd & R).
          - destruct Hcd as (ds' & E' & Hds'). rewrite En in E'. apply app_inv_head in E'. subst ds'. left.
            destruct Hds as (_ & _ & <- & _), Hds' as (_ & _ & <- & _). reflexivity.
          - right. apply Hrest. exists n. auto. }
      * exists ns. split; [exact E|]. split; [exact Hn|]. intros c'. split.
        { intros Hc. apply Hi in Hc as (n & Hin & R). exists n. split; [now right|exact R]. }
        { intros (n & [<-|Hin] & Hcd & R); [|apply Hrest; exists n; auto]. apply shows_on_iff in R. congruence. }
    + rewrite (online_cons_other s name names Ho). exists ns. split; [exact E|]. split; [exact Hn|]. intros c'. split.
      { intros Hc. apply Hi in Hc as (n & Hin & R). exists n. split; [now right|exact R]. }
      { intros (n & [<-|Hin] & Hcd & R); [now destruct (not_both name c' Hcd Ho)|apply Hrest; exists n; auto]. }
Qed.

Lemma online_l s names : Forall (fun n => (exists c, cpu_dir n c) \/ other_dir n) names ->
  exists t r, online_read s names = Ok t /\ parse_int_list "," false [NStr t] = Ok r /\ StronglySorted Z.le r /\ forall c, In c r <-> is_online s names c.
Proof.
  intros H. destruct (online_numbers s names H) as (ns & E & Hn & Hi). destruct (rangify_round_trip ns Hn) as (r & Er & Hp & Hs).
  exists (rangify ns), r. unfold online_read. rewrite E. cbn [rbind]. split; [reflexivity|]. split; [exact Er|]. split; [exact Hs|].
  intros c. rewrite <- Hi. split; apply Permutation_in; [now apply Permutation_sym|exact Hp].
Qed.

Lemma online_plain name : plain_file (online_file name).
Proof.
  split; intros (a & E); unfold online_file in E; rewrite app_assoc in E; apply (f_equal (fun l => hd "0"%char (rev l))) in E;
    rewrite !rev_app_distr in E; discriminate E.
Qed.

Lemma online_file_inj n m : online_file n = online_file m -> n = m.
Proof. unfold online_file. intros E. apply app_inv_head in E. now apply app_inv_tail in E. Qed.

Lemma toggle_l s names name c d xs (on : bool) : In name names -> cpu_dir name c -> content s (online_file name) = Some d ->
  exists s', sysfs_session (online_file name) MUpdate (xs ++ [s2l (if on then "1" else "0")]) s = (Ok tt, s') /\
    (is_online s' names c <-> on = true) /\ (forall c', c' <> c -> (is_online s' names c' <-> is_online s names c')).
Proof.
  intros Hin Hc Hd. destruct (last_write_l s (online_file name) d xs (s2l (if on then "1" else "0")) (online_plain name) Hd) as (s' & E & Ec & Eo).
  exists s'. split; [exact E|].
  assert (Hsame : forall n, cpu_dir n c -> n = name).
  { intros n (ds & -> & H1). destruct Hc as (ds' & -> & H2). now rewrite (numeral_unique ds ds' c H1 H2). }
  split.
  - split.
    + intros (n & _ & Hn & R). rewrite (Hsame n Hn), Ec in R. destruct on; [reflexivity|]. destruct R as [R|(a & b & Ha & Hb & R)]; [discriminate R|].
      injection R as R. destruct a as [|x a]; [discriminate R|]. injection R as <- _. inversion Ha; discriminate.
    + intros ->. exists name. split; [exact Hin|]. split; [exact Hc|]. right. exists [], []. rewrite Ec. repeat split; constructor.
  - intros c' Hne. assert (Hk : forall n, cpu_dir n c' -> content s' (online_file n) = content s (online_file n)).
    { intros n Hn. apply Eo. intros En. apply online_file_inj in En. subst n. destruct Hn as (ds & E1 & H1), Hc as (ds' & E2 & H2).
      rewrite E1 in E2. apply app_inv_head in E2. subst ds'. destruct H1 as (_ & _ & <- & _), H2 as (_ & _ & <- & _). now apply Hne. }
    split; intros (n & Hi & Hn & R); exists n; (split; [exact Hi|]; split; [exact Hn|]); [now rewrite <- (Hk n Hn)|now rewrite (Hk n Hn)].
Qed.
