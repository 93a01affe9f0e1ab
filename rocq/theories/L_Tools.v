(** Lemmas about the operating system and the tools (C82). *)
From Coq Require Import Ascii String ZifyBool Lia.
From Verif Require Import Base M_Text M_Osa M_CPUIdle M_CFreq S_Systemd S_Ident M_Tools S_Tools L_Base L_Text L_Human L_Remote L_TopoInfo2 L_Ident.
Open Scope list_scope.

Lemma str_eqb_iff a b : str_eqb a b = true <-> a = b.
Proof. apply str_eqb_eq. Qed.

(** ** One line *)
Lemma lstrip_front p b v : Forall (fun c => p c = true) b -> (forall d t, v = d :: t -> p d = false) -> lstrip_by p (b ++ v) = v.
Proof.
  intros Hb Hv. induction Hb as [|c b E Hb IH]; cbn [app lstrip_by]; [|now rewrite E].
  destruct v as [|d t]; [reflexivity|]. cbn [lstrip_by]. now rewrite (Hv d t eq_refl).
Qed.

Lemma lstrip_every p b : Forall (fun c => p c = true) b -> lstrip_by p b = [].
Proof. intros Hb. induction Hb as [|c b E _ IH]; cbn [lstrip_by]; [reflexivity|]. now rewrite E. Qed.

Lemma unquote q1 v q2 : quotes q1 -> quotes q2 -> (forall t, v <> ascii_of_nat 34 :: t) -> (forall t, v <> t ++ [ascii_of_nat 34]) ->
  strip_char dquote (q1 ++ v ++ q2) = v.
Proof.
  intros H1 H2 Hh Ht. unfold strip_char, strip_by.
  assert (Q : forall q, quotes q -> Forall (fun c => Ascii.eqb dquote c = true) q).
  { intros q Hq. unfold quotes in Hq. rewrite Forall_forall in *. intros c Hc. rewrite (Hq c Hc). reflexivity. }
  assert (N : forall d, d <> ascii_of_nat 34 -> Ascii.eqb dquote d = false) by (intros d Hd; apply Ascii.eqb_neq; intros E; apply Hd; symmetry; exact E).
  destruct v as [|x v].
  - cbn [app]. rewrite (lstrip_every _ (q1 ++ q2)); [reflexivity|]. apply Forall_app. auto.
  - rewrite lstrip_front; [|now apply Q|].
    + rewrite rev_app_distr, lstrip_front; [apply rev_involutive| |].
      * apply Forall_rev. now apply Q.
      * intros d t E. apply N. intros ->. apply (Ht (rev t)). rewrite <- (rev_involutive (x :: v)), E. reflexivity.
    + intros d t [= <- _]. apply N. intros ->. now apply (Hh v).
Qed.

Lemma split_two sep l k w : split_on sep l = [k; w] -> l = k ++ sep :: w /\ ~ In sep k /\ ~ In sep w.
Proof.
  intros E. pose proof (split_on_nosep sep l) as Hn. rewrite E in Hn. inversion Hn as [|? ? H1 H2]; subst. inversion H2; subst. split; [|auto].
  clear Hn H1 H2 H3 H4. revert k w E. induction l as [|c l IH]; intros k w E; [discriminate E|]. cbn [split_on] in E.
  destruct (Ascii.eqb_spec sep c) as [<-|Hc].
  - injection E as <- E. assert (El : l = w); [|now rewrite El].
    clear IH. revert w E. induction l as [|d l IH]; intros w E; [now injection E as <-|]. cbn [split_on] in E.
    destruct (Ascii.eqb sep d); [destruct (split_on_cons sep l) as (u & us & Eu); rewrite Eu in E; discriminate E|].
    destruct (split_on sep l) as [|u us] eqn:Eu; [destruct (split_on_cons sep l) as (u & us & Eu'); congruence|].
    injection E as <- ->. now rewrite (IH u eq_refl).
  - destruct (split_on sep l) as [|u us] eqn:Eu; [discriminate E|]. injection E as <- ->. now rewrite (IH u w eq_refl).
Qed.

Lemma parse_line_iff line k v : parse_line line = Some (k, v) <-> os_says k line v.
Proof.
  split.
  - unfold parse_line. destruct (strip_parts line) as (a & b & Ha & Hb & El). pose proof (strip_tight line) as Ht.
    destruct (strip line) as [|c l] eqn:Es; [discriminate|]. destruct (Ascii.eqb_spec c "#") as [Hc|Hc]; [discriminate|].
    destruct (split_on "=" (c :: l)) as [|k' [|w [|? ?]]] eqn:Ep; try discriminate. intros [= <- <-].
    apply split_two in Ep as (Ec & Hk & Hw). destruct (strip_inv (Ascii.eqb dquote) w) as (q1 & q2 & Ew & H1 & H2). fold (strip_char dquote w) in Ew.
    assert (Q : forall q, forallb (Ascii.eqb dquote) q = true -> quotes q).
    { intros q Hq. rewrite forallb_forall in Hq. apply Forall_forall. intros d Hd. symmetry. apply Ascii.eqb_eq. now apply Hq. }
    exists a, b, q1, q2. split; [exact Ha|]. split; [exact Hb|]. split; [now apply Q|]. split; [now apply Q|]. split; [exact Hk|].
    split; [intros Hi; apply Hw; rewrite Ew; apply in_or_app; right; apply in_or_app; now left|].
    split; [intros t E; apply Hc; rewrite E in Ec; now injection Ec as -> _|].
    split; [|split; [|rewrite <- Ew, <- Ec; split; [exact Ht|exact El]]].
    + intros t E. unfold strip_char, strip_by in E. destruct (lstrip_inv (Ascii.eqb dquote) (rev (lstrip_by (Ascii.eqb dquote) w))) as (z & Ez & Hz).
      set (y := lstrip_by (Ascii.eqb dquote) (rev (lstrip_by (Ascii.eqb dquote) w))) in *.
      apply (f_equal (@rev ascii)) in Ez. rewrite rev_involutive, rev_app_distr, E in Ez. cbn [app] in Ez. apply lstrip_hd in Ez. discriminate Ez.
    + intros t E. unfold strip_char, strip_by in E. apply (f_equal (@rev ascii)) in E. rewrite rev_involutive, rev_app_distr in E. cbn [rev app] in E.
      apply lstrip_hd in E. discriminate E.
  - intros (a & b & q1 & q2 & Ha & Hb & H1 & H2 & Hk & Hv & Hh & Hv1 & Hv2 & Ht & ->). unfold parse_line. rewrite (strip_eq a _ b Ha Hb Ht).
    assert (Hq : ~ In "="%char (q1 ++ v ++ q2)).
    { assert (Q : forall q, quotes q -> ~ In "="%char q) by (intros q Hq Hi; unfold quotes in Hq; rewrite Forall_forall in Hq; specialize (Hq _ Hi); discriminate Hq).
      intros Hi. apply in_app_or in Hi as [Hi|Hi]; [now apply (Q q1)|]. apply in_app_or in Hi as [Hi|Hi]; [now apply Hv|now apply (Q q2)]. }
    destruct (k ++ "="%char :: q1 ++ v ++ q2) as [|c l] eqn:E; [destruct k; discriminate E|].
    destruct (Ascii.eqb_spec c "#") as [->|Hc]; [destruct k as [|x k]; [discriminate E|]; injection E as -> _; now destruct (Hh k)|].
    rewrite <- E, split_on_app, (split_on_free _ k Hk), (split_on_free _ _ Hq). cbn [app]. now rewrite (unquote q1 v q2 H1 H2 Hv1 Hv2).
Qed.

(** ** The files *)
Lemma add_other key line d : (forall v, ~ os_says key line v) -> dget str_eqb (add_line d line) key = dget str_eqb d key.
Proof.
  intros H. unfold add_line. destruct (parse_line line) as [(k, v)|] eqn:E; [|reflexivity]. apply dget_dset_other; [apply str_eqb_iff|].
  intros ->. apply parse_line_iff in E. now apply (H v).
Qed.

Lemma adds_other key f : forall d, none_says (os_says key) f -> dget str_eqb (fold_left add_line f d) key = dget str_eqb d key.
Proof.
  induction f as [|line f IH]; intros d H; [reflexivity|]. cbn [fold_left]. rewrite IH; [|intros l v Hl; apply H; now right].
  apply add_other. intros v. apply H. now left.
Qed.

Lemma adds_last key f v d : last_says (os_says key) f v -> dget str_eqb (fold_left add_line f d) key = Some v.
Proof.
  intros (l1 & line & l2 & -> & Hs & Hn). rewrite fold_left_app. cbn [fold_left]. rewrite adds_other by (intros l w Hl; now apply Hn).
  unfold add_line. apply parse_line_iff in Hs. rewrite Hs. apply dget_dset_same, str_eqb_iff.
Qed.

Lemma dset_nonempty {K V} (eqb : K -> K -> bool) (d : list (K * V)) k v : dset eqb d k v <> [].
Proof. destruct d as [|(k', v') d]; cbn [dset]; [discriminate|]. destruct (eqb k k'); discriminate. Qed.

Lemma adds_grow f : forall d, d <> [] -> fold_left add_line f d <> [].
Proof.
  induction f as [|line f IH]; intros d Hd; [exact Hd|]. cbn [fold_left]. apply IH. unfold add_line. destruct (parse_line line) as [(k, v)|]; [apply dset_nonempty|exact Hd].
Qed.

Lemma adds_nothing f : fold_left add_line f [] = [] <-> says_nothing f.
Proof.
  split.
  - intros H key line v Hin Hs. apply in_split in Hin as (l1 & l2 & ->). rewrite fold_left_app in H. cbn [fold_left] in H. revert H. apply adds_grow.
    unfold add_line. apply parse_line_iff in Hs. rewrite Hs. apply dset_nonempty.
  - induction f as [|line f IH]; intros H; [reflexivity|]. cbn [fold_left].
    assert (E : add_line [] line = []).
    { unfold add_line. destruct (parse_line line) as [(k, v)|] eqn:E; [|reflexivity]. apply parse_line_iff in E. destruct (H k line v (or_introl eq_refl) E). }
    rewrite E. apply IH. intros key l v Hl. apply H. now right.
Qed.

Lemma used_read e f : file_used e f -> (says_nothing f /\ read_os_release e = Exn ENotFound) \/ (fold_left add_line f [] <> [] /\ read_os_release e = Ok (fold_left add_line f [])).
Proof.
  intros [(-> & Hs)|(-> & Hs)]; unfold read_os_release.
  - right. rewrite <- adds_nothing in Hs. split; [exact Hs|]. destruct (fold_left add_line (e_usr e) []); [congruence|reflexivity].
  - apply adds_nothing in Hs. rewrite Hs. destruct (fold_left add_line (e_etc e) []) as [|x d] eqn:E.
    + left. split; [now apply adds_nothing|reflexivity].
    + right. split; [discriminate|reflexivity].
Qed.

Lemma osid_l e f : file_used e f ->
  (forall v, last_says (os_says (s2l "ID")) f v -> fst (get_osid e tools_init) = Ok v) /\
  (none_says (os_says (s2l "ID")) f -> fst (get_osid e tools_init) = Ok (s2l "<unknown_OS_ID>")).
Proof.
  intros Hf. unfold get_osid, get_osinfo. cbn [t_os tools_init]. destruct (used_read e f Hf) as [(Hn & E)|(Hn & E)]; rewrite E; cbn [fst].
  - split; [|reflexivity]. intros v (l1 & line & l2 & -> & Hs & _). exfalso. apply (Hn (s2l "ID") line v); [apply in_or_app; right; now left|exact Hs].
  - split.
    + intros v Hv. now rewrite (adds_last _ _ _ [] Hv).
    + intros Hv. now rewrite (adds_other _ _ [] Hv).
Qed.

(** ** Capital letters *)
Lemma up_char c : up c (upper_char c).
Proof.
  unfold up, upper_char. cbn zeta. destruct ((97 <=? nat_of_ascii c) && (nat_of_ascii c <=? 122))%nat eqn:E.
  - left. rewrite nat_ascii_embedding by lia. lia.
  - right. split; [lia|reflexivity].
Qed.

Lemma down_char c : down c (lower_char c).
Proof.
  unfold down, lower_char. cbn zeta. destruct ((65 <=? nat_of_ascii c) && (nat_of_ascii c <=? 90))%nat eqn:E.
  - left. rewrite nat_ascii_embedding by lia. lia.
  - right. split; [lia|reflexivity].
Qed.

Lemma capital_of s : capital s (capitalize s).
Proof.
  destruct s as [|c t]; cbn [capitalize]; constructor; [apply up_char|]. induction t as [|d t IH]; cbn; constructor; [apply down_char|exact IH].
Qed.

Lemma osname_l e f : file_used e f ->
  (forall v, last_says (os_says (s2l "NAME")) f v -> fst (get_osname e tools_init) = Ok v) /\
  (none_says (os_says (s2l "NAME")) f -> forall v, last_says (os_says (s2l "ID")) f v -> exists n, fst (get_osname e tools_init) = Ok n /\ capital v n) /\
  (none_says (os_says (s2l "NAME")) f -> none_says (os_says (s2l "ID")) f -> fst (get_osname e tools_init) = Ok (s2l "<unknown_OS_NAME>")).
Proof.
  intros Hf. unfold get_osname, get_osinfo. cbn [t_os tools_init]. destruct (used_read e f Hf) as [(Hn & E)|(Hn & E)]; rewrite E; cbn [fst].
  - assert (N : forall key v, ~ last_says (os_says key) f v).
    { intros key v (l1 & line & l2 & -> & Hs & _). apply (Hn key line v); [apply in_or_app; right; now left|exact Hs]. }
    split; [intros v Hv; now destruct (N _ _ Hv)|]. split; [intros _ v Hv; now destruct (N _ _ Hv)|reflexivity].
  - split; [|split].
    + intros v Hv. now rewrite (adds_last _ _ _ [] Hv).
    + intros Hv w Hw. rewrite (adds_other _ _ [] Hv), (adds_last _ _ _ [] Hw). cbn [dget]. exists (capitalize w). split; [reflexivity|apply capital_of].
    + intros Hv Hw. now rewrite (adds_other _ _ [] Hv), (adds_other _ _ [] Hw).
Qed.

(** ** What is remembered *)
Lemma osinfo_keeps e s : t_os s <> [] -> get_osinfo e s = (Ok (t_os s), s).
Proof. intros H. unfold get_osinfo. destruct (t_os s) as [|x d] eqn:E; [congruence|reflexivity]. Qed.

Lemma osid_keeps e s : t_os s <> [] -> get_osid e s = (Ok match dget str_eqb (t_os s) (s2l "ID") with Some v => v | None => unknown_id end, s).
Proof. intros H. unfold get_osid. now rewrite (osinfo_keeps e s H). Qed.

Lemma osname_keeps e s : t_os s <> [] -> t_os (snd (get_osname e s)) = t_os s.
Proof. intros H. unfold get_osname. now rewrite (osinfo_keeps e s H). Qed.

Lemma check_keeps e t s : t_os s <> [] -> t_os (snd (check_tool e t s)) = t_os s.
Proof.
  intros H. unfold check_tool. unfold mbind, modify, lift, ret. destruct (e_which e t) as [[p|]|x]; cbn [snd]; [reflexivity| |reflexivity].
  set (s1 := TL (t_os s) (t_cache s) (S (t_searches s))). assert (H1 : t_os s1 <> []) by exact H. rewrite (osid_keeps e s1 H1).
  destruct (tool_to_pkg _ _); [|reflexivity]. pose proof (osname_keeps e s1 H1) as E. destruct (get_osname e s1) as ([n|x], s2); exact E.
Qed.

Lemma run_keeps ops : forall s, t_os s <> [] -> t_os (trun ops s) = t_os s.
Proof.
  induction ops as [|o ops IH]; intros s H; [reflexivity|]. cbn [trun fold_left]. unfold trun in IH.
  assert (E : t_os (tstep s o) = t_os s).
  { destruct o as [e|e|e t]; cbn [tstep]; [now rewrite (osid_keeps e s H)|now apply osname_keeps|now apply check_keeps]. }
  rewrite IH; [exact E|now rewrite E].
Qed.

Lemma osid_known e s v : fst (get_osid e s) = Ok v -> v <> unknown_id ->
  t_os (snd (get_osid e s)) <> [] /\ v = match dget str_eqb (t_os (snd (get_osid e s))) (s2l "ID") with Some v => v | None => unknown_id end.
Proof.
  unfold get_osid, get_osinfo. destruct (t_os s) as [|x d] eqn:E.
  - destruct (read_os_release e) as [d|x] eqn:Er; cbn [fst snd t_os].
    + intros [= <-] _. split; [|reflexivity]. unfold read_os_release in Er. destruct (fold_left add_line (e_usr e) []); [|now injection Er as <-].
      destruct (fold_left add_line (e_etc e) []); [discriminate Er|now injection Er as <-].
    + destruct x; cbn [fst snd]; try discriminate. intros [= <-] H. now destruct H.
  - cbn [fst snd]. rewrite E. intros [= <-] _. split; [discriminate|reflexivity].
Qed.

Lemma remembered_l ops e v ops' e' : let s := trun ops tools_init in
  fst (get_osid e s) = Ok v -> v <> s2l "<unknown_OS_ID>" -> fst (get_osid e' (trun ops' (snd (get_osid e s)))) = Ok v.
Proof.
  cbn zeta. intros H Hv. destruct (osid_known e _ v H Hv) as (Hn & Ev). set (s' := snd (get_osid e _)) in *.
  pose proof (run_keeps ops' s' Hn) as E. rewrite osid_keeps by now rewrite E. rewrite E. cbn [fst]. now rewrite <- Ev.
Qed.

(** ** Tools *)
Lemma found_l s e tool p : e_which e tool = Ok (Some p) -> fst (check_tool e tool s) = Ok (Found p).
Proof. intros H. unfold check_tool, mbind, modify, lift. now rewrite H. Qed.

Lemma search_fails_l s e tool x : e_which e tool = Exn x -> fst (check_tool e tool s) = Exn x.
Proof. intros H. unfold check_tool, mbind, modify, lift. now rewrite H. Qed.

Lemma nodup_keys (l : list (str * str)) : nodup (list_eq_dec ascii_dec) (map fst l) = map fst l -> NoDup (map fst l).
Proof. intros <-. apply NoDup_nodup. Qed.

Lemma dget_member (d : list (str * str)) k v : NoDup (map fst d) -> In (k, v) d -> dget str_eqb d k = Some v.
Proof.
  induction d as [|(k', v') d IH]; intros Hn Hin; [destruct Hin|]. cbn [map fst] in Hn. inversion Hn as [|? ? H1 H2]; subst. cbn [dget].
  destruct Hin as [[= -> ->]|Hin].
  - assert (E : str_eqb k k = true) by now apply str_eqb_iff. now rewrite E.
  - destruct (str_eqb k k') eqn:E; [|now apply IH]. apply str_eqb_iff in E. subst k'. destruct H1. apply in_map_iff. now exists (k, v).
Qed.

Lemma table_in l t p : In (t, p) (table l) <-> exists t' p', In (t', p') l /\ t = s2l t' /\ p = s2l p'.
Proof.
  unfold table. rewrite in_map_iff. split.
  - intros ((t', p') & [= <- <-] & H). eauto.
  - intros (t' & p' & H & -> & ->). now exists (t', p').
Qed.

Lemma pkg_iff tool os pkg : tool_to_pkg tool os = Some pkg <-> package_of os tool pkg.
Proof.
  assert (K : forall o l, In o systems -> dget str_eqb pkginfo (s2l o) = Some l ->
     nodup (list_eq_dec ascii_dec) (map fst l) = map fst l ->
     forallb (fun kv => existsb (fun kv' => str_eqb (fst kv) (fst kv') && str_eqb (snd kv) (snd kv')) (table (everywhere ++ on_system o))) l = true ->
     forallb (fun kv => existsb (fun kv' => str_eqb (fst kv) (fst kv') && str_eqb (snd kv) (snd kv')) l) (table (everywhere ++ on_system o)) = true ->
     forall t p, dget str_eqb l t = Some p <-> In (t, p) (table (everywhere ++ on_system o))).
  { intros o l _ _ Hn H1 H2 t p.
    assert (M : forall a b : list (str * str), forallb (fun kv => existsb (fun kv' => str_eqb (fst kv) (fst kv') && str_eqb (snd kv) (snd kv')) b) a = true ->
        In (t, p) a -> In (t, p) b).
    { intros a b H Hi. rewrite forallb_forall in H. specialize (H _ Hi). apply existsb_exists in H as ((t', p') & Hb & E). cbn [fst snd] in E.
      apply andb_true_iff in E as (E1 & E2). apply str_eqb_iff in E1, E2. now subst. }
    split.
    - intros E. apply (dget_In str_eqb str_eqb_iff) in E. exact (M _ _ H1 E).
    - intros Hi. apply dget_member; [now apply nodup_keys|exact (M _ _ H2 Hi)]. }
  assert (A : forall o, In o systems -> exists l, dget str_eqb pkginfo (s2l o) = Some l /\ forall t p, dget str_eqb l t = Some p <-> In (t, p) (table (everywhere ++ on_system o))).
  { intros o Ho. assert (Ho' := Ho). unfold systems in Ho. cbn [In] in Ho.
    repeat (destruct Ho as [<-|Ho]; [eexists; split; [reflexivity|apply K; [exact Ho'|reflexivity|vm_compute; reflexivity..]]|]). destruct Ho. }
  unfold tool_to_pkg. split.
  - destruct (dget str_eqb pkginfo os) as [l|] eqn:E; [|discriminate]. intros H.
    assert (Ho : exists o, In o systems /\ os = s2l o).
    { apply (dget_In str_eqb str_eqb_iff) in E. unfold pkginfo in E. cbn [In] in E. unfold systems.
      destruct E as [[= <- _]|[[= <- _]|[[= <- _]|[[= <- _]|[[= <- _]|[]]]]]];
        [exists "fedora"%string|exists "centos"%string|exists "rhel"%string|exists "ubuntu"%string|exists "debian"%string]; cbn [In]; auto 10. }
    destruct Ho as (o & Ho & ->). destruct (A o Ho) as (l' & El & Hl). rewrite E in El. injection El as <-. apply Hl in H.
    apply table_in in H as (t & p & Hi & -> & ->). exists o, t, p. auto.
  - intros (o & t & p & Ho & Hi & -> & -> & ->). destruct (A o Ho) as (l & El & Hl). rewrite El. apply Hl. apply table_in. eauto.
Qed.

Lemma base_name_of path name : file_name path name -> base_name path = name.
Proof.
  intros (Hn & [->|(dir & ->)]); unfold base_name.
  - now rewrite (split_on_free _ name Hn).
  - rewrite split_on_app, (split_on_free _ name Hn). apply last_last.
Qed.

Lemma missing_l s e tool name os : e_which e tool = Ok None -> file_name tool name -> fst (get_osid e s) = Ok os ->
  (forall pkg, package_of os name pkg -> exists osname, fst (get_osname e s) = Ok osname /\ fst (check_tool e tool s) = Ok (Missing (Some (osname, pkg)))) /\
  ((forall pkg, ~ package_of os name pkg) -> fst (check_tool e tool s) = Ok (Missing None)).
Proof.
  intros Hw Hn Ho. unfold check_tool, mbind, modify, lift, ret. rewrite Hw, (base_name_of tool name Hn).
  set (s1 := TL (t_os s) (t_cache s) (S (t_searches s))).
  assert (Hos : exists d, get_osinfo e s = (d, snd (get_osinfo e s)) /\ get_osinfo e s1 = (d, TL (t_os (snd (get_osinfo e s))) (t_cache s) (S (t_searches s)))).
  { unfold get_osinfo. subst s1. cbn [t_os t_cache t_searches]. destruct (t_os s) as [|x d] eqn:E.
    - destruct (read_os_release e); eexists; split; cbn [snd t_os]; rewrite ?E; reflexivity.
    - eexists. split; cbn [snd]; rewrite ?E; reflexivity. }
  destruct Hos as (d & E0 & E1). unfold get_osid in *. rewrite E0 in Ho. rewrite E1.
  assert (R : forall d', d = Ok d' -> d' <> [] /\ t_os (snd (get_osinfo e s)) = d').
  { intros d' ->. revert E0. unfold get_osinfo. destruct (t_os s) as [|x l] eqn:E.
    - destruct (read_os_release e) as [l|x] eqn:Er; cbn [snd t_os]; [|discriminate]. intros [= <-]. split; [|reflexivity].
      unfold read_os_release in Er. destruct (fold_left add_line (e_usr e) []); [|now injection Er as <-].
      destruct (fold_left add_line (e_etc e) []); [discriminate Er|now injection Er as <-].
    - cbn [snd]. intros [= <-]. split; [discriminate|exact E]. }
  destruct d as [d|x].
  - cbn [fst] in Ho. assert (Eo : match dget str_eqb d (s2l "ID") with Some v => v | None => unknown_id end = os) by (now injection Ho as Ho).
    destruct (R d eq_refl) as (Hd & Hs). rewrite Hs, Eo. split.
    + intros pkg Hp. apply pkg_iff in Hp. rewrite Hp. unfold get_osname.
      rewrite (osinfo_keeps e (TL d (t_cache s) (S (t_searches s))) Hd), E0. cbn [t_os fst]. eexists. split; reflexivity.
    + intros Hp. destruct (tool_to_pkg name _) as [pkg|] eqn:Et; [|reflexivity]. apply pkg_iff in Et. now destruct (Hp pkg).
  - destruct x; try discriminate Ho. cbn [fst] in Ho. injection Ho as <-.
    assert (Et : tool_to_pkg name unknown_id = None) by reflexivity. rewrite Et. split; [|reflexivity].
    intros pkg Hp. apply pkg_iff in Hp. discriminate Hp.
Qed.
