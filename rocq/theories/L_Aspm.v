(** Lemmas about PCI ASPM. *)
From Coq Require Import ZifyBool.
From Verif Require Import Base L_Base M_Text S_Text L_Text M_Kver M_Osa S_Osa L_Osa M_Aspm S_Aspm.

(** ** The policy file *)
Lemma str_eqb_iff a b : str_eqb a b = true <-> a = b.
Proof. unfold str_eqb. destruct (list_eq_dec ascii_dec a b); split; congruence. Qed.
Lemma str_eqb_same a : str_eqb a a = true.
Proof. now apply str_eqb_iff. Qed.

Lemma existsb_str n l : existsb (str_eqb n) l = true <-> In n l.
Proof.
  rewrite existsb_exists. split.
  - intros (x & Hx & E). apply str_eqb_iff in E. now subst.
  - intros H. exists n. split; [exact H|]. now apply str_eqb_iff.
Qed.

Lemma last_app_ne (a b : str) d : b <> [] -> last (a ++ b) d = last b d.
Proof.
  intros H. induction a as [|x a IH]; [reflexivity|]. cbn [app]. rewrite <- IH.
  destruct a as [|y a]; [|reflexivity]. destruct b; [congruence|reflexivity].
Qed.

Definition word (w : str) : Prop := w <> [] /\ forall c, In c w -> is_space c = false.

Lemma blank_forallb t : blank t -> forallb is_space t = true.
Proof. intros H. now apply forallb_forall. Qed.

Lemma hd_in (w : str) : w <> [] -> In (hd "0"%char w) w.
Proof. destruct w; [congruence|]. now left. Qed.
Lemma last_in (w : str) : w <> [] -> In (last w "0"%char) w.
Proof.
  induction w as [|c w IH]; [congruence|]. intros _. destruct w as [|d w]; [now left|]. right. now apply IH.
Qed.

Lemma strip_word w : word w -> strip w = w.
Proof.
  intros (Hn & Hs). unfold strip. rewrite <- (app_nil_r w) at 1. change w with ([] ++ w) at 1. rewrite <- app_assoc.
  apply strip_mid; auto using hd_in, last_in.
Qed.

Lemma join_hd ws : Forall word ws -> ws <> [] -> join " " ws <> [] /\ is_space (hd "0"%char (join " " ws)) = false /\ is_space (last (join " " ws) "0"%char) = false.
Proof.
  intros H. induction H as [|w ws Hw H IH]; [congruence|]. intros _. destruct Hw as (Hn & Hs).
  destruct ws as [|v ws].
  - cbn [join]. auto using hd_in, last_in.
  - change (join " " (w :: v :: ws)) with (w ++ " "%char :: join " " (v :: ws)).
    destruct IH as (A & B & C); [congruence|]. split; [destruct w; discriminate|]. split.
    + destruct w as [|c w]; [congruence|]. cbn. apply Hs. now left.
    + rewrite last_app_ne by discriminate. change (" "%char :: join " " (v :: ws)) with ([" "%char] ++ join " " (v :: ws)).
      destruct (join " " (v :: ws)) as [|c t]; [congruence|]. exact C.
Qed.

Lemma words_read ws b1 b2 : Forall word ws -> ws <> [] -> blank b1 -> blank b2 ->
  split_csv_line " " false false (strip (b1 ++ join " " ws ++ b2)) = ws.
Proof.
  intros H Hn H1 H2. destruct (join_hd ws H Hn) as (A & B & C).
  unfold strip. rewrite strip_mid by auto using blank_forallb. rewrite split_csv_toks. cbn zeta.
  rewrite toks_join. clear Hn A B C. induction H as [|w ws Hw H IH]; [reflexivity|].
  cbn [flat_map]. rewrite map_app, IH. unfold toks. rewrite split_on_none.
  - pose proof (strip_word w Hw) as E. destruct Hw as (Hn & Hs). destruct w as [|c w]; [congruence|].
    cbn [filter nonemptyb map app]. now rewrite E.
  - unfold has_char. destruct (existsb (Ascii.eqb " ") w) eqn:E; [|reflexivity].
    apply existsb_exists in E as (x & Hx & E). apply Ascii.eqb_eq in E. subst x. now apply (proj2 Hw) in Hx.
Qed.

Definition inside (n : str) : str := "["%char :: n ++ ["]"%char].

Lemma plain_word n : plain n -> word n.
Proof. intros (H & H1). split; [exact H|]. intros c Hc. now apply H1. Qed.
Lemma inside_word n : plain n -> word (inside n).
Proof.
  intros (H & H1). split; [discriminate|]. intros c [<-|Hc]; [reflexivity|].
  apply in_app_iff in Hc as [Hc|[<-|[]]]; [now apply H1|reflexivity].
Qed.

Lemma unbracket_plain n : plain n -> unbracket n = n.
Proof.
  intros (Hn & H). unfold unbracket. rewrite <- (app_nil_r n) at 1. change n with ([] ++ n) at 1. rewrite <- app_assoc.
  apply strip_mid; auto.
  - destruct (H _ (hd_in n Hn)) as (_ & A & B). apply orb_false_iff. split; apply Ascii.eqb_neq; congruence.
  - destruct (H _ (last_in n Hn)) as (_ & A & B). apply orb_false_iff. split; apply Ascii.eqb_neq; congruence.
Qed.
Lemma unbracket_inside n : plain n -> unbracket (inside n) = n.
Proof.
  intros (Hn & H). unfold unbracket, inside. change ("["%char :: n ++ ["]"%char]) with (["["%char] ++ n ++ ["]"%char]).
  apply strip_mid; auto.
  - destruct (H _ (hd_in n Hn)) as (_ & A & B). apply orb_false_iff. split; apply Ascii.eqb_neq; congruence.
  - destruct (H _ (last_in n Hn)) as (_ & A & B). apply orb_false_iff. split; apply Ascii.eqb_neq; congruence.
Qed.

Lemma plain_not_active n : plain n -> starts "["%char n = false.
Proof.
  intros (Hn & H). destruct n as [|c n]; [reflexivity|]. cbn [starts]. apply Ascii.eqb_neq.
  destruct (H c) as (_ & A & _); [now left|congruence].
Qed.
Lemma inside_active n : starts "["%char (inside n) && ends "]"%char (inside n) = true.
Proof. unfold ends, inside. cbn. now rewrite rev_app_distr. Qed.

Lemma menu_read names cur t : menu names cur t ->
  let ps := split_csv_line " " false false (strip t) in
  map unbracket ps = names /\
  exists l, filter (fun p => starts "["%char p && ends "]"%char p) ps = inside cur :: l /\ unbracket (inside cur) = cur.
Proof.
  intros (Hp & pre & post & b1 & b2 & -> & B1 & B2 & ->). cbv zeta.
  apply Forall_app in Hp as (Hpre & Hc). inversion Hc as [|x l Hcur Hpost]; subst.
  fold (inside cur). rewrite words_read; auto.
  - split.
    + rewrite map_app. cbn [map]. rewrite unbracket_inside by exact Hcur. f_equal; [|f_equal].
      * rewrite <- (map_id pre) at 2. apply map_ext_in. intros a Ha. apply unbracket_plain. rewrite Forall_forall in Hpre. auto.
      * rewrite <- (map_id post) at 2. apply map_ext_in. intros a Ha. apply unbracket_plain. rewrite Forall_forall in Hpost. auto.
    + eexists. split; [|now apply unbracket_inside]. rewrite filter_app.
      replace (filter _ pre) with (@nil str).
      * cbn [filter app]. rewrite inside_active. reflexivity.
      * symmetry. clear - Hpre. induction Hpre as [|p l Hp H IH]; [reflexivity|]. cbn [filter].
        now rewrite (plain_not_active _ Hp).
  - apply Forall_app. split; [|constructor].
    + eapply Forall_impl; [|exact Hpre]. exact plain_word.
    + now apply inside_word.
    + eapply Forall_impl; [|exact Hpost]. exact plain_word.
  - destruct pre; discriminate.
Qed.

Lemma menu_unique names cur t names' cur' : menu names cur t -> menu names' cur' t -> names = names' /\ cur = cur'.
Proof.
  intros H H'. destruct (menu_read _ _ _ H) as (A & l & B & C). destruct (menu_read _ _ _ H') as (A' & l' & B' & C').
  split; [congruence|]. rewrite B in B'. injection B' as E _. unfold inside in *. congruence.
Qed.

Lemma menu_listed names cur t : menu names cur t -> In cur names.
Proof. intros (_ & pre & post & b1 & b2 & -> & _). apply in_app_iff. right. now left. Qed.

(** ** Reading *)
Section Aspm.
  Variable env : aenv.

  Lemma read_file_same p s : snd (read_file env p s) = s.
  Proof. unfold read_file, mbind, gets. destruct (a_fs s p); [|reflexivity]. now destruct (ae_unreadable env p). Qed.

  Lemma raw_same b s : snd (get_policies_raw env b s) = s.
  Proof.
    unfold get_policies_raw. pose proof (read_file_same policy_path s) as E.
    destruct (read_file env policy_path s) as [[t|e] s1]; exact E.
  Qed.
  Lemma get_policy_same s : snd (get_policy env s) = s.
  Proof.
    unfold get_policy, mbind. pose proof (raw_same false s) as E. destruct (get_policies_raw env false s) as [[l|e] s1]; cbn [snd] in E; subst s1; [|reflexivity].
    now destruct (filter _ l).
  Qed.

  Lemma raw_menu b s names cur t : a_fs s policy_path = Some t -> ae_unreadable env policy_path = false -> menu names cur t ->
    get_policies_raw env b s = (Ok (if b then names else split_csv_line " " false false (strip t)), s).
  Proof.
    intros F U H. unfold get_policies_raw, read_file, mbind, gets. rewrite F, U. unfold ret.
    destruct (menu_read _ _ _ H) as (A & _). destruct b; [now rewrite A|reflexivity].
  Qed.
  Lemma get_policy_menu s names cur t : a_fs s policy_path = Some t -> ae_unreadable env policy_path = false -> menu names cur t ->
    get_policy env s = (Ok cur, s).
  Proof.
    intros F U H. unfold get_policy, mbind. rewrite (raw_menu false s names cur t F U H).
    destruct (menu_read _ _ _ H) as (_ & l & E & E2). rewrite E, E2. reflexivity.
  Qed.

  (** ** Only the kernel version is remembered by reading *)
  Definition same_but_kver (s s' : astate) : Prop := a_fs s' = a_fs s /\ a_log s' = a_log s /\ a_out s' = a_out s.

  Lemma l1_not_found_frame {A} addr s : exists e, fst (@l1_not_found env A addr s) = Exn e /\ same_but_kver s (snd (@l1_not_found env A addr s)).
  Proof.
    unfold l1_not_found. destruct (ae_dir env (dev_path addr)); cbn [negb]; [|exists EError; repeat split].
    set (m := let! kv := gets a_kver in match kv with Some (_ :: _) => ret tt | _ => _ end).
    unfold mbind at 1. assert (H : exists s1, m s = (Ok tt, s1) /\ same_but_kver s s1).
    { unfold m, mbind, gets. destruct (a_kver s) as [[|c v]|]; try destruct (ae_uname env) as [v1|e]; eexists; (split; [reflexivity|]); repeat split. }
    destruct H as (s1 & Em & H). unfold mbind, gets. rewrite Em. destruct (a_kver s1) as [[|c v]|]; try (exists ENotSupported; split; [reflexivity|exact H]).
    unfold lift. destruct (kver_lt (c :: v) (s2l "5.5")) as [[]|e]; eexists; (split; [reflexivity|exact H]).
  Qed.

  Lemma l1_enabled_frame addr s : same_but_kver s (snd (is_l1_enabled env addr s)).
  Proof.
    unfold is_l1_enabled. pose proof (read_file_same (l1_path addr) s) as E.
    destruct (read_file env (l1_path addr) s) as [[t|e] s1]; cbn [snd] in E; subst s1.
    - destruct (str_to_int t); repeat split.
    - destruct e; try (repeat split; fail). destruct (@l1_not_found_frame bool addr s) as (e & _ & H). exact H.
  Qed.

  Lemma flag_int on t : flag on t -> exists n, str_to_int t = Ok n /\ negb (n =? 0) = on.
  Proof. intros (e & [-> | ->] & ->); destruct on; [exists 1|exists 0|exists 1|exists 0]; vm_compute; auto. Qed.

  Lemma l1_enabled_flag addr s on t : a_fs s (l1_path addr) = Some t -> ae_unreadable env (l1_path addr) = false -> flag on t ->
    is_l1_enabled env addr s = (Ok on, s).
  Proof.
    intros F U H. unfold is_l1_enabled, read_file, mbind, gets. rewrite F, U. unfold ret.
    destruct (flag_int _ _ H) as (n & -> & ->). reflexivity.
  Qed.

  Lemma print_l1_frame addr s : untouched s (snd (print_l1 env addr s)).
  Proof.
    unfold print_l1, mbind. pose proof (l1_enabled_frame addr s) as (A & B & _).
    destruct (is_l1_enabled env addr s) as [[b|e] s1]; cbn [snd] in *; split; auto.
  Qed.

  Lemma device_given d c a : d = Some (c :: a) -> device d = d.
  Proof. now intros ->. Qed.
  Lemma device_spec d : (given d /\ device d = d) \/ (~ given d /\ device d = None).
  Proof.
    destruct d as [[|c a]|]; [right|left|right]; (split; [|reflexivity]).
    - intros (c & a & [=]).
    - now exists c, a.
    - intros (c & a & [=]).
  Qed.

  (** ** The info command *)
  Lemma C62_info_changes_nothing_l policy policies l1 dev s : untouched s (snd (info env policy policies l1 dev s)).
  Proof.
    unfold info. assert (T : forall a b c, untouched a b -> untouched b c -> untouched a c).
    { intros a b c (A & B) (C & D). split; congruence. }
    unfold mbind at 1.
    set (m := match device dev with Some addr => print_l1 env addr | None => if l1 then throw EError else ret tt end).
    assert (H1 : untouched s (snd (m s))).
    { unfold m. destruct (device dev) as [addr|]; [apply print_l1_frame|]. destruct l1; split; reflexivity. }
    destruct (m s) as [[u|e] s1]; cbn [snd] in H1; [|exact H1]. eapply T; [exact H1|].
    unfold mbind at 1. set (m2 := if policy || _ then _ else _).
    assert (H2 : untouched s1 (snd (m2 s1))).
    { unfold m2. destruct (policy || _); [|split; reflexivity]. unfold mbind. pose proof (get_policy_same s1) as E.
      destruct (get_policy env s1) as [[p|e] s2]; cbn [snd] in *; subst; split; reflexivity. }
    destruct (m2 s1) as [[u2|e] s2]; cbn [snd] in H2; [|exact H2]. eapply T; [exact H2|].
    destruct (policies || _); [|split; reflexivity]. unfold mbind, get_policies. pose proof (raw_same true s2) as E.
    destruct (get_policies_raw env true s2) as [[p|e] s3]; cbn [snd] in *; subst; split; reflexivity.
  Qed.

  Lemma C62_info_l policy policies l1 dev s names cur t :
    a_fs s policy_path = Some t -> ae_unreadable env policy_path = false -> menu names cur t ->
    (l1 = true -> given dev) ->
    (forall addr, given dev -> dev = Some addr -> ae_unreadable env (l1_path addr) = false /\ exists f on, a_fs s (l1_path addr) = Some f /\ flag on f) ->
    exists s' lines, info env policy policies l1 dev s = (Ok tt, s') /\
      a_out s' = a_out s ++ lines ++
        (if policy || negb (policy || policies || l1) then [MPolicy cur] else []) ++
        (if policies || negb (policy || policies || l1) then [MPolicies names] else []) /\
      (~ given dev -> lines = []) /\
      forall addr on f, given dev -> dev = Some addr -> a_fs s (l1_path addr) = Some f -> flag on f -> lines = [ML1 on addr].
  Proof.
    intros F U H Hl Hd. unfold info.
    set (m := match device dev with Some addr => print_l1 env addr | None => if l1 then throw EError else ret tt end).
    assert (H1 : exists lines s1, m s = (Ok tt, s1) /\ a_fs s1 = a_fs s /\ a_out s1 = a_out s ++ lines /\ (~ given dev -> lines = []) /\
      forall addr on f, given dev -> dev = Some addr -> a_fs s (l1_path addr) = Some f -> flag on f -> lines = [ML1 on addr]).
    { unfold m. destruct (device_spec dev) as [(G & E)|(G & E)]; rewrite E.
      - destruct dev as [addr|]; [|now destruct G as (? & ? & [=])].
        destruct (Hd addr G eq_refl) as (Ul & f & on & Fl & Fo).
        unfold print_l1, mbind. rewrite (l1_enabled_flag addr s on f Fl Ul Fo).
        eexists [ML1 on addr], _. split; [reflexivity|]. split; [reflexivity|]. split; [reflexivity|]. split; [tauto|].
        intros a on' f' _ [= <-] Fl' Fo'. rewrite Fl in Fl'. injection Fl' as <-.
        destruct Fo as (e & _ & ->). destruct Fo' as (e' & _ & E'). destruct on, on'; try reflexivity; discriminate.
      - destruct l1; [now destruct (G (Hl eq_refl))|]. exists [], s. rewrite app_nil_r. repeat split; auto. intros; tauto. }
    destruct H1 as (lines & s1 & E1 & F1 & O1 & L1 & L2). unfold mbind at 1. rewrite E1.
    assert (H2 : forall b s0, a_fs s0 = a_fs s -> exists s2, (if b : bool then let! p := get_policy env in say (MPolicy p) else ret tt) s0 = (Ok tt, s2) /\
       a_fs s2 = a_fs s /\ a_out s2 = a_out s0 ++ if b then [MPolicy cur] else []).
    { intros b s0 E0. destruct b; [|exists s0; rewrite app_nil_r; auto]. unfold mbind.
      rewrite (get_policy_menu s0 names cur t); auto; [|now rewrite E0]. eexists. split; [reflexivity|]. split; [exact E0|reflexivity]. }
    assert (H3 : forall b s0, a_fs s0 = a_fs s -> exists s2, (if b : bool then let! p := get_policies env in say (MPolicies p) else ret tt) s0 = (Ok tt, s2) /\
       a_out s2 = a_out s0 ++ if b then [MPolicies names] else []).
    { intros b s0 E0. destruct b; [|exists s0; rewrite app_nil_r; auto]. unfold mbind, get_policies.
      rewrite (raw_menu true s0 names cur t); auto; [|now rewrite E0]. eexists. split; reflexivity. }
    destruct (H2 (policy || negb (policy || policies || l1)) s1 F1) as (s2 & E2 & F2 & O2). unfold mbind at 1. rewrite E2.
    destruct (H3 (policies || negb (policy || policies || l1)) s2 F2) as (s3 & E3 & O3). rewrite E3.
    exists s3, lines. split; [reflexivity|]. split; [rewrite O3, O2, O1, <- !app_assoc; reflexivity|]. auto.
  Qed.
End Aspm.
