(** Lemmas about the ASPM config command. *)
From Coq Require Import ZifyBool.
From Verif Require Import Base L_Base M_Text S_Text L_Text M_Kver M_Osa S_Osa L_Osa M_Aspm S_Aspm L_Aspm.

Lemma l1_not_policy addr : l1_path addr <> policy_path.
Proof. unfold l1_path, link_path, dev_path, policy_path. cbn. congruence. Qed.

Lemma state_words on st : means_state on st <-> existsb (str_eqb (lower st)) (if on then enable_vals else map s2l ["false"; "off"; "disable"]%string) = true.
Proof.
  assert (K : forall w, lower (s2l w) = s2l w -> (str_eqb (lower st) (s2l w) = true <-> Forall2 same_letter st (s2l w))).
  { intros w E. rewrite str_eqb_iff. pose proof (C40_case_l st (s2l w)) as H. cbn [folded] in H. rewrite E in H. exact H. }
  split.
  - intros (w & Hw & H). apply existsb_exists. exists (s2l w).
    assert (Ew : lower (s2l w) = s2l w) by (destruct on; cbn in Hw; destruct Hw as [<-|[<-|[<-|[]]]]; vm_compute; reflexivity).
    split; [|now apply (proj2 (K w Ew))].
    destruct on; cbn in Hw; destruct Hw as [<-|[<-|[<-|[]]]]; vm_compute; tauto.
  - intros H. apply existsb_exists in H as (x & Hx & E).
    assert (exists w, x = s2l w /\ lower (s2l w) = s2l w /\ In w (if on then ["on"; "true"; "enable"] else ["off"; "false"; "disable"])%string) as (w & -> & Ew & Hw).
    { destruct on; cbn [enable_vals map In] in Hx; destruct Hx as [<-|[<-|[<-|[]]]]; eexists; (split; [reflexivity|]); (split; [vm_compute; reflexivity|]); cbn; tauto. }
    exists w. split; [exact Hw|]. now apply (proj1 (K w Ew)).
Qed.

Lemma valid_split st : existsb (str_eqb st) valid_vals = existsb (str_eqb st) enable_vals || existsb (str_eqb st) (map s2l ["false"; "off"; "disable"]%string).
Proof.
  unfold valid_vals, enable_vals. cbn [map existsb].
  destruct (str_eqb st (s2l "false")), (str_eqb st (s2l "true")), (str_eqb st (s2l "off")), (str_eqb st (s2l "on")),
    (str_eqb st (s2l "disable")), (str_eqb st (s2l "enable")); reflexivity.
Qed.

Lemma not_both st : existsb (str_eqb st) enable_vals = true -> existsb (str_eqb st) (map s2l ["false"; "off"; "disable"]%string) = false.
Proof.
  unfold enable_vals. intros H. apply existsb_exists in H as (x & Hx & E). apply str_eqb_iff in E. subst x.
  cbn [map In] in Hx. destruct Hx as [<-|[<-|[<-|[]]]]; vm_compute; reflexivity.
Qed.

Section Aspm.
  Variable env : aenv.

  Lemma store_spec p old v s : (ae_write env p old v = None /\ store env p old v s = (Exn EError, s)) \/
    exists new s', ae_write env p old v = Some new /\ store env p old v s = (Ok tt, s') /\ a_fs s' p = Some new /\
      only [p] (a_fs s) (a_fs s') /\ a_log s' = a_log s ++ [(p, v)] /\ a_out s' = a_out s /\ a_kver s' = a_kver s.
  Proof.
    unfold store. destruct (ae_write env p old v) as [new|]; [right|left; split; reflexivity].
    unfold modify. eexists new, _. split; [reflexivity|]. split; [reflexivity|]. cbn [a_fs a_log a_out a_kver].
    split; [now rewrite str_eqb_same|]. split; [|auto]. intros q Hq. cbn [a_fs]. destruct (str_eqb q p) eqn:E; [|reflexivity].
    apply str_eqb_iff in E. subst. destruct Hq. now left.
  Qed.

  (** ** The policy *)
  Lemma set_policy_ok name s s' : set_policy env name s = (Ok tt, s') ->
    exists t new, a_fs s policy_path = Some t /\ ae_unreadable env policy_path = false /\
      In name (map unbracket (split_csv_line " " false false (strip t))) /\ ae_write env policy_path t name = Some new /\
      a_fs s' policy_path = Some new /\ only [policy_path] (a_fs s) (a_fs s') /\ a_log s' = a_log s ++ [(policy_path, name)] /\
      a_out s' = a_out s /\ a_kver s' = a_kver s.
  Proof.
    unfold set_policy, mbind at 1. unfold get_policies_raw, read_file, mbind at 1, gets.
    destruct (a_fs s policy_path) as [t|] eqn:F; [|discriminate].
    destruct (ae_unreadable env policy_path); [discriminate|]. unfold ret at 1.
    destruct (existsb (str_eqb name) _) eqn:E; cbn [negb]; [|discriminate].
    unfold mbind, gets. rewrite F. intros H. apply existsb_str in E.
    destruct (store_spec policy_path t name s) as [(_ & A)|(new & s1 & W & A & B & C & D & G & K)]; rewrite A in H; [discriminate|].
    injection H as <-. exists t, new. tauto.
  Qed.

  Lemma set_policy_fails name s e s' : set_policy env name s = (Exn e, s') -> s' = s /\ e = EError.
  Proof.
    unfold set_policy, mbind at 1. unfold get_policies_raw, read_file, mbind at 1, gets.
    destruct (a_fs s policy_path) as [t|] eqn:F; [|intros [= <- <-]; auto].
    destruct (ae_unreadable env policy_path); [intros [= <- <-]; auto|]. unfold ret at 1.
    destruct (existsb (str_eqb name) _) eqn:E; cbn [negb]; [|intros [= <- <-]; auto].
    unfold mbind, gets. rewrite F. intros H.
    destruct (store_spec policy_path t name s) as [(_ & A)|(new & s1 & W & A & B & C & D & G & K)]; rewrite A in H; [|discriminate].
    injection H as <- <-. auto.
  Qed.

  Lemma get_policy_reads s cur s' : get_policy env s = (Ok cur, s') ->
    s' = s /\ forall names c t, a_fs s policy_path = Some t -> menu names c t -> c = cur.
  Proof.
    intros E. pose proof (get_policy_same env s) as Es. rewrite E in Es. cbn [snd] in Es. split; [exact Es|].
    intros names c t F H. destruct (ae_unreadable env policy_path) eqn:U.
    - unfold get_policy, get_policies_raw, read_file, mbind, gets in E. rewrite F, U in E. discriminate.
    - rewrite (get_policy_menu env s names c t F U H) in E. congruence.
  Qed.

  (** What a successful change of the policy did. *)
  Definition policy_done (s s' : astate) (name : str) : Prop :=
    a_log s' = a_log s ++ [(policy_path, name)] /\ only [policy_path] (a_fs s) (a_fs s') /\ a_kver s' = a_kver s /\
    (forall names cur t, a_fs s' policy_path = Some t -> menu names cur t -> cur = name) /\
    (exists m, a_out s' = a_out s ++ [m]) /\
    forall names cur t, a_fs s policy_path = Some t -> menu names cur t ->
      In name names /\ (cur <> name -> a_out s' = a_out s ++ [MChanged cur name]) /\ (cur = name -> a_out s' = a_out s ++ [MAgain name]).

  Lemma handle_policy_ok others dev c n s s' : handle_policy env others dev (Some (c :: n)) s = (Ok tt, s') ->
    (given dev -> others = true) /\ policy_done s s' (c :: n).
  Proof.
    unfold handle_policy. intros H.
    assert (G : given dev -> others = true).
    { intros (a & b & ->). cbn [device] in H. destruct others; [reflexivity|discriminate]. }
    split; [exact G|].
    assert (H' : (let! cur := get_policy env in set_policy env (c :: n) ;; let! new := get_policy env in
        if negb (str_eqb (c :: n) new) then throw EError else if negb (str_eqb (c :: n) cur) then say (MChanged cur (c :: n)) else say (MAgain (c :: n))) s = (Ok tt, s')).
    { destruct (device dev); [destruct others; [exact H|discriminate]|exact H]. }
    clear H. unfold mbind at 1 in H'. destruct (get_policy env s) as [[cur|e] s1] eqn:E1; [|discriminate].
    destruct (get_policy_reads _ _ _ E1) as (-> & R1). unfold mbind at 1 in H'.
    destruct (set_policy env (c :: n) s) as [[u|e] s2] eqn:E2; [|discriminate]. destruct u.
    destruct (set_policy_ok _ _ _ E2) as (t & new & F & U & I & W & F2 & O2 & L2 & X2 & K2).
    unfold mbind at 1 in H'. destruct (get_policy env s2) as [[nw|e] s3] eqn:E3; [|discriminate].
    destruct (get_policy_reads _ _ _ E3) as (-> & R3).
    destruct (str_eqb (c :: n) nw) eqn:Q; cbn [negb] in H'; [|discriminate]. apply str_eqb_iff in Q. subst nw.
    assert (S : a_fs s' = a_fs s2 /\ a_log s' = a_log s2 /\ a_kver s' = a_kver s2 /\ a_out s' = a_out s ++ [if str_eqb (c :: n) cur then MAgain (c :: n) else MChanged cur (c :: n)]).
    { destruct (str_eqb (c :: n) cur); cbn [negb] in H'; unfold say, modify in H'; injection H' as <-; cbn; rewrite X2; auto. }
    destruct S as (S1 & S2 & S3 & S4). unfold policy_done. rewrite S1, S2, S3. split; [exact L2|]. split; [exact O2|]. split; [exact K2|].
    split; [intros names x t' Ft Hm; exact (R3 names x t' Ft Hm)|]. split; [rewrite S4; eauto|].
    intros names x t' Ft Hm. rewrite F in Ft. injection Ft as <-. rewrite (R1 names x t F Hm) in *. rewrite S4.
    split; [rewrite (proj1 (menu_read _ _ _ Hm)) in I; exact I|]. split.
    - intros Hn. destruct (str_eqb (c :: n) cur) eqn:Q; [|reflexivity]. apply str_eqb_iff in Q. congruence.
    - intros ->. now rewrite str_eqb_same.
  Qed.

  Lemma C62_policy_set_l name dev s s' : name <> [] -> config env (Some (Some name)) None dev s = (Ok tt, s') ->
    ~ given dev /\ a_log s' = a_log s ++ [(policy_path, name)] /\ only [policy_path] (a_fs s) (a_fs s') /\
    (forall names cur t, a_fs s' policy_path = Some t -> menu names cur t -> cur = name) /\
    forall names cur t, a_fs s policy_path = Some t -> menu names cur t ->
      In name names /\ (cur <> name -> a_out s' = a_out s ++ [MChanged cur name]) /\ (cur = name -> a_out s' = a_out s ++ [MAgain name]).
  Proof.
    intros Hn H. destruct name as [|c n]; [congruence|]. unfold config, mbind in H.
    destruct (handle_policy env false dev (Some (c :: n)) s) as [[[]|e] s1] eqn:E; [|discriminate]. injection H as <-.
    destruct (handle_policy_ok _ _ _ _ _ _ E) as (G & A & B & _ & C & _ & D). split; [|auto].
    intros Hg. now apply G in Hg.
  Qed.

  Lemma C62_policy_failed_l name dev s e s' : name <> [] -> config env (Some (Some name)) None dev s = (Exn e, s') ->
    a_out s' = a_out s /\
    (untouched s s' \/
     a_log s' = a_log s ++ [(policy_path, name)] /\ only [policy_path] (a_fs s) (a_fs s') /\
     forall names cur t, a_fs s' policy_path = Some t -> menu names cur t -> cur <> name /\ e = EError).
  Proof.
    intros Hn H. destruct name as [|c n]; [congruence|]. unfold config, mbind at 1 in H.
    destruct (handle_policy env false dev (Some (c :: n)) s) as [[[]|e1] s1] eqn:E; [discriminate|]. injection H as -> ->.
    unfold handle_policy in E.
    assert (E' : (let! cur := get_policy env in set_policy env (c :: n) ;; let! new := get_policy env in
        if negb (str_eqb (c :: n) new) then throw EError else if negb (str_eqb (c :: n) cur) then say (MChanged cur (c :: n)) else say (MAgain (c :: n))) s = (Exn e, s') \/ s' = s).
    { destruct (device dev); [right; injection E as _ <-; reflexivity|left; exact E]. }
    destruct E' as [E'| ->]; [|split; [reflexivity|left; split; reflexivity]]. clear E.
    unfold mbind at 1 in E'. destruct (get_policy env s) as [[cur|e1] s1] eqn:E1.
    2:{ injection E' as -> <-. pose proof (get_policy_same env s) as Es. rewrite E1 in Es. cbn in Es. subst s1.
        split; [reflexivity|left; split; reflexivity]. }
    destruct (get_policy_reads _ _ _ E1) as (-> & R1). unfold mbind at 1 in E'.
    destruct (set_policy env (c :: n) s) as [[u|e1] s2] eqn:E2.
    2:{ injection E' as -> <-. destruct (set_policy_fails _ _ _ _ E2) as (-> & _). split; [reflexivity|left; split; reflexivity]. }
    destruct u. destruct (set_policy_ok _ _ _ E2) as (t & new & F & U & I & W & F2 & O2 & L2 & X2 & K2).
    unfold mbind at 1 in E'. pose proof (get_policy_same env s2) as Es.
    destruct (get_policy env s2) as [[nw|e1] s3] eqn:E3; cbn [snd] in Es; subst s3.
    - destruct (str_eqb (c :: n) nw) eqn:Q; cbn [negb] in E'.
      + destruct (str_eqb (c :: n) cur); discriminate.
      + injection E' as <- <-. split; [exact X2|]. right. split; [exact L2|]. split; [exact O2|].
        intros names x t' Ft Hm. destruct (get_policy_reads _ _ _ E3) as (_ & R3). rewrite (R3 _ _ _ Ft Hm).
        split; [|reflexivity]. intros ->. now rewrite str_eqb_same in Q.
    - injection E' as -> <-. split; [exact X2|]. right. split; [exact L2|]. split; [exact O2|].
      intros names x t' Ft Hm. now rewrite (get_policy_menu env s2 names x t' Ft U Hm) in E3.
  Qed.

  Lemma C62_policy_rejected_l name dev s names cur t : name <> [] ->
    a_fs s policy_path = Some t -> menu names cur t -> ~ In name names \/ given dev \/ ae_unreadable env policy_path = true ->
    config env (Some (Some name)) None dev s = (Exn EError, s).
  Proof.
    intros Hn F Hm H. destruct name as [|c n]; [congruence|]. unfold config, mbind at 1.
    destruct (device_spec dev) as [(G & E)|(G & E)].
    - unfold handle_policy. rewrite E. destruct dev; [reflexivity|]. now destruct G as (? & ? & [=]).
    - unfold handle_policy. rewrite E. destruct (ae_unreadable env policy_path) eqn:U.
      + unfold mbind at 1. unfold get_policy, get_policies_raw, read_file, mbind, gets. rewrite F, U. reflexivity.
      + destruct H as [H|[H|H]]; [|tauto|congruence]. unfold mbind at 1. rewrite (get_policy_menu env s names cur t F U Hm).
        unfold mbind at 1. unfold set_policy, mbind at 1. rewrite (raw_menu env true s names cur t F U Hm).
        destruct (existsb (str_eqb (c :: n)) names) eqn:Q; [apply existsb_str in Q; tauto|reflexivity].
  Qed.

  Lemma C62_policy_succeeds_l name s names cur t : obeys env -> a_fs s policy_path = Some t -> menu names cur t -> In name names ->
    exists s', config env (Some (Some name)) None None s = (Ok tt, s') /\ exists t', a_fs s' policy_path = Some t' /\ menu names name t'.
  Proof.
    intros (U & Ho) F Hm Hi. destruct (Ho names cur t name Hm Hi) as (t' & W & Hm').
    assert (Hn : name <> []) by (destruct Hm as (Hp & _); rewrite Forall_forall in Hp; now destruct (Hp name Hi)).
    destruct name as [|c n]; [congruence|]. unfold config, mbind at 1. unfold handle_policy. cbn [device].
    unfold mbind at 1. rewrite (get_policy_menu env s names cur t F U Hm). unfold mbind at 1.
    unfold set_policy, mbind at 1. rewrite (raw_menu env true s names cur t F U Hm).
    rewrite (proj2 (existsb_str _ _) Hi). cbn [negb]. unfold mbind at 1. unfold gets. rewrite F.
    destruct (store_spec policy_path t (c :: n) s) as [(W' & _)|(new & s1 & W' & -> & A & B & D & G & K)]; [congruence|].
    rewrite W in W'. injection W' as <-. unfold mbind at 1. rewrite (get_policy_menu env s1 names (c :: n) t' A U Hm').
    rewrite str_eqb_same. cbn [negb].
    destruct (negb (str_eqb (c :: n) cur)); unfold say, modify, ret; eexists; (split; [reflexivity|]); exists t'; split; auto.
  Qed.

  (** ** The L1 state *)
  Definition l1_done (s s' : astate) (addr st : str) (on : bool) : Prop :=
    exists old new, a_fs s (l1_path addr) = Some old /\
      ae_write env (l1_path addr) old (if on then s2l "1" else s2l "0") = Some new /\ a_fs s' (l1_path addr) = Some new /\
      only [l1_path addr] (a_fs s) (a_fs s') /\ a_log s' = a_log s ++ [(l1_path addr, if on then s2l "1" else s2l "0")] /\
      a_out s' = a_out s ++ [MToggled (lower st) addr].

  Lemma toggle_ok addr on s s' : toggle_l1_state env addr on s = (Ok tt, s') ->
    exists old new, a_fs s (l1_path addr) = Some old /\ ae_write env (l1_path addr) old (if on then s2l "1" else s2l "0") = Some new /\
      a_fs s' (l1_path addr) = Some new /\ only [l1_path addr] (a_fs s) (a_fs s') /\
      a_log s' = a_log s ++ [(l1_path addr, if on then s2l "1" else s2l "0")] /\ a_out s' = a_out s.
  Proof.
    unfold toggle_l1_state, mbind, gets. destruct (a_fs s (l1_path addr)) as [old|] eqn:F.
    - intros H. destruct (store_spec (l1_path addr) old (if on then s2l "1" else s2l "0") s) as [(_ & A)|(new & s1 & W & A & B & C & D & G & K)]; rewrite A in H; [discriminate|].
      injection H as <-. exists old, new. tauto.
    - destruct (ae_dir env (link_path addr)); [discriminate|]. destruct (@l1_not_found_frame env unit addr s) as (e & E & _).
      destruct (@l1_not_found env unit addr s) as [r s1]. cbn [fst] in E. subst r. discriminate.
  Qed.

  Lemma toggle_fails addr on s e s' : toggle_l1_state env addr on s = (Exn e, s') -> untouched s s' /\ a_out s' = a_out s.
  Proof.
    unfold toggle_l1_state, mbind, gets. destruct (a_fs s (l1_path addr)) as [old|] eqn:F.
    - intros H. destruct (store_spec (l1_path addr) old (if on then s2l "1" else s2l "0") s) as [(_ & A)|(new & s1 & W & A & B & C & D & G & K)]; rewrite A in H; [|discriminate].
      injection H as _ <-. repeat split.
    - destruct (ae_dir env (link_path addr)); [intros [= _ <-]; repeat split|]. destruct (@l1_not_found_frame env unit addr s) as (e1 & E & A & B & C).
      destruct (@l1_not_found env unit addr s) as [r s1]. cbn [fst snd] in *. intros [= _ <-]. repeat split; auto.
  Qed.

  Lemma handle_l1_ok d a c st s s' : handle_l1 env (Some (d :: a)) (Some (c :: st)) s = (Ok tt, s') ->
    exists on, means_state on (c :: st) /\ l1_done s s' (d :: a) (c :: st) on.
  Proof.
    unfold handle_l1. cbn [device]. rewrite valid_split. set (on := existsb (str_eqb (lower (c :: st))) enable_vals).
    destruct (on || _) eqn:V; cbn [negb]; [|discriminate]. unfold mbind. intros H.
    destruct (toggle_l1_state env (d :: a) on s) as [[u|e] s1] eqn:E; [|discriminate]. destruct u.
    destruct (toggle_ok _ _ _ _ E) as (old & new & A1 & A2 & A3 & A4 & A5 & A6).
    unfold say, modify in H. injection H as <-. exists on. split.
    - apply state_words. destruct on eqn:Q; [exact Q|]. exact V.
    - exists old, new. cbn [a_fs a_log a_out]. rewrite A6. tauto.
  Qed.

  Lemma means_state_one st : means_state true st -> means_state false st -> False.
  Proof. intros A B. apply state_words in A, B. apply not_both in A. congruence. Qed.

  Lemma C62_l1_set_l addr st s s' : addr <> [] -> st <> [] -> config env None (Some (Some st)) (Some addr) s = (Ok tt, s') ->
    exists on old new, means_state on st /\ a_fs s (l1_path addr) = Some old /\
      ae_write env (l1_path addr) old (if on then s2l "1" else s2l "0") = Some new /\ a_fs s' (l1_path addr) = Some new /\
      only [l1_path addr] (a_fs s) (a_fs s') /\ a_log s' = a_log s ++ [(l1_path addr, if on then s2l "1" else s2l "0")] /\
      a_out s' = a_out s ++ [MToggled (lower st) addr].
  Proof.
    intros Ha Hs H. destruct addr as [|d a]; [congruence|]. destruct st as [|c st]; [congruence|].
    unfold config, mbind at 1 in H. unfold ret in H. destruct (handle_l1_ok _ _ _ _ _ _ H) as (on & M & old & new & L).
    exists on, old, new. split; [exact M|exact L].
  Qed.

  Lemma C62_l1_failed_l addr st s e s' : addr <> [] -> st <> [] -> config env None (Some (Some st)) (Some addr) s = (Exn e, s') ->
    untouched s s' /\ a_out s' = a_out s.
  Proof.
    intros Ha Hs H. destruct addr as [|d a]; [congruence|]. destruct st as [|c st]; [congruence|].
    unfold config, mbind at 1 in H. unfold ret in H. unfold handle_l1 in H. cbn [device] in H.
    destruct (existsb _ valid_vals); cbn [negb] in H; [|injection H as _ <-; repeat split].
    unfold mbind in H. destruct (toggle_l1_state env (d :: a) _ s) as [[u|e1] s1] eqn:E; [discriminate|].
    injection H as _ <-. exact (toggle_fails _ _ _ _ _ E).
  Qed.

  Lemma C62_l1_succeeds_l addr st s on old new : addr <> [] -> means_state on st -> a_fs s (l1_path addr) = Some old ->
    ae_write env (l1_path addr) old (if on then s2l "1" else s2l "0") = Some new ->
    exists s', config env None (Some (Some st)) (Some addr) s = (Ok tt, s') /\ a_fs s' (l1_path addr) = Some new.
  Proof.
    intros Ha Hm F W. destruct addr as [|d a]; [congruence|].
    assert (Hst : st <> []) by (destruct Hm as (w & Hw & H); destruct on; cbn in Hw; destruct Hw as [<-|[<-|[<-|[]]]]; inversion H; discriminate).
    destruct st as [|c st]; [congruence|]. unfold config, mbind at 1, ret, handle_l1. cbn [device]. rewrite valid_split.
    assert (Q : existsb (str_eqb (lower (c :: st))) enable_vals = on /\ on || existsb (str_eqb (lower (c :: st))) (map s2l ["false"; "off"; "disable"]%string) = true).
    { apply state_words in Hm. destruct on; [auto|]. split; [|exact Hm].
      destruct (existsb (str_eqb (lower (c :: st))) enable_vals) eqn:Q; [|reflexivity]. apply not_both in Q. congruence. }
    destruct Q as (Q1 & Q2). rewrite Q1, Q2. cbn [negb]. unfold mbind at 1. unfold toggle_l1_state, mbind, gets. rewrite F.
    destruct (store_spec (l1_path (d :: a)) old (if on then s2l "1" else s2l "0") s) as [(W' & _)|(new' & s1 & W' & -> & A & _)]; [congruence|].
    rewrite W in W'. injection W' as <-. unfold say, modify. eexists. split; [reflexivity|exact A].
  Qed.

  Lemma C62_l1_rejected_l addr st s : st <> [] -> ~ means_state true st -> ~ means_state false st ->
    config env None (Some (Some st)) addr s = (Exn EError, s).
  Proof.
    intros Hs Ht Hf. destruct st as [|c st]; [congruence|]. unfold config, mbind at 1, ret, handle_l1.
    destruct (device addr) as [d|]; [|reflexivity]. rewrite valid_split.
    destruct (existsb (str_eqb (lower (c :: st))) enable_vals) eqn:Q1; [now apply (proj2 (state_words true (c :: st))) in Q1|].
    destruct (existsb (str_eqb (lower (c :: st))) (map s2l ["false"; "off"; "disable"]%string)) eqn:Q2; [now apply (proj2 (state_words false (c :: st))) in Q2|]. reflexivity.
  Qed.

  (** ** A device without the file *)
  Lemma C62_l1_missing_l addr s : addr <> [] -> a_fs s (l1_path addr) = None -> ae_dir env (link_path addr) = false -> a_kver s = None ->
    (forall v, ae_uname env = Ok v -> exists k, split_kver v = Ok k) ->
    forall on st, means_state on st ->
    let e := if ae_dir env (dev_path addr) then ENotSupported else EError in
    fst (is_l1_enabled env addr s) = Exn e /\ fst (config env None (Some (Some st)) (Some addr) s) = Exn e.
  Proof.
    intros Ha F Hd Hk Hv on st Hm e.
    assert (N : forall A, fst (@l1_not_found env A addr s) = Exn e).
    { intros A. unfold l1_not_found, e. destruct (ae_dir env (dev_path addr)); [|reflexivity]. cbn [negb].
      unfold mbind, gets. rewrite Hk. destruct (ae_uname env) as [v|x] eqn:Eu; unfold modify, ret; cbn [a_kver]; [|rewrite Hk; reflexivity].
      destruct v as [|x v]; [reflexivity|]. destruct (Hv _ eq_refl) as (k & K). unfold lift, kver_lt. rewrite K.
      replace (split_kver (s2l "5.5")) with (Ok (KV 5 5 0 None [])) by (vm_compute; reflexivity). cbn [rbind].
      now destruct (kv_ltb k (KV 5 5 0 None [])). }
    split.
    - unfold is_l1_enabled, read_file, mbind, gets. rewrite F. unfold throw. apply N.
    - destruct addr as [|d a]; [congruence|].
      assert (Hst : st <> []) by (destruct Hm as (w & Hw & H); destruct on; cbn in Hw; destruct Hw as [<-|[<-|[<-|[]]]]; inversion H; discriminate).
      destruct st as [|c st]; [congruence|]. unfold config, mbind at 1, ret, handle_l1. cbn [device]. rewrite valid_split.
      assert (Q2 : existsb (str_eqb (lower (c :: st))) enable_vals || existsb (str_eqb (lower (c :: st))) (map s2l ["false"; "off"; "disable"]%string) = true).
      { apply state_words in Hm. apply orb_true_iff. destruct on; auto. }
      rewrite Q2. cbn [negb]. unfold mbind at 1. unfold toggle_l1_state, mbind, gets. rewrite F, Hd.
      specialize (N unit). destruct (@l1_not_found env unit (d :: a) s) as [r s1]. cbn [fst] in N. subst r. reflexivity.
  Qed.

  (** ** Both options *)
  Lemma C62_both_l name addr st s s' : name <> [] -> addr <> [] -> st <> [] ->
    config env (Some (Some name)) (Some (Some st)) (Some addr) s = (Ok tt, s') ->
    exists on, means_state on st /\
      a_log s' = a_log s ++ [(policy_path, name); (l1_path addr, if on then s2l "1" else s2l "0")] /\
      only [policy_path; l1_path addr] (a_fs s) (a_fs s') /\
      forall names cur t, a_fs s' policy_path = Some t -> menu names cur t -> cur = name.
  Proof.
    intros Hn Ha Hs H. destruct name as [|x n]; [congruence|]. destruct addr as [|d a]; [congruence|]. destruct st as [|c st]; [congruence|].
    unfold config, mbind at 1 in H. destruct (handle_policy env true (Some (d :: a)) (Some (x :: n)) s) as [[[]|e] s1] eqn:E; [|discriminate].
    destruct (handle_policy_ok _ _ _ _ _ _ E) as (_ & A & B & _ & C & _ & D).
    destruct (handle_l1_ok _ _ _ _ _ _ H) as (on & M & old & new & L1 & L2 & L3 & L4 & L5 & _).
    exists on. split; [exact M|]. split; [rewrite L5, A, <- app_assoc; reflexivity|]. split.
    - intros q Hq. rewrite L4, B; [reflexivity| |]; intros [<-|[]]; apply Hq; cbn; tauto.
    - intros names cur t F Hm. apply (C names cur t); [|exact Hm]. rewrite <- F. symmetry. apply L4.
      intros [E1|[]]. now apply (l1_not_policy (d :: a)).
  Qed.

  (** ** Nothing is written without a value *)
  Lemma C62_reads_l policy l1 dev s : (forall n, policy = Some (Some n) -> n = []) -> (forall st, l1 = Some (Some st) -> st = []) ->
    untouched s (snd (config env policy l1 dev s)).
  Proof.
    intros Hp Hl. assert (T : forall a b c, untouched a b -> untouched b c -> untouched a c).
    { intros a b c (A & B) (C & D). split; congruence. }
    assert (P : forall name o s0, policy = Some name -> untouched s0 (snd (handle_policy env o dev name s0))).
    { intros name o s0 E. unfold handle_policy.
      assert (K : untouched s0 (snd ((let! cur := get_policy env in match name with Some (c :: n) =>
            let name := c :: n in set_policy env name ;; let! new := get_policy env in if negb (str_eqb name new) then throw EError
            else if negb (str_eqb name cur) then say (MChanged cur name) else say (MAgain name) | _ => say (MPolicy cur) end) s0))).
      { unfold mbind at 1. pose proof (get_policy_same env s0) as Es. destruct (get_policy env s0) as [[cur|e] s1]; cbn [snd] in *; subst s1; [|split; reflexivity].
        destruct name as [[|c n]|]; [split; reflexivity| |split; reflexivity]. now apply Hp in E. }
      destruct (device dev); [destruct o|]; [exact K|split; reflexivity|exact K]. }
    assert (L : forall st s0, l1 = Some st -> untouched s0 (snd (handle_l1 env dev st s0))).
    { intros st s0 E. unfold handle_l1. destruct (device dev) as [addr|]; [|split; reflexivity].
      destruct st as [[|c st]|]; try apply print_l1_frame. now apply Hl in E. }
    unfold config. destruct policy as [name|], l1 as [st|]; try (split; reflexivity).
    - unfold mbind. specialize (P name true s eq_refl). destruct (handle_policy env true dev name s) as [[u|e] s1]; cbn [snd] in *; [|exact P].
      eapply T; [exact P|]. now apply L.
    - unfold mbind. specialize (P name false s eq_refl). destruct (handle_policy env false dev name s) as [[u|e] s1]; cbn [snd] in *; exact P.
    - unfold mbind, ret. now apply L.
  Qed.
End Aspm.
