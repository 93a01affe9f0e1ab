(** Lemmas about the description, the warning, the caches and the text about dies (C80). *)
From Coq Require Import Ascii String ZifyBool Lia.
From Verif Require Import Base M_Text S_Text M_Human S_Human M_Osa M_Topo S_Topo M_TpmiSpec S_TpmiCmd M_Kver S_Kver S_Systemd S_Prelude M_CFreq M_Route M_Ident S_Ident
  L_Base L_Text L_Human L_Prelude L_Kver L_Topo L_TpmiSpec5 L_Ident L_Ident2.
Open Scope list_scope.
Open Scope Z_scope.

(** ** The description *)
Lemma begins_iff p : forall x, begins x p = true <-> exists q, x = p ++ q.
Proof.
  induction p as [|c p IH]; intros x; cbn [begins app]; [split; [intros _; now exists x|intros _; now destruct x]|].
  destruct x as [|d x]; cbn [begins]; [split; [discriminate|intros (q & E); discriminate E]|].
  rewrite Bool.andb_true_iff, Ascii.eqb_eq, IH. split; [intros (-> & q & ->); now exists q|intros (q & [= -> ->]); split; [reflexivity|now exists q]].
Qed.

Lemma has_sub_iff p : forall x, has_sub x p = true <-> exists a q, x = a ++ p ++ q.
Proof.
  induction x as [|d x IH]; cbn [has_sub]; rewrite Bool.orb_true_iff, begins_iff.
  - split; [intros [(q & E)|E]; [exists [], q; exact E|discriminate]|]. intros (a & q & E). left. destruct a; [now exists q|discriminate E].
  - rewrite IH. split.
    + intros [(q & E)|(a & q & E)]; [exists [], q; exact E|exists (d :: a), q; now rewrite E].
    + intros (a & q & E). destruct a as [|z a]; cbn [app] in E; [left; now exists q|right; injection E as -> ->; now exists a, q].
Qed.

Lemma lower_same c d : (97 <= nat_of_ascii d <= 122)%nat \/ d = " "%char -> lower_char c = d <-> same_letter c d.
Proof.
  intros Hd. unfold lower_char, same_letter. split.
  - destruct ((65 <=? nat_of_ascii c) && (nat_of_ascii c <=? 90))%nat eqn:E; [|intros ->; now left].
    intros <-. right. rewrite nat_ascii_embedding by lia. split; lia.
  - intros [->|(H1 & H2)].
    + destruct ((65 <=? nat_of_ascii d) && (nat_of_ascii d <=? 90))%nat eqn:E; [|reflexivity]. destruct Hd as [Hd| ->]; [lia|discriminate E].
    + assert (E : ((65 <=? nat_of_ascii c) && (nat_of_ascii c <=? 90))%nat = true) by lia. rewrite E, <- H2. apply ascii_nat_embedding.
Qed.

Lemma genuine_iff name : has_sub (M_Osa.lower name) (s2l "genuine intel") = true <-> genuine name.
Proof.
  rewrite has_sub_iff. unfold genuine, M_Osa.lower.
  assert (Hall : Forall (fun d => (97 <= nat_of_ascii d <= 122)%nat \/ d = " "%char) (s2l "genuine intel")).
  { assert (B : forallb (fun d => ((97 <=? nat_of_ascii d) && (nat_of_ascii d <=? 122))%nat || Ascii.eqb d " ") (s2l "genuine intel") = true) by (vm_compute; reflexivity).
    rewrite forallb_forall in B. apply Forall_forall. intros d Hd. specialize (B d Hd). apply Bool.orb_true_iff in B as [B|B]; [left; lia|right; now apply Ascii.eqb_eq]. }
  revert Hall. generalize (s2l "genuine intel"). intros g Hall.
  assert (Hm : forall m t, Forall (fun d => (97 <= nat_of_ascii d <= 122)%nat \/ d = " "%char) t -> map lower_char m = t <-> Forall2 same_letter m t).
  { induction m as [|c m IH]; intros t Ht; cbn [map].
    - split; [intros <-; constructor|inversion 1; reflexivity].
    - split.
      + intros <-. inversion Ht as [|? ? H1 H2]; subst. constructor; [now apply lower_same|now apply IH].
      + inversion 1 as [|? d ? t' H1 H2]; subst. inversion Ht as [|? ? H3 H4]; subst. f_equal; [now apply lower_same|now apply IH]. }
  split.
  - intros (a & q & E). assert (Hs := E). apply map_eq_app in E as (p & r & -> & Ea & Er). apply map_eq_app in Er as (m & q' & -> & Em & Eq).
    exists p, m, q'. split; [reflexivity|]. now apply Hm.
  - intros (p & m & q & -> & H). exists (map lower_char p), (map lower_char q). rewrite !map_app. do 2 f_equal. now apply Hm.
Qed.

Lemma name_l models d name : value_at d "modelname" = Some (IText name) -> ~ genuine name -> get_cpu_description models d = Ok name.
Proof.
  unfold value_at, get_cpu_description. intros -> H. destruct (has_sub _ _) eqn:E; [|reflexivity]. exfalso. apply H. now apply genuine_iff.
Qed.

Lemma codename_l models d name n : value_at d "modelname" = Some (IText name) -> genuine name -> value_at d "model" = Some (IInt n) -> 0 <= n ->
  exists h, typed_value (s2l "0x" ++ h) n /\
    (forall l1 code l2, models = l1 ++ (n, code) :: l2 -> (forall m, In m l1 -> fst m <> n) ->
       get_cpu_description models d = Ok (s2l "Intel processor model 0x" ++ h ++ s2l " (codename: " ++ code ++ s2l ")")) /\
    ((forall m, In m models -> fst m <> n) -> get_cpu_description models d = Ok (s2l "Intel processor model 0x" ++ h)).
Proof.
  unfold value_at, get_cpu_description. intros -> Hg -> Hn. apply genuine_iff in Hg. rewrite Hg. clear Hg.
  destruct (Z.ltb_spec n 0) as [X|_]; [lia|]. pose proof (py_hex_ok n Hn) as Hx.
  exists (hex_loop (S (Z.to_nat (Z.log2 n))) n []). unfold py_hex in *. split; [exact Hx|].
  generalize (hex_loop (S (Z.to_nat (Z.log2 n))) n []). intros h. clear Hx. split.
  - intros l1 code l2 -> Hl. assert (E : find (fun m => fst m =? n) (l1 ++ (n, code) :: l2) = Some (n, code)).
    { clear -Hl. induction l1 as [|m l1 IH]; cbn [app find fst]; [now rewrite Z.eqb_refl|].
      destruct (Z.eqb_spec (fst m) n) as [E|_]; [exfalso; exact (Hl m (or_introl eq_refl) E)|]. apply IH. intros x Hx. apply Hl. now right. }
    rewrite E. cbn [snd]. change (s2l "Intel processor model 0x") with (s2l "Intel processor model " ++ s2l "0x"). now rewrite <- !app_assoc.
  - intros Hl. destruct (find (fun m => fst m =? n) models) as [m|] eqn:E.
    + apply find_some in E as (E1 & E2). exfalso. apply (Hl m E1). now apply Z.eqb_eq.
    + change (s2l "Intel processor model 0x") with (s2l "Intel processor model " ++ s2l "0x"). now rewrite <- !app_assoc.
Qed.

(** ** E-cores and P-cores *)
Lemma hybrid_cpus_l d ta tc e p : hybrid d -> list_file ta e -> list_file tc p -> get_hybrid_cpus d (Ok ta) (Ok tc) = Ok (e, p).
Proof. unfold hybrid, value_at, get_hybrid_cpus. intros -> Ha Hc. now rewrite (list_read _ _ Ha), (list_read _ _ Hc). Qed.

Lemma hybrid_cpus_fails d atom core : value_at d "hybrid" = Some (IBool false) -> get_hybrid_cpus d atom core = Exn ENotSupported.
Proof. unfold value_at, get_hybrid_cpus. now intros ->. Qed.

(** ** The warning *)
Lemma at_off d m s : f_check s = false -> at_moment d m s = s.
Proof. unfold at_moment, warn_no_ecores_bug, mbind, gets. intros ->. reflexivity. Qed.

Definition src (ms : list moment) (v : str) : Prop := exists m, In m ms /\ m_uname m = Ok v.

(** What one call can do, from a state in which the warning is still possible. *)
Lemma moment_cases d m s : f_check s = true -> let s' := at_moment d m s in
  let k := fun v => (f_kver s = v /\ v <> []) \/ (f_kver s = [] /\ m_uname m = Ok v) in
  (s' = s \/ (exists v, k v /\ s' = set_kver v s)) \/
  (s' = set_check false (warn WNoKver s)) \/
  (exists v, k v /\ s' = set_check false (set_kver v s)) \/
  (exists v, k v /\ value_at d "hybrid" <> Some (IBool false) /\ no_cpus (m_atom m) /\ no_cpus (m_core m) /\ m_offline m = Ok [] /\
     kver_ge v (s2l "6.5") = Ok false /\ s' = warn (WBug v) (set_check false (set_kver v s))).
Proof.
  intros Hc s' k. unfold s', at_moment, warn_no_ecores_bug, mbind, gets, throw, ret, lift. rewrite Hc. cbn [negb]. clear s'.
  unfold value_at, get_hybrid_cpus, no_cpus. destruct (dget String.eqb d "hybrid"%string) as [x|] eqn:Eh; [|left; left; reflexivity].
  assert (Main : (exists b, x = IBool b /\ b = false) \/ (match x with IBool false => False | _ => True end)) by (destruct x as [| | |[]]; auto; left; exists false; auto).
  destruct Main as [(b & -> & ->)|Hx]; [left; left; reflexivity|].
  assert (Ex : match x with IBool false => Exn ENotSupported | _ => let? e := read_range (m_atom m) in let? p := read_range (m_core m) in Ok (e, p) end
    = (let? e := read_range (m_atom m) in let? p := read_range (m_core m) in Ok (e, p))) by (destruct x as [| | |[]]; try reflexivity; destruct Hx).
  match goal with |- context [snd ?t] => assert (Et : t = match (let? e := read_range (m_atom m) in let? p := read_range (m_core m) in Ok (e, p)) with
     | Ok ([], []) => match warn_kver (m_uname m) s with
         | (Ok (Some v), s1) => match kver_ge v (s2l "6.5") with
             | Ok true => (Ok tt, set_check false s1)
             | Ok false => match m_offline m with Ok [] => (Ok tt, warn (WBug v) (set_check false s1)) | Ok _ => (Ok tt, s1) | Exn e => (Exn e, s1) end
             | Exn e => (Exn e, s1) end
         | (Ok None, s1) => (Ok tt, s1)
         | (Exn e, s1) => (Exn e, s1) end
     | Ok _ => (Ok tt, s)
     | Exn e => (Exn e, s) end) end.
  { assert (Hd : forall (A : Type) (a b : A), match x with IBool false => a | _ => b end = b) by (intros; destruct x as [| | |[]]; try reflexivity; destruct Hx).
    rewrite !Hd. destruct (read_range (m_atom m)) as [[|e0 e]|ex]; cbn [rbind]; [| |reflexivity].
    - destruct (read_range (m_core m)) as [[|p0 p]|ex]; cbn [rbind]; [|reflexivity|reflexivity].
      destruct (warn_kver (m_uname m) s) as [[[v|]|ex] s1]; [|reflexivity|reflexivity].
      destruct (kver_ge v (s2l "6.5")) as [[]|ex]; [reflexivity| |reflexivity].
      destruct (m_offline m) as [[|o os]|ex]; reflexivity.
    - destruct (read_range (m_core m)) as [p|ex]; reflexivity. }
  rewrite Et. clear Et Ex.
  destruct (read_range (m_atom m)) as [[|e0 e]|ex]; cbn [rbind]; [| |left; left; reflexivity].
  2:{ destruct (read_range (m_core m)) as [p|ex]; left; left; reflexivity. }
  destruct (read_range (m_core m)) as [[|p0 p]|ex]; cbn [rbind]; [|left; left; reflexivity|left; left; reflexivity].
  assert (Hw : (exists v, k v /\ warn_kver (m_uname m) s = (Ok (Some v), set_kver v s)) \/
               warn_kver (m_uname m) s = (Ok None, set_check false (warn WNoKver s)) \/ (exists e, warn_kver (m_uname m) s = (Exn e, s))).
  { unfold warn_kver, k. destruct s as [ck [|c kv] w]; cbn [f_kver f_check f_warn] in *.
    - destruct (m_uname m) as [v|e] eqn:Eu; [left; exists v; split; [right; auto|reflexivity]|].
      destruct (catches_error e); [right; left; reflexivity|right; right; now exists e].
    - left. exists (c :: kv). split; [left; split; [reflexivity|discriminate]|reflexivity]. }
  destruct Hw as [(v & Hk & Ew)|[Ew|(e & Ew)]]; rewrite Ew; cbn [snd]; [|right; left; reflexivity|left; left; reflexivity].
  destruct (kver_ge v (s2l "6.5")) as [[]|ex] eqn:Eg; cbn [snd].
  - right. right. left. exists v. auto.
  - destruct (m_offline m) as [[|o os]|ex] eqn:Eo; cbn [snd]; [|left; right; exists v; auto|left; right; exists v; auto].
    right. right. right. exists v. split; [exact Hk|]. split; [|auto 10]. intros [= ->]. exact Hx.
  - left. right. exists v. auto.
Qed.

Lemma old_of v : kver_ge v (s2l "6.5") = Ok false -> old_kernel v.
Proof.
  intros H. assert (E6 : split_kver (s2l "6.5") = Ok (KV 6 5 0 None [])) by (vm_compute; reflexivity).
  unfold old_kernel. destruct (split_kver v) as [k|e] eqn:E; [|unfold kver_ge, kver_lt in H; rewrite E in H; discriminate H].
  exists k. split; [reflexivity|]. apply (C39_compare_l _ _ _ _ E E6). unfold kver_ge in H. destruct (kver_lt v (s2l "6.5")) as [[]|]; cbn in H; congruence.
Qed.

Lemma of_old v : old_kernel v -> kver_ge v (s2l "6.5") = Ok false.
Proof.
  intros (k & E & B). assert (E6 : split_kver (s2l "6.5") = Ok (KV 6 5 0 None [])) by (vm_compute; reflexivity).
  apply (proj1 (C39_compare_l _ _ _ _ E E6)) in B. unfold kver_ge. now rewrite B.
Qed.

Definition bug_at (d : info) (ms : list moment) (v : str) : Prop :=
  value_at d "hybrid" <> Some (IBool false) /\ old_kernel v /\ src ms v /\
  exists m, In m ms /\ no_cpus (m_atom m) /\ no_cpus (m_core m) /\ m_offline m = Ok [].

Definition winv (d : info) (ms : list moment) (s : fstate) : Prop :=
  (f_kver s = [] \/ src ms (f_kver s)) /\
  ((f_check s = true /\ f_warn s = []) \/ (f_check s = false /\ (f_warn s = [] \/ f_warn s = [WNoKver] \/ exists v, f_warn s = [WBug v] /\ bug_at d ms v))).

Lemma winv_all d ms : winv d ms (after_all d ms).
Proof.
  unfold after_all. induction ms as [|m ms IH] using rev_ind; [split; [now left|left; auto]|].
  rewrite fold_left_app. cbn [fold_left]. set (s := fold_left _ ms f_init) in *. clearbody s.
  assert (Hsrc : forall v, src ms v -> src (ms ++ [m]) v) by (intros v (x & Hx & Ex); exists x; split; [apply in_or_app; now left|exact Ex]).
  assert (Hlast : In m (ms ++ [m])) by (apply in_or_app; right; now left).
  destruct IH as (Hk & [(Hc & Hw)|(Hc & Hw)]).
  - assert (Hks : forall v, (f_kver s = v /\ v <> []) \/ (f_kver s = [] /\ m_uname m = Ok v) -> src (ms ++ [m]) v).
    { intros v [(<- & Hv)|(_ & Hv)]; [destruct Hk as [Hk|Hk]; [congruence|now apply Hsrc]|now exists m]. }
    assert (Hk' : f_kver s = [] \/ src (ms ++ [m]) (f_kver s)) by (destruct Hk; auto).
    destruct (moment_cases d m s Hc) as [[E|(v & Hv & E)]|[E|[(v & Hv & E)|(v & Hv & Hh & Ha & Hp & Ho & Hg & E)]]]; rewrite E; clear E; split; cbn [f_kver f_check f_warn set_kver set_check warn].
    + exact Hk'.
    + left. auto.
    + right. now apply Hks.
    + left. auto.
    + exact Hk'.
    + right. split; [reflexivity|]. right. left. now rewrite Hw.
    + right. now apply Hks.
    + right. auto.
    + right. now apply Hks.
    + right. split; [reflexivity|]. right. right. exists v. rewrite Hw. split; [reflexivity|]. split; [exact Hh|]. split; [now apply old_of|]. split; [now apply Hks|].
      exists m. auto.
  - rewrite (at_off d m s Hc). split; [destruct Hk; auto|]. right. split; [exact Hc|]. destruct Hw as [Hw|[Hw|(v & Hw & Hh & Ho & Hs & x & Hx & Hr)]]; auto.
    right. right. exists v. split; [exact Hw|]. split; [exact Hh|]. split; [exact Ho|]. split; [now apply Hsrc|]. exists x. split; [apply in_or_app; now left|exact Hr].
Qed.

Lemma warned_once_l d ms : (length (f_warn (after_all d ms)) <= 1)%nat.
Proof. destruct (winv_all d ms) as (_ & [(_ & ->)|(_ & [->|[->|(v & -> & _)]])]); cbn [length]; lia. Qed.

Lemma warned_for_l d ms v : In (WBug v) (f_warn (after_all d ms)) ->
  value_at d "hybrid" <> Some (IBool false) /\ old_kernel v /\ (exists m, In m ms /\ m_uname m = Ok v) /\
  exists m, In m ms /\ no_cpus (m_atom m) /\ no_cpus (m_core m) /\ m_offline m = Ok [].
Proof.
  destruct (winv_all d ms) as (_ & [(_ & ->)|(_ & [->|[->|(w & -> & H)]])]); cbn [In]; try (intuition discriminate).
  intros [[= <-]|[]]. exact H.
Qed.

Lemma warns_l d m v : hybrid d -> no_cpus (m_atom m) -> no_cpus (m_core m) -> m_uname m = Ok v -> old_kernel v -> m_offline m = Ok [] ->
  f_warn (after_all d [m]) = [WBug v].
Proof.
  intros Hh Ha Hc Hu Ho Hf. unfold after_all. cbn [fold_left]. unfold at_moment, warn_no_ecores_bug, mbind, gets, lift, f_init. cbn [f_check negb].
  unfold hybrid, value_at in Hh. rewrite Hh. unfold get_hybrid_cpus. rewrite Hh, Ha, Hc. cbn [rbind]. unfold warn_kver. cbn [f_kver]. rewrite Hu.
  rewrite (of_old v Ho), Hf. reflexivity.
Qed.
