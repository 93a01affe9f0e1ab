(** The options of 'cstates config', and one '--enable' or '--disable'. *)
From Coq Require Import Ascii String ZifyBool.
From Verif Require Import Base L_Base L_Monad M_CPUInfo S_CPUInfo L_CPUInfo M_Text S_Text L_Text M_Human L_Human M_CPUIdle S_CPUIdle L_CPUIdle L_CPUIdle2 L_CPUIdle3 L_CPUIdle4 L_CPUIdle5 L_CPUIdle6 L_CPUIdle7 M_CsConf S_CsConf.

(** A dictionary keeps the place of the first and the value of the last. *)
Lemma add_new d o v : ~ In o (map fst d) -> add_oarg d (o, v) = d ++ [(o, v)].
Proof.
  unfold add_oarg. cbn [fst snd]. induction d as [|(k, w) d IH]; intros H; [reflexivity|]. cbn [dset app].
  destruct (str_eqb o k) eqn:E; [apply str_eqb_eq in E; subst k; exfalso; apply H; now left|]. f_equal. apply IH. intros Hi. apply H. now right.
Qed.

Lemma add_keys d o v : In o (map fst d) -> map fst (add_oarg d (o, v)) = map fst d.
Proof.
  unfold add_oarg. cbn [fst snd]. induction d as [|(k, w) d IH]; intros H; [contradiction|]. cbn [dset map fst].
  destruct (str_eqb o k) eqn:E; [reflexivity|]. cbn [map fst]. f_equal. apply IH. destruct H as [H|H]; [|exact H]. cbn in H. subst k.
  rewrite (proj2 (str_eqb_eq o o) eq_refl) in E. discriminate.
Qed.

Lemma add_In d o v k w : NoDup (map fst d) -> (In (k, w) (add_oarg d (o, v)) <-> (k = o /\ w = v) \/ (k <> o /\ In (k, w) d)).
Proof.
  unfold add_oarg. cbn [fst snd]. induction d as [|(k', w') d IH]; intros N.
  - cbn. split; [intros [H|[]]; left; split; congruence|]. intros [(-> & ->)|(_ & [])]. now left.
  - cbn [map fst] in N. apply NoDup_cons_iff in N as (N1 & N2). cbn [dset]. destruct (str_eqb o k') eqn:E.
    + apply str_eqb_eq in E. subst k'. split.
      * intros [H|H]; [left; split; congruence|]. right. split; [|now right]. intros ->. apply N1. apply in_map_iff. now exists (o, w).
      * intros [(-> & ->)|(Hk & [H|H])]; [now left|congruence|now right].
    + assert (Ho : o <> k') by (intros ->; rewrite (proj2 (str_eqb_eq k' k') eq_refl) in E; discriminate).
      cbn [In]. rewrite (IH N2). split.
      * intros [H|[H|(Hk & H)]]; [right; split; [congruence|now left]|now left|right; split; [exact Hk|now right]].
      * intros [H|(Hk & [H|H])]; [right; now left|now left|right; right; now split].
Qed.

Lemma fst_nodup_rev (l : list str) o : rev (nodup str_dec (rev (l ++ [o]))) =
  if in_dec str_dec o l then rev (nodup str_dec (rev l)) else rev (nodup str_dec (rev l)) ++ [o].
Proof.
  rewrite rev_app_distr. cbn [rev app nodup]. destruct (in_dec str_dec o (rev l)) as [H|H], (in_dec str_dec o l) as [H'|H'].
  - reflexivity.
  - exfalso. apply H'. now apply in_rev.
  - exfalso. apply H. now apply in_rev in H'.
  - reflexivity.
Qed.

Lemma kept_NoDup typed l : kept typed l -> NoDup (map fst l).
Proof. intros (H & _). rewrite H. apply NoDup_rev, NoDup_nodup. Qed.

Lemma kept_names typed l o : kept typed l -> (In o (map fst l) <-> In o (map fst typed)).
Proof. intros (H & _). rewrite H, <- in_rev, nodup_In, <- in_rev. reflexivity. Qed.

Lemma snoc_split {A} (l : list A) x a y b : l ++ [x] = a ++ y :: b -> (b = [] /\ l = a /\ x = y) \/ (exists b', b = b' ++ [x] /\ l = a ++ y :: b').
Proof.
  destruct b as [|z b] using rev_ind.
  - intros H. left. apply app_inj_tail in H as (-> & ->). now repeat split.
  - intros H. right. rewrite app_comm_cons, app_assoc in H. apply app_inj_tail in H as (-> & ->). now exists b.
Qed.

Lemma collect_kept typed : kept typed (fold_left add_oarg typed []).
Proof.
  induction typed as [|(o, v) typed IH] using rev_ind.
  - split; [reflexivity|]. intros o v. split; [intros []|]. intros (a & b & E & _). now destruct a.
  - rewrite fold_left_app. cbn [fold_left]. set (d := fold_left add_oarg typed []) in *. assert (N := kept_NoDup _ _ IH).
    assert (K := kept_names typed d o IH). split.
    + assert (F := proj1 IH). rewrite map_app. cbn [map fst]. etransitivity; [|symmetry; apply (fst_nodup_rev (map fst typed) o)]. destruct (in_dec str_dec o (map fst typed)) as [H|H].
      * etransitivity; [|exact F]. apply add_keys. now apply K.
      * rewrite add_new by (intros C; apply H; now apply K). rewrite map_app. cbn [map fst]. f_equal. exact F.
    + intros k w. assert (B := proj2 IH k w). etransitivity; [exact (add_In d o v k w N)|]. split.
      * intros [(-> & ->)|(Hk & Hd)]; [exists typed, []; split; [reflexivity|intros []]|]. apply (proj1 B) in Hd. destruct Hd as (a & b & E & Hn).
        exists a, (b ++ [(o, v)]). split; [now rewrite E, <- app_assoc|]. rewrite map_app. intros Hi. apply in_app_or in Hi.
        destruct Hi as [Hi|[Hi|[]]]; [contradiction|]. cbn in Hi. congruence.
      * intros (a & b & E & Hn). apply snoc_split in E. destruct E as [(-> & -> & E)|(b' & -> & ->)].
        -- left. split; congruence.
        -- right. rewrite map_app in Hn. split; [intros ->; apply Hn, in_or_app; right; now left|]. apply (proj2 B). exists a, b'. split; [reflexivity|].
           intros Hi. apply Hn, in_or_app. now left.
Qed.

Lemma kept_unique typed l l' : kept typed l -> kept typed l' -> l = l'.
Proof.
  intros H H'. assert (N := kept_NoDup _ _ H). assert (N' := kept_NoDup _ _ H'). destruct H as (F & H), H' as (F' & H').
  rewrite <- F' in F. assert (I : forall o v, In (o, v) l <-> In (o, v) l') by (intros o v; now rewrite H, H'). clear F' H H'. revert l' N' F I.
  induction l as [|(o, v) l IH]; intros [|(o', v') l'] N' F I; try reflexivity; try discriminate.
  cbn [map fst] in *. injection F as <- F. apply NoDup_cons_iff in N as (N1 & N2). apply NoDup_cons_iff in N' as (N1' & N2').
  assert (Ev : v = v').
  { destruct (proj1 (I o v) (or_introl eq_refl)) as [E|E]; [now inversion E|]. exfalso. apply N1'. apply in_map_iff. now exists (o, v). }
  subst v'. f_equal. apply IH; [exact N2|exact N2'|exact F|]. intros k w. specialize (I k w). cbn [In] in I. split; intros Hi.
  - destruct (proj1 I (or_intror Hi)) as [E|E]; [|exact E]. exfalso. apply N1. apply in_map_iff. exists (k, w). split; [now inversion E|exact Hi].
  - destruct (proj2 I (or_intror Hi)) as [E|E]; [|exact E]. exfalso. apply N1'. apply in_map_iff. exists (k, w). split; [now inversion E|exact Hi].
Qed.

Lemma kept_same typed : NoDup (map fst typed) -> kept typed typed.
Proof.
  intros N. split.
  - rewrite nodup_fixed_point by (now apply NoDup_rev). now rewrite rev_involutive.
  - intros o v. split.
    + intros H. apply in_split in H as (a & b & E). exists a, b. split; [exact E|]. rewrite E in N. rewrite map_app in N. cbn [map fst] in N.
      apply NoDup_remove_2 in N. intros Hi. apply N, in_or_app. now right.
    + intros (a & b & -> & _). apply in_or_app. right. now left.
Qed.

(** The kinds of options. *)
Lemma is_toggle_iff o : is_toggle o = true <-> o = s2l "enable"%string \/ o = s2l "disable"%string.
Proof. unfold is_toggle. rewrite orb_true_iff, !str_eqb_eq. reflexivity. Qed.

Lemma set_opts_picks l : picks setting l (set_opts l).
Proof.
  induction l as [|(o, v) l IH]; [constructor|]. unfold set_opts. cbn [flat_map fst snd]. fold (set_opts l).
  destruct (is_toggle o) eqn:E; [|destruct v as [v|]].
  - apply is_toggle_iff in E. cbn [app]. apply picks_skip; [|exact IH]. intros y ((H1 & H2) & _). cbn in H1, H2. tauto.
  - cbn [app]. apply picks_take; [|exact IH]. split; [|reflexivity]. split; intros C; cbn in C; assert (is_toggle o = true) by (apply is_toggle_iff; auto); congruence.
  - cbn [app]. apply picks_skip; [|exact IH]. intros y (_ & C). congruence.
Qed.

Lemma print_opts_picks l : picks question l (print_opts l).
Proof.
  induction l as [|(o, v) l IH]; [constructor|]. unfold print_opts. cbn [flat_map fst snd]. fold (print_opts l).
  destruct (is_toggle o) eqn:E; [|destruct v as [v|]].
  - apply is_toggle_iff in E. cbn [app]. apply picks_skip; [|exact IH]. intros y ((H1 & H2) & _). cbn in H1, H2. tauto.
  - cbn [app]. apply picks_skip; [|exact IH]. intros y (_ & C). congruence.
  - cbn [app]. apply picks_take; [|exact IH]. split; [|reflexivity]. split; intros C; cbn in C; assert (is_toggle o = true) by (apply is_toggle_iff; auto); congruence.
Qed.

Lemma picks_fun {A B} (sel : A -> B -> Prop) (Hf : forall x y y', sel x y -> sel x y' -> y = y') l m m' : picks sel l m -> picks sel l m' -> m = m'.
Proof.
  intros H. revert m'. induction H; intros m' H'; inversion H'; subst.
  - reflexivity.
  - f_equal; [now apply (Hf x)|now apply IHpicks].
  - exfalso. match goal with K : forall y, ~ sel x y, K' : sel x y |- _ => exact (K y K') end.
  - exfalso. match goal with K : forall y, ~ sel x y, K' : sel x ?z |- _ => exact (K z K') end.
  - now apply IHpicks.
Qed.

(** The toggles that are left after the loop that lists the C-states. *)
Definition with_text (l : list opt) : list (str * str) :=
  flat_map (fun x => if is_toggle (fst x) then match snd x with Some (c :: v) => [(fst x, c :: v)] | _ => [] end else []) l.

Lemma with_text_In l o t : In (o, t) (with_text l) <-> exists en, In (o, Some t) l /\ toggle_opt (o, Some t) en t.
Proof.
  unfold with_text. rewrite in_flat_map. split.
  - intros ((k, v) & Hi & H). cbn [fst snd] in H. destruct (is_toggle k) eqn:E; [|contradiction]. destruct v as [[|c v]|]; [contradiction| |contradiction].
    destruct H as [H|[]]. injection H as <- <-. apply is_toggle_iff in E.
    destruct E as [-> | ->]; [exists true|exists false]; (split; [exact Hi|]; split; [discriminate|reflexivity]).
  - intros (en & Hi & Hne & E). exists (o, Some t). split; [exact Hi|]. cbn [fst snd]. assert (is_toggle o = true) as ->.
    { apply is_toggle_iff. injection E as ->. destruct en; auto. }
    destruct t as [|c t]; [contradiction|]. now left.
Qed.

Section Reach.
  Variables (mc : machine) (nst : Z -> Z) (Hok : idle_ok mc nst) (flags : Z -> Z -> str) (Hf : flags_ok mc nst flags).
  Variables (gov : str) (tick : Z) (rf wf : list bool) (cpus : list Z).
  Let s0 := idle_init flags gov tick rf wf.

  Definition reaches (s : idle) : Prop := exists ops, s = irun mc ops s0.

  Lemma reach_step o s : reaches s -> reaches (istep mc o s).
  Proof. intros (ops & ->). exists (ops ++ [o]). unfold irun. rewrite fold_left_app. reflexivity. Qed.

  (** Printing C-states. *)
  Lemma print_run csn s r s' : reaches (cc_idle s) -> print_cstates mc cpus csn s = (r, s') ->
    reaches (cc_idle s') /\ (forall c i, id_flags (cc_idle s') c i = id_flags (cc_idle s) c i) /\
    (id_wf (cc_idle s) = [] -> id_wf (cc_idle s') = []) /\
    (cc_ev s' = cc_ev s \/ exists l, r = Ok tt /\ cc_ev s' = cc_ev s ++ [EvList csn l] /\ get_cstates_info mc (Some cpus) csn (cc_idle s) = (Ok l, cc_idle s')).
  Proof.
    intros HR. unfold print_cstates, on_idle. destruct s as (s, ev). cbn [cc_idle cc_ev] in *.
    assert (H1 := reach_step (IInfo (Some cpus) csn) s HR). cbn [istep] in H1.
    assert (H2 : forall c i, id_flags (snd (get_cstates_info mc (Some cpus) csn s)) c i = id_flags s c i).
    { destruct HR as (ops & ->). apply (info_frame mc nst Hok flags Hf). }
    assert (H3 : id_wf s = [] -> id_wf (snd (get_cstates_info mc (Some cpus) csn s)) = []).
    { destruct HR as (ops & ->). destruct (reach mc nst false flags gov tick rf wf ops Hok Hf ltac:(discriminate)) as (HI & _).
      assert (H := info_post mc nst Hok (fun _ _ => False) false (Some cpus) csn _ HI). fold s0 in H. unfold post in H.
      destruct (get_cstates_info mc (Some cpus) csn (irun mc ops s0)) as ([r'|e], s1); destruct H as (_ & (_ & _ & _ & _ & A & _) & _); exact A. }
    destruct (get_cstates_info mc (Some cpus) csn s) as ([l|e], s1) eqn:E; cbn [snd] in *.
    - unfold emit, modify. cbn [cc_idle cc_ev]. intros H. assert (s' = CC s1 (ev ++ [EvList csn l])) by congruence. assert (r = Ok tt) by congruence. subst s' r. cbn [cc_idle cc_ev].
      split; [exact H1|]. split; [exact H2|]. split; [exact H3|]. right. exists l. split; [reflexivity|]. now split.
    - intros H. assert (s' = CC s1 ev) by (destruct e; congruence). subst s'. cbn [cc_idle cc_ev].
      split; [exact H1|]. split; [exact H2|]. split; [exact H3|]. now left.
  Qed.

  (** One option with a text. *)
  Lemma set_run t en s r s' : reaches (cc_idle s) -> set_cstates mc cpus t en s = (r, s') ->
    reaches (cc_idle s') /\
    (forall c i, ~ toggles mc nst (CsText t) (Some cpus) c i -> id_flags (cc_idle s') c i = id_flags (cc_idle s) c i) /\
    (exists ev, cc_ev s' = cc_ev s ++ ev /\ forall e, In e ev -> exists l, e = EvList (CsText t) l) /\
    (r = Ok tt -> (is_all (CsText t) -> same_names mc nst cpus) ->
      (forall c i, In c cpus -> 0 <= i < nst c -> asked (CsText t) (own_names mc nst c) (cs_name mc c i) -> id_flags (cc_idle s') c i = flag_text (negb en)) /\
      (forall c i, ~ (In c cpus /\ 0 <= i < nst c /\ asked (CsText t) (own_names mc nst c) (cs_name mc c i)) -> id_flags (cc_idle s') c i = id_flags (cc_idle s) c i) /\
      incl cpus (ci_online (mc_ci mc)) /\ (forall c n, In c cpus -> asked (CsText t) (own_names mc nst c) n -> In n (own_names mc nst c))).
  Proof.
    intros HR. unfold set_cstates, mbind. destruct s as (s, ev). unfold on_idle at 1. cbn [cc_idle cc_ev] in *.
    assert (H1 := reach_step (IToggle (CsText t) (Some cpus) en) s HR). cbn [istep] in H1.
    assert (HF : forall c i, ~ toggles mc nst (CsText t) (Some cpus) c i -> id_flags (snd (toggle_cstates mc (CsText t) (Some cpus) en s)) c i = id_flags s c i).
    { destruct HR as (ops & ->). intros c i. apply (toggle_frame mc nst Hok flags Hf ops gov tick rf wf (CsText t) (Some cpus) en c i). }
    destruct (toggle_cstates mc (CsText t) (Some cpus) en s) as ([ts|e], s1) eqn:E; cbn [snd] in *.
    2: { intros H. assert (r = Exn e) by congruence. assert (s' = CC s1 ev) by congruence. subst. cbn [cc_idle cc_ev]. split; [exact H1|]. split; [exact HF|].
         split; [exists []; split; [now rewrite app_nil_r|intros x []]|]. discriminate. }
    intros H. destruct (print_run (CsText t) (CC s1 ev) r s' H1 H) as (P1 & P2 & _ & P3). cbn [cc_idle cc_ev] in *.
    split; [exact P1|]. split; [intros c i Hn; rewrite P2; now apply HF|]. split.
    - destruct P3 as [P3|(l & _ & P3 & _)]; [exists []; rewrite app_nil_r; split; [exact P3|intros x []]|].
      exists [EvList (CsText t) l]. split; [exact P3|]. intros x [<- |[]]. now exists l.
    - intros _ Hs. destruct HR as (ops & ->).
      destruct (toggle_exact mc nst Hok flags Hf ops gov tick rf wf (CsText t) (Some cpus) en ts s1 E Hs) as (T1 & T2 & _).
      split; [intros c i Hc Hi Ha; rewrite P2; now apply T1|]. split; [intros c i Hn; rewrite P2; now apply T2|].
      destruct (reach mc nst false flags gov tick rf wf ops Hok Hf ltac:(discriminate)) as (HI & _).
      assert (Q := post_run _ _ _ _ _ _ (toggle_post mc nst Hok false (CsText t) (Some cpus) en _ HI) E). cbn beta iota in Q.
      destruct Q as (_ & _ & K & l & ns & Hl & Hns & Ho & _). split; [now apply K|].
      destruct (norm_cpus mc nst Hok (Some cpus) l Hl) as (_ & _ & N3). cbn [cs_targets] in N3.
      intros c n Hc Ha. apply N3 in Hc. destruct (hd_of l c Hc) as (c0 & H0 & H0l). apply Ho; [exact Hc|]. rewrite (Hns c0 H0).
      apply (asked_swap mc nst (CsText t) (Some cpus) c0 c); [exact Hs|now apply N3|now apply N3|exact Ha].
  Qed.
End Reach.
