(** Filling the lines of the topology table. *)
From Verif Require Import Base L_Base L_Monad M_Text S_Text L_Text M_CPUInfo S_CPUInfo M_Topo S_Topo L_Topo.
From Coq Require Import ZifyBool Permutation.

(** ** Dictionaries of sets *)
Definition in_dict (d : list (Z * list Z)) (p x : Z) : Prop := exists ds, dget Z.eqb d p = Some ds /\ In x ds.

Lemma dget_same {V} (d : list (Z * V)) k v : dget Z.eqb (dset Z.eqb d k v) k = Some v.
Proof. apply dget_dset_same. apply Zeqb_spec. Qed.
Lemma dget_other {V} (d : list (Z * V)) k k' v : k <> k' -> dget Z.eqb (dset Z.eqb d k v) k' = dget Z.eqb d k'.
Proof. intros. apply dget_dset_other; [apply Zeqb_spec|congruence]. Qed.

Lemma set_add_in d p x q y : in_dict (set_add d p x) q y <-> in_dict d q y \/ (q = p /\ y = x).
Proof.
  unfold set_add, in_dict. destruct (dget Z.eqb d p) as [l|] eqn:E.
  - destruct (inb x l) eqn:Ex.
    + split; [tauto|]. intros [H|[-> ->]]; [exact H|]. exists l. split; [exact E|now apply inb_In].
    + destruct (Z.eq_dec p q) as [<-|Hq].
      * rewrite dget_same, E. split.
        -- intros (ds & [= <-] & Hi). apply in_app_or in Hi as [Hi|[<-|[]]]; [left; eauto|right; auto].
        -- intros [(ds & [= <-] & Hi)|[_ ->]]; eexists; (split; [reflexivity|]); apply in_or_app; [left; exact Hi|right; now left].
      * rewrite dget_other by exact Hq. split; [tauto|]. intros [H|[-> _]]; [exact H|congruence].
  - destruct (Z.eq_dec p q) as [<-|Hq].
    + rewrite dget_same, E. split.
      * intros (ds & [= <-] & [<-|[]]). now right.
      * intros [(ds & [=] & _)|[_ ->]]. exists [x]. split; [reflexivity|now left].
    + rewrite dget_other by exact Hq. split; [tauto|]. intros [H|[-> _]]; [exact H|congruence].
Qed.

Lemma set_add_some d p x q : dget Z.eqb d q <> None -> dget Z.eqb (set_add d p x) q <> None.
Proof.
  intros H. unfold set_add. destruct (dget Z.eqb d p) as [l|] eqn:E.
  - destruct (inb x l); [exact H|]. destruct (Z.eq_dec p q) as [<-|Hq]; [rewrite dget_same; discriminate|now rewrite dget_other].
  - destruct (Z.eq_dec p q) as [<-|Hq]; [rewrite dget_same; discriminate|now rewrite dget_other].
Qed.

(** ** Lines *)
Lemma pset_cpu l v t : p_cpu (pset l v t) = p_cpu t.
Proof. now destruct l. Qed.

Lemma pget_pset_same l v t : l <> LCPU -> pget l (pset l v t) = Some v.
Proof. destruct l; [congruence|reflexivity..]. Qed.

Lemma pget_pset_other l l' v t : l <> l' -> pget l' (pset l v t) = pget l' t.
Proof. destruct l, l'; try reflexivity; congruence. Qed.

Lemma level_dec (a b : level) : {a = b} + {a <> b}.
Proof. decide equality. Qed.

Lemma dset_keys {V} (d : list (Z * V)) k v : In k (map fst d) -> map fst (dset Z.eqb d k v) = map fst d.
Proof.
  induction d as [|[k' v'] d IH]; [contradiction|]. cbn [map fst dset]. intros H.
  destruct (Z.eqb_spec k k') as [->|Hk]; [reflexivity|]. cbn [map fst]. rewrite IH; [reflexivity|].
  destruct H as [H|H]; [congruence|exact H].
Qed.

Lemma dget_key {V} (d : list (Z * V)) k : In k (map fst d) <-> dget Z.eqb d k <> None.
Proof.
  induction d as [|[k' v'] d IH]; cbn [map fst dget In]; [tauto|].
  destruct (Z.eqb_spec k k') as [->|Hk]; [split; [discriminate|now left]|].
  rewrite <- IH. split; [intros [H|H]; congruence || exact H|now right].
Qed.

Lemma dget_In {V} (d : list (Z * V)) k v : dget Z.eqb d k = Some v -> In (k, v) d.
Proof.
  induction d as [|[k' v'] d IH]; cbn [dget]; [discriminate|].
  destruct (Z.eqb_spec k k') as [->|Hk]; [intros [= ->]; now left|right; auto].
Qed.

Lemma In_dget {V} (d : list (Z * V)) k v : NoDup (map fst d) -> In (k, v) d -> dget Z.eqb d k = Some v.
Proof.
  induction d as [|[k' v'] d IH]; intros Hn Hi; [contradiction|]. cbn [map fst] in Hn. inversion Hn as [|? ? H1 H2]; subst.
  cbn [dget]. destruct Hi as [[= -> ->]|Hi]; [now rewrite Z.eqb_refl|].
  destruct (Z.eqb_spec k k') as [->|Hk]; [|now apply IH]. exfalso. apply H1. apply in_map_iff. exists (k', v). auto.
Qed.

Section Fill.
  Variable m : machine.
  Variable on : list Z.
  Variable h : host.
  Hypothesis Hm : machine_ok m.
  Hypothesis Hon : online_set m on.
  Hypothesis Hs : shows m on h.

  Definition line_true (comp : list (Z * list Z)) (t : pline) : Prop :=
    In (p_cpu t) (m_present m) /\ (forall l v, pget l t = Some v -> v = number m l (p_cpu t)) /\
    (p_die t <> None -> in_dict comp (number m LPkg (p_cpu t)) (number m LDie (p_cpu t))).

  Definition comp_ok (d : list (Z * list Z)) : Prop :=
    (forall p x, in_dict d p x -> exists c, In c (m_present m) /\ number m LPkg c = p /\ number m LDie c = x) /\
    (forall p, dget Z.eqb d p <> None -> exists x, in_dict d p x).
  Definition io_ok (d : list (Z * list Z)) : Prop := forall p x, in_dict d p x -> uncore_die m p x.

  Definition keys (w : work) : list Z := map fst (w_info w).

  Record wok (w : work) : Prop := {
    wk_nodup : NoDup (keys w);
    wk_line : forall c t, dget Z.eqb (w_info w) c = Some t -> p_cpu t = c /\ line_true (w_comp w) t;
    wk_comp : comp_ok (w_comp w);
    wk_io : io_ok (w_io w);
    wk_iond : NoDup (map fst (w_io w)) }.

  Definition filled (w : work) (l : level) (c : Z) : Prop :=
    exists t v, dget Z.eqb (w_info w) c = Some t /\ pget l t = Some v.

  Record ext (w w' : work) : Prop := {
    ex_ok : wok w';
    ex_keys : keys w' = keys w;
    ex_filled : forall l c, filled w l c -> filled w' l c;
    ex_comp : forall p x, in_dict (w_comp w) p x -> in_dict (w_comp w') p x;
    ex_some : forall p, dget Z.eqb (w_comp w) p <> None ->
      dget Z.eqb (w_comp w') p <> None /\ dget Z.eqb (w_io w') p = dget Z.eqb (w_io w) p;
    ex_io : forall p x, in_dict (w_io w') p x -> in_dict (w_io w) p x }.

  Lemma ext_refl w : wok w -> ext w w.
  Proof. intros H. constructor; auto. Qed.

  Lemma ext_trans a b c : ext a b -> ext b c -> ext a c.
  Proof.
    intros [A1 A2 A3 A4 A5 A6] [B1 B2 B3 B4 B5 B6]. constructor; auto; try congruence.
    intros p Hp. destruct (A5 p Hp) as [X Y]. destruct (B5 p X) as [X' Y']. split; [exact X'|congruence].
  Qed.

  Lemma key_present w c : wok w -> In c (keys w) -> In c (m_present m).
  Proof.
    intros H Hc. apply dget_key in Hc. destruct (dget Z.eqb (w_info w) c) as [t|] eqn:E; [|congruence].
    destruct (wk_line w H c t E) as [<- [Hp _]]. exact Hp.
  Qed.

  Definition bad (w : work) : exc -> work -> Prop := fun _ w' => ext w w' /\ ~ readable m on h.

  Lemma for_ext {A} (body : A -> M work unit) (G : A -> work -> Prop) l w0 :
    (forall x w w', G x w -> ext w w' -> G x w') ->
    (forall x w, In x l -> ext w0 w -> post (body x) w (fun _ w' => ext w w' /\ G x w') (bad w)) ->
    wok w0 ->
    post (mfor l body) w0 (fun _ w' => ext w0 w' /\ forall x, In x l -> G x w') (bad w0).
  Proof.
    intros HG Hb Hw.
    apply (post_mfor body (fun p w' => ext w0 w' /\ forall x, In x p -> G x w') (bad w0) l).
    - intros p x r El w [He Hp]. eapply post_conseq; [apply (Hb x w); [subst l; apply in_or_app; right; now left|exact He]| |].
      + intros _ w' [He' Hx]. cbn beta. split; [eapply ext_trans; eassumption|].
        intros y Hy. apply in_app_or in Hy as [Hy|[<-|[]]]; [|exact Hx]. eapply HG; [apply Hp; exact Hy|exact He'].
      + intros e w' [He' Hr]. split; [eapply ext_trans; eassumption|exact Hr].
    - split; [now apply ext_refl|contradiction].
  Qed.

  (** Changing one line. *)
  Lemma set_line_ext w c t t' comp io : wok w -> dget Z.eqb (w_info w) c = Some t -> p_cpu t' = c ->
    (forall l v, pget l t' = Some v -> v = number m l c) ->
    (p_die t' <> None -> in_dict comp (number m LPkg c) (number m LDie c)) ->
    (forall l, pget l t <> None -> pget l t' <> None) ->
    comp_ok comp -> io_ok io -> NoDup (map fst io) ->
    (forall p x, in_dict (w_comp w) p x -> in_dict comp p x) ->
    (forall p, dget Z.eqb (w_comp w) p <> None -> dget Z.eqb comp p <> None /\ dget Z.eqb io p = dget Z.eqb (w_io w) p) ->
    (forall p x, in_dict io p x -> in_dict (w_io w) p x) ->
    ext w (Work (dset Z.eqb (w_info w) c t') comp io).
  Proof.
    intros Hw Ht Hc Hv Hd Hf Hco Hio Hnd Hmono Hsome Hio2.
    assert (Hk : In c (keys w)) by (apply dget_key; congruence).
    assert (Hkeys : map fst (dset Z.eqb (w_info w) c t') = keys w) by (now apply dset_keys).
    constructor; cbn [w_info w_comp w_io]; auto.
    - constructor; cbn [w_info w_comp w_io]; auto.
      + unfold keys at 1. cbn [w_info]. rewrite Hkeys. apply (wk_nodup w Hw).
      + intros x u Hu. destruct (Z.eq_dec c x) as [<-|Hx].
        * rewrite dget_same in Hu. injection Hu as <-. split; [exact Hc|]. split; [rewrite Hc; now apply (key_present w)|].
          rewrite Hc. split; [exact Hv|exact Hd].
        * rewrite dget_other in Hu by exact Hx. destruct (wk_line w Hw x u Hu) as (E & L1 & L2 & L3).
          split; [exact E|]. split; [exact L1|]. split; [exact L2|]. intros H. apply Hmono. now apply L3.
    - intros l x (u & v & Hu & Hl). destruct (Z.eq_dec c x) as [<-|Hx].
      + rewrite Ht in Hu. injection Hu as <-. assert (Hn : pget l t' <> None) by (apply Hf; congruence).
        destruct (pget l t') as [v'|] eqn:E; [|congruence]. exists t', v'. cbn [w_info]. rewrite dget_same. auto.
      + exists u, v. cbn [w_info]. rewrite dget_other by exact Hx. auto.
  Qed.

  Lemma assign_post l v c w : wok w -> In c (keys w) -> v = number m l c -> l <> LCPU -> l <> LDie ->
    post (assign l v c) w (fun _ w' => ext w w' /\ filled w' l c) (fun _ _ => False).
  Proof.
    intros Hw Hc Hv Hl Hl2. unfold assign. apply post_bind. unfold line_of, post at 1.
    apply dget_key in Hc. destruct (dget Z.eqb (w_info w) c) as [t|] eqn:Et; [|congruence].
    apply post_modify. destruct (wk_line w Hw c t Et) as (E & L1 & L2 & L3). split.
    - unfold set_info. apply set_line_ext with (t := t); auto.
      + now rewrite pset_cpu.
      + intros l' v' H. destruct (level_dec l l') as [<-|Hn].
        * rewrite pget_pset_same in H by exact Hl. congruence.
        * rewrite pget_pset_other in H by exact Hn. rewrite <- E. now apply L2.
      + intros H. rewrite <- E. apply L3. destruct l; try exact H; congruence.
      + intros l' H. destruct (level_dec l l') as [<-|Hn]; [rewrite pget_pset_same by exact Hl; discriminate|now rewrite pget_pset_other].
      + apply (wk_comp w Hw).
      + apply (wk_io w Hw).
      + apply (wk_iond w Hw).
    - exists (pset l v t), v. cbn [set_info w_info]. rewrite dget_same. split; [reflexivity|now apply pget_pset_same].
  Qed.

  Lemma no_key_post mm w (Q : unit -> work -> Prop) E :
    post mm w Q (fun _ _ => False) -> post (no_key_error mm) w Q E.
  Proof. unfold post, no_key_error. destruct (mm w) as [[a|e] w']; [auto|contradiction]. Qed.

  Lemma assign_maybe l v c w : wok w -> (In c (m_present m) -> v = number m l c) -> l <> LCPU -> l <> LDie ->
    post (no_key_error (assign l v c)) w (fun _ w' => ext w w' /\ (In c (keys w') -> filled w' l c)) (bad w).
  Proof.
    intros Hw Hv Hl Hl2. destruct (in_dec Z.eq_dec c (keys w)) as [Hc|Hc].
    - apply no_key_post. eapply post_conseq; [apply assign_post; auto; apply Hv; now apply (key_present w)| |auto].
      intros _ w' [H1 H2]. cbn beta. auto.
    - assert (E : assign l v c w = (Exn EKey, w)).
      { unfold assign, mbind, line_of. destruct (dget Z.eqb (w_info w) c) eqn:Et; [|reflexivity].
        exfalso. apply Hc. apply dget_key. congruence. }
      unfold post, no_key_error. rewrite E. split; [now apply ext_refl|contradiction].
  Qed.

  Lemma filled_ext w w' l c : filled w l c -> ext w w' -> filled w' l c.
  Proof. intros H [_ _ H2 _ _ _]. auto. Qed.

  Lemma value_post l c w : wok w -> filled w l c ->
    post (value_of l c) w (fun v w' => w' = w /\ v = number m l c) (fun _ _ => False).
  Proof.
    intros Hw (t & v & Ht & Hv). unfold value_of. apply post_bind. unfold line_of, post at 1. rewrite Ht, Hv.
    apply post_ret. split; [reflexivity|]. destruct (wk_line w Hw c t Ht) as (E & _ & L2 & _). rewrite <- E. now apply L2.
  Qed.

  (** ** Cores and packages *)
  Lemma cores_post cpus w : wok w -> incl cpus on -> incl cpus (keys w) ->
    post (add_cores_and_packages h cpus) w
      (fun _ w' => ext w w' /\ forall c, In c cpus -> filled w' LPkg c /\ filled w' LCore c) (bad w).
  Proof.
    intros Hw Hi Hk. unfold add_cores_and_packages. apply post_bind. apply post_lift.
    2:{ intros e He. split; [now apply ext_refl|]. intros R. destruct (rd_cpuinfo m on h R). congruence. }
    intros t Ht. destruct Hon as (Hne & Hnd & _).
    destruct (cpuinfo_read m on t Hne Hnd (sh_cpuinfo m on h Hs t Ht)) as (info & Ei & Hinfo).
    rewrite Ei. apply post_bind. apply post_lift; [|discriminate]. intros info' [= <-].
    apply (for_ext _ (fun c w' => filled w' LPkg c /\ filled w' LCore c)); [|intros c w1 Hc He|exact Hw].
    { intros c w1 w2 [H1 H2] He. split; eapply filled_ext; eassumption. }
    destruct (Hinfo c (Hi c Hc)) as (lines & Hl & H1 & H2). rewrite Hl, H1, H2.
    assert (Hc1 : In c (keys w1)) by (rewrite (ex_keys _ _ He); auto).
    apply post_bind. apply post_lift; [|discriminate]. intros p [= <-].
    apply post_bind. eapply post_conseq; [apply assign_post; [apply He|exact Hc1|reflexivity|discriminate|discriminate]| |contradiction].
    intros _ w2 [He2 Hf2]. apply post_bind. apply post_lift; [|discriminate]. intros k [= <-].
    eapply post_conseq; [apply assign_post; [apply He2|rewrite (ex_keys _ _ He2); exact Hc1|reflexivity|discriminate|discriminate]| |contradiction].
    intros _ w3 [He3 Hf3]. split; [eapply ext_trans; eassumption|]. split; [eapply filled_ext; eassumption|exact Hf3].
  Qed.

  (** ** Modules *)
  Lemma by_core_post c w : wok w -> filled w LCore c -> m_cache m = false ->
    post (let! k := value_of LCore c in assign LModule k c) w (fun _ w' => ext w w' /\ filled w' LModule c) (fun _ _ => False).
  Proof.
    intros Hw Hf Hc. apply post_bind. eapply post_conseq; [apply value_post; eassumption| |contradiction].
    intros v w' [-> ->]. assert (Hk : In c (keys w)). { destruct Hf as (t & v' & Ht & _). apply dget_key. congruence. }
    apply assign_post; [exact Hw|exact Hk| |discriminate|discriminate].
    symmetry. apply (mo_module m Hm Hc). now apply (key_present w).
  Qed.

  Lemma modules_post cpus : forall nocache w, wok w -> incl cpus on -> incl cpus (keys w) ->
    (forall c, In c cpus -> filled w LCore c) -> (nocache = true -> m_cache m = false) ->
    post (add_modules h nocache cpus) w
      (fun _ w' => ext w w' /\ forall c, In c cpus -> filled w' LModule c) (bad w).
  Proof.
    induction cpus as [|c t IH]; intros nocache w Hw Hi Hk Hf Hn.
    { apply post_ret. split; [now apply ext_refl|contradiction]. }
    assert (Hc : In c on) by (apply Hi; now left). assert (Hck : In c (keys w)) by (apply Hk; now left).
    (* the rest of the loop, from a state where the CPU is done *)
    assert (Rest : forall nc w1, ext w w1 -> filled w1 LModule c -> (nc = true -> m_cache m = false) ->
      post (add_modules h nc t) w1 (fun _ w' => ext w w' /\ forall x, In x (c :: t) -> filled w' LModule x) (bad w)).
    { intros nc w1 He Hfc Hnc. eapply post_conseq; [apply (IH nc w1)| |].
      - apply He.
      - intros x Hx. apply Hi. now right.
      - intros x Hx. rewrite (ex_keys _ _ He). apply Hk. now right.
      - intros x Hx. eapply filled_ext; [apply Hf; now right|exact He].
      - exact Hnc.
      - intros _ w' [He' Hall]. cbn beta. split; [eapply ext_trans; eassumption|].
        intros x [<-|Hx]; [eapply filled_ext; eassumption|auto].
      - intros e w' [He' Hr]. split; [eapply ext_trans; eassumption|exact Hr]. }
    cbn [add_modules]. apply post_bind. unfold line_of, post at 1.
    pose proof Hck as Hck'. apply dget_key in Hck'. destruct (dget Z.eqb (w_info w) c) as [ln|] eqn:El; [|congruence].
    destruct (p_module ln) as [mm|] eqn:Em.
    { apply Rest; [now apply ext_refl| |exact Hn]. exists ln, mm. split; [exact El|exact Em]. }
    assert (ByCore : forall nc, m_cache m = false ->
      post ((let! k := value_of LCore c in assign LModule k c) ;; add_modules h nc t) w
        (fun _ w' => ext w w' /\ forall x, In x (c :: t) -> filled w' LModule x) (bad w)).
    { intros nc Hca. apply post_bind. eapply post_conseq; [apply by_core_post; [exact Hw|apply Hf; now left|exact Hca]| |contradiction].
      intros _ w1 [He Hfc]. apply Rest; auto. }
    destruct nocache; [apply ByCore; auto|].
    destruct (m_cache m) eqn:Eca.
    - destruct (sh_l2_id m on h Hs Eca c Hc) as [Hnf Hid].
      destruct (h_l2_id h c) as [data|e] eqn:Ed.
      + rewrite (number_read _ _ (Hid data eq_refl)). apply post_bind. apply post_lift; [|discriminate]. intros v [= <-].
        apply post_bind. destruct (h_l2_cpus h c) as [tx|e] eqn:Ex.
        2:{ unfold read_range. cbn [rbind]. apply post_lift; [discriminate|]. intros e' _. split; [now apply ext_refl|].
            intros R. destruct (rd_l2_cpus m on h R c Hc Eca). congruence. }
        destruct (sh_l2_cpus m on h Hs Eca c tx Hc Ex) as (l & Hl & Hcl & Hall). rewrite (list_read tx l Hl).
        apply post_lift; [|discriminate]. intros sib [= <-]. apply post_bind.
        eapply post_conseq; [apply (for_ext _ (fun x w' => In x (keys w') -> filled w' LModule x))| |auto].
        * intros x w1 w2 H1 He Hx. eapply filled_ext; [apply H1; rewrite <- (ex_keys _ _ He); exact Hx|exact He].
        * intros x w1 Hx He. apply assign_maybe; [apply He| |discriminate|discriminate].
          intros Hp. symmetry. now apply Hall.
        * exact Hw.
        * intros _ w1 [He Hall1]. cbn beta. apply Rest; [exact He| |discriminate].
          apply Hall1; [exact Hcl|]. rewrite (ex_keys _ _ He). exact Hck.
      + assert (Hth : post (throw (A:=unit) e) w (fun _ w' => ext w w' /\ forall x, In x (c :: t) -> filled w' LModule x) (bad w)).
        { apply post_throw. split; [now apply ext_refl|]. intros R. pose proof (rd_l2_id m on h R c Hc) as G. rewrite Eca in G.
          destruct G. congruence. }
        destruct e; try exact Hth. congruence.
    - destruct (sh_no_cache m on h Hs Eca c Hc) as (e & Ee). rewrite Ee.
      assert (Hth : e <> ENotFound -> post (throw (A:=unit) e) w (fun _ w' => ext w w' /\ forall x, In x (c :: t) -> filled w' LModule x) (bad w)).
      { intros Hne. apply post_throw. split; [now apply ext_refl|]. intros R. pose proof (rd_l2_id m on h R c Hc) as G. rewrite Eca in G.
        congruence. }
      destruct e; try (apply Hth; discriminate). apply ByCore. reflexivity.
  Qed.

  (** ** Dies *)
  Lemma die_post c w : wok w -> In c (keys w) -> filled w LPkg c ->
    post (add_compute_die (number m LDie c) c) w (fun _ w' => ext w w' /\ filled w' LDie c) (fun _ _ => False).
  Proof.
    intros Hw Hc Hf. pose proof Hf as (t & p & Ht & Hp).
    destruct (wk_line w Hw c t Ht) as (E & L1 & L2 & L3).
    assert (Ep : p = number m LPkg c) by (rewrite <- E; now apply L2).
    unfold add_compute_die, assign, value_of, line_of, mbind, modify, ret, post. rewrite Ht. cbn [set_info w_info].
    rewrite dget_same. rewrite pget_pset_other by discriminate. rewrite Hp.
    set (i := dset Z.eqb (w_info w) c (pset LDie (number m LDie c) t)). cbn [set_info w_comp w_io w_info].
    assert (Hext : forall io, io_ok io -> NoDup (map fst io) ->
      (forall q, dget Z.eqb (w_comp w) q <> None -> dget Z.eqb io q = dget Z.eqb (w_io w) q) ->
      (forall q x, in_dict io q x -> in_dict (w_io w) q x) ->
      ext w (Work i (set_add (w_comp w) p (number m LDie c)) io)).
    { intros io Hio Hnd Hq Hsub. apply set_line_ext with (t := t); auto.
      - intros l v H. destruct (level_dec LDie l) as [<-|Hn].
        + rewrite pget_pset_same in H by discriminate. congruence.
        + rewrite pget_pset_other in H by exact Hn. rewrite <- E. now apply L2.
      - intros _. apply set_add_in. right. auto.
      - intros l H. destruct (level_dec LDie l) as [<-|Hn]; [discriminate|now rewrite pget_pset_other].
      - split.
        + intros q x H. apply set_add_in in H as [H|[-> ->]]; [now apply (wk_comp w Hw)|].
          exists c. split; [now apply (key_present w)|auto].
        + intros q H. destruct (Z.eq_dec p q) as [<-|Hne]; [exists (number m LDie c); apply set_add_in; auto|].
          assert (H2 : dget Z.eqb (w_comp w) q <> None).
          { intros E2. apply H. unfold set_add. destruct (dget Z.eqb (w_comp w) p) as [ds|]; [destruct (inb (number m LDie c) ds); [exact E2|]|];
              rewrite dget_other; assumption. }
          destruct (proj2 (wk_comp w Hw) q H2) as (x & Hx). exists x. apply set_add_in. now left.
      - intros q x H. apply set_add_in. now left.
      - intros q H. split; [now apply set_add_some|now apply Hq]. }
    assert (Hfill : forall cc io, filled (Work i cc io) LDie c).
    { intros cc io. exists (pset LDie (number m LDie c) t), (number m LDie c). cbn [w_info]. unfold i. rewrite dget_same. auto. }
    destruct (dget Z.eqb (w_comp w) p) as [ds|] eqn:Ec; (split; [|apply Hfill]); apply Hext; auto.
    - apply (wk_io w Hw).
    - apply (wk_iond w Hw).
    - intros q x (ds & Hd & Hx). destruct (Z.eq_dec p q) as [<-|Hq].
      + rewrite dget_same in Hd. injection Hd as <-. contradiction.
      + rewrite dget_other in Hd by exact Hq. apply (wk_io w Hw). exists ds. auto.
    - apply dset_NoDup; [apply Zeqb_spec|apply (wk_iond w Hw)].
    - intros q Hq. apply dget_other. congruence.
    - intros q x (ds & Hd & Hx). destruct (Z.eq_dec p q) as [<-|Hq].
      + rewrite dget_same in Hd. injection Hd as <-. contradiction.
      + rewrite dget_other in Hd by exact Hq. exists ds. auto.
  Qed.

  Lemma dies_post cpus w : wok w -> incl cpus on -> incl cpus (keys w) -> (forall c, In c cpus -> filled w LPkg c) ->
    post (add_compute_dies h cpus) w
      (fun _ w' => ext w w' /\ forall c, In c cpus -> filled w' LDie c) (bad w).
  Proof.
    intros Hw Hi Hk Hf. unfold add_compute_dies. destruct (m_pli m) eqn:Ep.
    - destruct (sh_pli m on h Hs Ep) as (f & Ef & Hfv). rewrite Ef.
      apply (for_ext _ (fun c w' => filled w' LDie c)); [intros; eapply filled_ext; eassumption| |exact Hw].
      intros c w1 Hc He. apply post_bind. apply post_lift.
      + intros d Hd. rewrite (Hfv c d (Hi c Hc) Hd).
        eapply post_conseq; [apply die_post; [apply He|rewrite (ex_keys _ _ He); auto|eapply filled_ext; [apply Hf; exact Hc|exact He]]|auto|contradiction].
      + intros e Hd. split; [apply ext_refl, He|]. intros R. destruct (rd_pli m on h R f c Ef (Hi c Hc)). congruence.
    - rewrite (sh_no_pli m on h Hs Ep).
      apply (for_ext _ (fun c w' => filled w' LDie c)); [intros; eapply filled_ext; eassumption| |exact Hw].
      intros c w1 Hc He. apply post_bind. unfold line_of, post at 1.
      assert (Hck : In c (keys w1)) by (rewrite (ex_keys _ _ He); auto).
      pose proof Hck as Hck'. apply dget_key in Hck'. destruct (dget Z.eqb (w_info w1) c) as [ln|] eqn:El; [|congruence].
      destruct (p_die ln) as [d|] eqn:Ed.
      { apply post_ret. split; [apply ext_refl, He|]. exists ln, d. auto. }
      apply post_bind. apply post_lift.
      2:{ intros e Hx. split; [apply ext_refl, He|]. intros R. destruct (rd_die_id m on h R c (Hi c Hc) Ep). congruence. }
      intros data Hx. rewrite (number_read _ _ (sh_die_id m on h Hs c data (Hi c Hc) Hx)).
      apply post_bind. apply post_lift; [|discriminate]. intros d [= <-]. apply post_bind.
      destruct (h_die_cpus h c) as [tx|e] eqn:Ex.
      2:{ unfold read_range. cbn [rbind]. apply post_lift; [discriminate|]. intros e' _. split; [apply ext_refl, He|].
          intros R. destruct (rd_die_cpus m on h R c (Hi c Hc) Ep). congruence. }
      destruct (sh_die_cpus m on h Hs c tx (Hi c Hc) Ex) as (l & Hl & Hcl). rewrite (list_read tx l Hl).
      apply post_lift; [|discriminate]. intros sib [= <-].
      eapply post_conseq; [apply (for_ext _ (fun _ w' => filled w' LDie c))| |auto].
      + intros x wa wb H1 He1. eapply filled_ext; eassumption.
      + intros x wa Hx1 He1. apply no_key_post. apply die_post; [apply He1|rewrite (ex_keys _ _ He1); exact Hck|].
        eapply filled_ext; [|exact He1]. eapply filled_ext; [apply Hf; exact Hc|exact He].
      + apply He.
      + intros _ w2 [He2 H2]. cbn beta. split; [exact He2|]. apply (H2 c Hcl).
  Qed.

  (** ** Nodes *)
  Lemma nodes_post w : wok w ->
    post (add_nodes h) w (fun _ w' => ext w w' /\ forall c, In c on -> In c (keys w) -> filled w' LNode c) (bad w).
  Proof.
    intros Hw. unfold add_nodes. apply post_bind. destruct (h_nodes h) as [t|e] eqn:Et.
    2:{ unfold read_range. cbn [rbind]. apply post_lift; [discriminate|]. intros e' _. split; [now apply ext_refl|].
        intros R. destruct (rd_nodes m on h R). congruence. }
    destruct (sh_nodes m on h Hs t Et) as (l & Hl & Hcov & Hn). rewrite (list_read t l Hl).
    apply post_lift; [|discriminate]. intros nodes [= <-].
    eapply post_conseq; [apply (for_ext _ (fun n w' => forall c, In c on -> number m LNode c = n -> In c (keys w') -> filled w' LNode c))| |auto].
    - intros n w1 w2 H He c Hc Hcn Hk. eapply filled_ext; [apply H; auto; rewrite <- (ex_keys _ _ He); exact Hk|exact He].
    - intros n w1 Hnl He. apply post_bind. destruct (h_node_cpus h n) as [tx|e] eqn:Ex.
      2:{ unfold read_range. cbn [rbind]. apply post_lift; [discriminate|]. intros e' _. split; [apply ext_refl, He|].
          intros R. destruct (rd_node_cpus m on h R n). congruence. }
      destruct (Hn n tx Hnl Ex) as (cs & Hcs & H1 & H2). rewrite (list_read tx cs Hcs).
      apply post_lift; [|discriminate]. intros cs' [= <-].
      eapply post_conseq; [apply (for_ext _ (fun c w' => In c (keys w') -> filled w' LNode c))| |auto].
      + intros x wa wb H3 He3 Hx. eapply filled_ext; [apply H3; rewrite <- (ex_keys _ _ He3); exact Hx|exact He3].
      + intros x wa Hx He3. apply assign_maybe; [apply He3| |discriminate|discriminate]. intros Hp. symmetry. now apply H2.
      + apply He.
      + intros _ w2 [He2 H3]. cbn beta. split; [exact He2|]. intros c Hc Hcn Hk. apply H3; auto.
    - exact Hw.
    - intros _ w' [He H]. cbn beta. split; [exact He|]. intros c Hc Hk. apply (H (number m LNode c)); auto.
      rewrite (ex_keys _ _ He). exact Hk.
  Qed.

  Lemma has_level_In l ls : has_level l ls = true <-> In l ls.
  Proof.
    unfold has_level. rewrite existsb_exists. split.
    - intros (x & Hx & E). unfold level_eqb in E. apply Z.eqb_eq in E. now replace l with x by (destruct l, x; cbn in E; congruence).
    - intros H. exists l. split; [exact H|]. unfold level_eqb. apply Z.eqb_refl.
  Qed.

  (** ** All levels *)
  Lemma fill_post ls cpus w : wok w -> incl cpus on -> incl cpus (keys w) -> In LPkg ls -> In LCore ls ->
    post (fill h ls cpus) w
      (fun _ w' => ext w w' /\ (forall c l, In c cpus -> In l ls -> filled w' l c)) (bad w).
  Proof.
    intros Hw Hi Hk Hp Hc. unfold fill.
    replace (has_level LPkg ls || has_level LCore ls) with true by (symmetry; apply orb_true_iff; left; now apply has_level_In).
    apply post_bind. eapply post_conseq; [apply (cores_post cpus w Hw Hi Hk)| |auto]. intros _ w1 [He1 H1].
    assert (Step : forall w2 (l : level) (mm : M work unit), ext w w2 ->
      (post mm w2 (fun _ w' => ext w2 w' /\ forall c, In c cpus -> filled w' l c) (bad w2)) ->
      post (if has_level l ls then mm else ret tt) w2
        (fun _ w' => ext w2 w' /\ ext w w' /\ (In l ls -> forall c, In c cpus -> filled w' l c)) (bad w)).
    { intros w2 l mm He2 Hp2. destruct (has_level l ls) eqn:El.
      - eapply post_conseq; [exact Hp2| |].
        + intros _ w' [A B]. cbn beta. split; [exact A|]. split; [eapply ext_trans; eassumption|auto].
        + intros e w' [A B]. split; [eapply ext_trans; eassumption|exact B].
      - apply post_ret. split; [apply ext_refl, He2|]. split; [exact He2|]. intros G. apply has_level_In in G. congruence. }
    assert (Hk1 : forall w2, ext w w2 -> incl cpus (keys w2)).
    { intros w2 He2 c Hcc. rewrite (ex_keys _ _ He2). auto. }
    apply post_bind. eapply post_conseq; [apply (Step w1 LModule _ He1)| |auto].
    { apply modules_post; [apply He1|exact Hi|now apply Hk1|intros c Hcc; now apply H1|discriminate]. }
    intros _ w2 (E12 & He2 & H2). apply post_bind. eapply post_conseq; [apply (Step w2 LDie _ He2)| |auto].
    { apply dies_post; [apply He2|exact Hi|now apply Hk1|intros c Hcc; eapply filled_ext; [now apply H1|exact E12]]. }
    intros _ w3 (E23 & He3 & H3). eapply post_conseq; [apply (Step w3 LNode _ He3)| |auto].
    { eapply post_conseq; [apply nodes_post, He3| |auto]. intros _ w' [A B]. cbn beta. split; [exact A|].
      intros c Hcc. apply B; [now apply Hi|]. now apply Hk1. }
    intros _ w4 (E34 & He4 & H4). cbn beta. split; [exact He4|]. intros c l Hcc Hl. destruct l.
    - assert (In c (keys w4)) as G by (now apply Hk1). apply dget_key in G.
      destruct (dget Z.eqb (w_info w4) c) as [t|] eqn:Et; [|congruence]. exists t, (p_cpu t). auto.
    - eapply filled_ext; [|exact E34]. eapply filled_ext; [|exact E23]. eapply filled_ext; [|exact E12]. now apply H1.
    - eapply filled_ext; [|exact E34]. eapply filled_ext; [|exact E23]. now apply H2.
    - eapply filled_ext; [|exact E34]. now apply H3.
    - now apply H4.
    - eapply filled_ext; [|exact E34]. eapply filled_ext; [|exact E23]. eapply filled_ext; [|exact E12]. now apply H1.
  Qed.
End Fill.
