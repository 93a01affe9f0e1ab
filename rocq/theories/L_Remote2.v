(** Lemmas about MSR access on a remote host: reading gives the same as on the local host. *)
From Coq Require Import ZifyBool Sorted.
From Verif Require Import Base L_Base L_Monad M_Text L_Text L_Uncore3 M_CPUInfo S_CPUInfo L_CPUInfo M_MSR S_MSR L_MSR M_Remote L_Remote.

Lemma SS_nodup l : StronglySorted Z.lt l -> NoDup l.
Proof.
  induction 1 as [|x l H IH HF]; constructor; [|exact IH]. intros Hi. rewrite Forall_forall in HF. specialize (HF x Hi). lia.
Qed.

Lemma filter_one c l : NoDup l -> In c l -> filter (fun x => x =? c) l = [c].
Proof.
  induction 1 as [|x l Hx Hn IH]; intros Hi; [destruct Hi|]. cbn [filter]. destruct (Z.eqb_spec x c) as [-> |Hne].
  - f_equal. clear IH Hi Hn. induction l as [|y l IH]; [reflexivity|]. cbn [filter]. destruct (Z.eqb_spec y c) as [-> |Hne].
    + exfalso. apply Hx. now left.
    + apply IH. intros H. apply Hx. now right.
  - apply IH. destruct Hi as [Hi|Hi]; [congruence|exact Hi].
Qed.

Lemma io_free s : ms_faults s = [] -> io s = (Ok tt, s).
Proof. intros H. unfold io. now rewrite H. Qed.

Section Reads.
  Variable env : menv.
  Notation dom := (me_dom env).
  Notation ci := (me_ci env).
  Notation online := (ci_online (me_ci env)).
  Variable sc : Z -> scope.
  Hypothesis Hwf : wf_ci ci.
  Hypothesis Hsc : forall a, scope_right env a (sc a).

  (** CPUs that share a register have the same value in the cache. *)
  Definition same (s : mstate) : Prop :=
    forall a c x, In c online -> In x online -> dom a c = dom a x -> cache_get env s a c = cache_get env s a x.

  Definition adding (a : Z) (f : Z -> Z) (ds : list Z) : M mstate unit :=
    mfor ds (fun c => cache_add env a c (f c) (sc a)).

  Definition sees (a : Z) (seen : list Z) (c : Z) : bool := existsb (fun x => dom a x =? dom a c) seen.

  (** The CPUs whose register is really read. *)
  Fixpoint need (s : mstate) (a : Z) (l seen : list Z) : list Z :=
    match l with
    | [] => []
    | c :: t =>
        if sees a seen c then need s a t seen
        else match cache_get env s a c with
             | Some _ => need s a t seen
             | None => c :: need s a t (if me_cache env then c :: seen else seen)
             end
    end.

  Definition held0 (s : mstate) (a c : Z) : Z :=
    match cache_get env s a c with Some v => v | None => ms_hw s a (dom a c) end.

  Lemma add_run a c v s : In c online ->
    exists s', cache_add env a c v (sc a) s = (Ok tt, s') /\ cache_only s s' /\ ms_faults s' = ms_faults s /\
      forall a' x, In x online -> cache_get env s' a' x =
        if me_cache env && (a' =? a) && (dom a x =? dom a c) then Some v else cache_get env s a' x.
  Proof.
    intros Hc. pose proof (cache_add_post env Hwf a c v (sc a) s (Hsc a) Hc) as P. unfold post in P.
    destruct (cache_add env a c v (sc a) s) as [[[]|e] s']; [|destruct P]. eauto.
  Qed.

  Lemma sees_in a seen c : sees a seen c = true <-> exists x, In x seen /\ dom a x = dom a c.
  Proof.
    unfold sees. rewrite existsb_exists. split; intros (x & Hx & E); exists x; split; auto; [now apply Z.eqb_eq|now apply Z.eqb_eq].
  Qed.

  Lemma local_read s0 a : same s0 ->
    forall l seen s1, (forall c, In c l -> In c online) ->
    (forall c, In c seen -> In c online /\ cache_get env s0 a c = None) -> (me_cache env = false -> seen = []) ->
    ms_hw s1 = ms_hw s0 -> ms_faults s1 = [] ->
    (forall x, In x online -> cache_get env s1 a x = if sees a seen x then Some (ms_hw s0 a (dom a x)) else cache_get env s0 a x) ->
    read_cpus env a l (sc a) s1 =
    (adding a (fun c => ms_hw s0 a (dom a c)) (need s0 a l seen) ;; ret (map (fun c => (c, held0 s0 a c)) l)) s1.
  Proof.
    intros HS. induction l as [|c t IH]; intros seen s1 Hl Hseen Hoff Ehw Ef Hg; [reflexivity|].
    assert (Hc : In c online) by (apply Hl; now left).
    assert (Ht : forall x, In x t -> In x online) by (intros; apply Hl; now right).
    unfold read_cpus. cbn [mmap need map]. unfold mbind at 1. unfold read_one at 1. unfold mbind at 1. unfold gets at 1.
    rewrite (Hg c Hc). destruct (sees a seen c) eqn:E.
    - unfold ret at 1. unfold mbind at 1. fold (read_cpus env a t (sc a)). rewrite (IH seen s1 Ht Hseen Hoff Ehw Ef Hg).
      unfold mbind. destruct (adding _ _ _ s1) as [[[]|e] s2]; [|reflexivity]. unfold ret. f_equal. f_equal. f_equal. f_equal.
      apply sees_in in E as (x & Hx & Ed). destruct (Hseen x Hx) as (Hxo & Hn). unfold held0.
      rewrite <- (HS a x c Hxo Hc Ed), Hn. reflexivity.
    - destruct (cache_get env s0 a c) as [v|] eqn:Ec.
      + unfold ret at 1. unfold mbind at 1. fold (read_cpus env a t (sc a)). rewrite (IH seen s1 Ht Hseen Hoff Ehw Ef Hg).
        unfold mbind. destruct (adding _ _ _ s1) as [[[]|e] s2]; [|reflexivity]. unfold ret, held0. now rewrite Ec.
      + assert (Eh : hw_read env a c s1 = (Ok (ms_hw s0 a (dom a c)), s1)).
        { unfold hw_read, mbind. rewrite (io_free _ Ef). unfold gets. now rewrite Ehw. }
        unfold mbind at 1. rewrite Eh. unfold mbind at 1. unfold adding. cbn [mfor]. unfold mbind at 2. unfold mbind at 2.
        destruct (add_run a c (ms_hw s0 a (dom a c)) s1 Hc) as (s2 & E2 & C2 & F2 & G2). rewrite E2. unfold ret at 1.
        fold (adding a (fun c => ms_hw s0 a (dom a c)) (need s0 a t (if me_cache env then c :: seen else seen))).
        unfold mbind at 1. fold (read_cpus env a t (sc a)).
        rewrite (IH (if me_cache env then c :: seen else seen) s2 Ht).
        * unfold mbind. destruct (adding _ _ _ s2) as [[[]|e] s3]; [|reflexivity]. unfold ret, held0. now rewrite Ec.
        * destruct (me_cache env); [|exact Hseen]. intros x [<- |Hx]; [now split|now apply Hseen].
        * intros H. rewrite H. now apply Hoff.
        * now rewrite (co_hw _ _ C2).
        * congruence.
        * intros x Hx. rewrite (G2 a x Hx), Z.eqb_refl, andb_true_r, (Hg x Hx).
          destruct (me_cache env); cbn [andb].
          -- unfold sees. cbn [existsb]. fold (sees a seen x). rewrite (Z.eqb_sym (dom a c)).
             destruct (Z.eqb_spec (dom a x) (dom a c)) as [Ed|_]; cbn [orb]; [now rewrite Ed|reflexivity].
          -- reflexivity.
  Qed.

  Lemma plan_need s a : same s -> forall l dont seen, NoDup l -> (forall c, In c l -> In c online) ->
    (forall x, In x l -> inb x dont = sees a seen x) -> plan env s a (sc a) l dont = Ok (need s a l seen).
  Proof.
    intros HS. induction l as [|c t IH]; intros dont seen Hn Hl Hd; [reflexivity|]. inversion Hn as [|? ? Hc Hn']; subst.
    assert (Ht : forall x, In x t -> In x online) by (intros; apply Hl; now right).
    assert (Hd' : forall x, In x t -> inb x dont = sees a seen x) by (intros; apply Hd; now right).
    cbn [plan need]. rewrite (Hd c (or_introl eq_refl)). destruct (sees a seen c); [now apply IH|].
    destruct (cache_get env s a c); [now apply IH|]. destruct (me_cache env) eqn:Em.
    - destruct (sibs_right env Hwf a c (sc a) (Hsc a) (Hl c (or_introl eq_refl))) as (sb & E & Hsb).
      destruct (Hsc a) as (_ & Hm & _).
      destruct (siblings_spec_l ci c (sc a) Hwf Hm (Hl c (or_introl eq_refl))) as (sb' & E' & HSS & _).
      assert (sb' = sb) as -> by congruence. rewrite E. cbn [rbind].
      rewrite (IH (filter (fun x => negb (x =? c)) sb ++ dont) (c :: seen) Hn' Ht).
      + rewrite filter_one; [reflexivity|now apply SS_nodup|]. apply Hsb. split; [apply Hl; now left|reflexivity].
      + intros x Hx. assert (Hxc : x <> c) by (intros ->; contradiction).
        unfold inb. rewrite existsb_app. fold (inb x dont). unfold sees. cbn [existsb]. fold (sees a seen x). rewrite (Hd' x Hx). f_equal.
        destruct (Z.eqb_spec (dom a c) (dom a x)) as [Ed|Ed].
        * apply existsb_exists. exists x. split; [|apply Z.eqb_refl]. apply filter_In. split; [apply Hsb; split; [now apply Ht|congruence]|lia].
        * destruct (existsb _ _) eqn:Ee; [|reflexivity]. apply existsb_exists in Ee as (y & Hy & Eq). apply Z.eqb_eq in Eq. subst y.
          apply filter_In in Hy as (Hy & _). apply Hsb in Hy. destruct Hy. congruence.
    - now rewrite (IH dont seen Hn' Ht Hd').
  Qed.

  Lemma need_in s a l : forall seen c, In c (need s a l seen) -> In c l /\ cache_get env s a c = None.
  Proof.
    induction l as [|x t IH]; intros seen c H; [destruct H|]. cbn [need] in H. destruct (sees a seen x).
    - destruct (IH _ _ H). split; [now right|assumption].
    - destruct (cache_get env s a x) eqn:E.
      + destruct (IH _ _ H). split; [now right|assumption].
      + destruct H as [<- |H]; [split; [now left|exact E]|]. destruct (IH _ _ H). split; [now right|assumption].
  Qed.

  Lemma need_covers s a l : forall seen c, In c l -> cache_get env s a c = None ->
    sees a seen c = true \/ sees a (need s a l seen) c = true.
  Proof.
    induction l as [|x t IH]; intros seen c H Hn; [destruct H|]. cbn [need]. destruct (sees a seen x) eqn:Ex.
    - destruct H as [<- |H]; [now left|now apply IH].
    - destruct (cache_get env s a x) as [v|] eqn:E.
      + destruct H as [<- |H]; [congruence|now apply IH].
      + unfold sees at 2. cbn [existsb]. destruct H as [<- |H]; [right; now rewrite Z.eqb_refl|].
        fold (sees a (need s a t (if me_cache env then x :: seen else seen)) c).
        destruct (IH (if me_cache env then x :: seen else seen) c H Hn) as [H1|H1]; [|right; now rewrite H1, orb_true_r].
        destruct (me_cache env); [|now left]. unfold sees in H1. cbn [existsb] in H1. fold (sees a seen c) in H1.
        destruct (dom a x =? dom a c); [now right|now left].
  Qed.

  Lemma need_all s a l : me_cache env = false -> need s a l [] = l.
  Proof.
    intros Em. assert (Hg : forall c, cache_get env s a c = None) by (intros; unfold cache_get; now rewrite Em).
    induction l as [|x t IH]; [reflexivity|]. cbn [need]. unfold sees. cbn [existsb]. now rewrite Hg, Em, IH.
  Qed.

  Lemma adding_run a f : forall ds s, (forall c, In c ds -> In c online) ->
    (forall c x, In c ds -> In x online -> dom a c = dom a x -> f c = f x) ->
    exists s', adding a f ds s = (Ok tt, s') /\ cache_only s s' /\ ms_faults s' = ms_faults s /\
      forall a' x, In x online -> cache_get env s' a' x =
        if me_cache env && (a' =? a) && sees a ds x then Some (f x) else cache_get env s a' x.
  Proof.
    induction ds as [|c t IH]; intros s Hl Hf.
    - exists s. split; [reflexivity|]. split; [apply cache_only_refl|]. split; [reflexivity|]. intros a' x _. unfold sees. cbn [existsb].
      now rewrite andb_false_r.
    - destruct (add_run a c (f c) s (Hl c (or_introl eq_refl))) as (s1 & E1 & C1 & F1 & G1).
      destruct (IH s1 (fun x H => Hl x (or_intror H)) (fun x y H => Hf x y (or_intror H))) as (s2 & E2 & C2 & F2 & G2).
      exists s2. split; [unfold adding; cbn [mfor]; unfold mbind; now rewrite E1|]. split; [eapply cache_only_trans; eauto|].
      split; [congruence|]. intros a' x Hx. rewrite (G2 a' x Hx), (G1 a' x Hx). unfold sees. cbn [existsb]. fold (sees a t x).
      destruct (me_cache env && (a' =? a)); cbn [andb]; [|reflexivity]. destruct (sees a t x); [now rewrite orb_true_r|]. rewrite orb_false_r.
      rewrite (Z.eqb_sym (dom a x)). destruct (Z.eqb_spec (dom a c) (dom a x)) as [Ed|]; [|reflexivity].
      f_equal. apply Hf; [now left|exact Hx|exact Ed].
  Qed.

  Lemma script_run a l s : ms_faults s = [] ->
    read_script env a l s = (Ok (concat (map (fun c => dec c ++ ","%char :: dec (ms_hw s a (dom a c)) ++ [nl]) l)), s).
  Proof.
    intros Hf. unfold read_script. unfold mbind at 1. rewrite (io_free _ Hf). unfold mbind at 1.
    assert (E : forall l, mmap l (fun c => let! v := hw_read env a c in ret (dec c ++ ","%char :: dec v ++ [nl])) s =
                (Ok (map (fun c => dec c ++ ","%char :: dec (ms_hw s a (dom a c)) ++ [nl]) l), s)).
    { clear l. induction l as [|c l IH]; [reflexivity|]. cbn [mmap map]. unfold mbind at 1. unfold mbind at 1.
      unfold hw_read at 1. unfold mbind at 1. rewrite (io_free _ Hf). unfold gets, ret at 1. unfold mbind at 1. rewrite IH. reflexivity. }
    rewrite E. reflexivity.
  Qed.

  Lemma mmap_pure {A B} (g : A -> B) (h : A -> M mstate B) s : forall l,
    (forall x, In x l -> h x s = (Ok (g x), s)) -> mmap l h s = (Ok (map g l), s).
  Proof.
    induction l as [|x l IH]; intros H; [reflexivity|]. cbn [mmap map]. unfold mbind at 1. rewrite (H x (or_introl eq_refl)).
    unfold mbind. rewrite IH; [reflexivity|]. intros; apply H; now right.
  Qed.

  (** Reading on the remote host gives the same result, and leaves the same state. *)
  Lemma remote_read s a l : same s -> ms_faults s = [] -> NoDup l -> (forall c, In c l -> In c online) ->
    read_remote env a l (sc a) s = read_cpus env a l (sc a) s.
  Proof.
    intros HS Hf Hn Hl.
    rewrite (local_read s a HS l [] s Hl); [|intros ? []|reflexivity|reflexivity|exact Hf|reflexivity].
    assert (Hno : forall c, In c (need s a l []) -> In c online) by (intros c H; apply Hl; now apply need_in in H).
    set (f := fun c => ms_hw s a (dom a c)).
    destruct (adding_run a f (need s a l []) s Hno) as (s2 & E2 & C2 & F2 & G2).
    { intros c x _ _ Ed. unfold f. now rewrite Ed. }
    assert (ER : (adding a f (need s a l []) ;; ret (map (fun c => (c, held0 s a c)) l)) s =
                 (Ok (map (fun c => (c, held0 s a c)) l), s2)) by (unfold mbind; now rewrite E2).
    rewrite ER. clear ER.
    unfold read_remote. unfold mbind at 1. unfold gets at 1.
    rewrite (plan_need s a HS l [] [] Hn Hl) by reflexivity. unfold mbind at 1. unfold lift at 1.
    assert (Hcov : forall c, In c l -> cache_get env s a c = None -> me_cache env && sees a (need s a l []) c = true \/ In c (need s a l [])).
    { intros c Hc Hg. destruct (me_cache env) eqn:Em; [|right; now rewrite (need_all s a l Em)].
      left. destruct (need_covers s a l [] c Hc Hg) as [H|H]; [discriminate|exact H]. }
    assert (Hval : forall c, In c l -> In c (need s a l []) \/ cache_get env s2 a c = Some (held0 s a c)).
    { intros c Hc. rewrite (G2 a c (Hl c Hc)), Z.eqb_refl, andb_true_r. unfold held0. destruct (cache_get env s a c) as [v|] eqn:Ec.
      - right. destruct (me_cache env && sees a (need s a l []) c) eqn:Es; [|reflexivity]. exfalso.
        apply andb_prop in Es as (_ & Es). apply sees_in in Es as (x & Hx & Ed).
        destruct (need_in _ _ _ _ _ Hx) as (Hxl & Hxn). rewrite (HS a x c (Hl x Hxl) (Hl c Hc) Ed) in Hxn. congruence.
      - destruct (Hcov c Hc Ec) as [H|H]; [right; now rewrite H|now left]. }
    destruct (need s a l []) as [|n0 nr] eqn:En.
    - cbn in E2. unfold adding in E2. cbn [mfor] in E2. injection E2 as <-.
      apply (mmap_pure (fun c => (c, held0 s a c))). intros c Hc. unfold from_cache, mbind, gets.
      destruct (Hval c Hc) as [[]|H]. now rewrite H.
    - rewrite <- En in *. unfold mbind at 1. rewrite (script_run a _ s Hf). unfold mbind at 1. fold f. rewrite script_lines.
      change (map (fun c => pair_line c (ms_hw s a (dom a c)))) with (map (fun c => pair_line c (f c))).
      rewrite take_lines_run. unfold mbind at 1. fold (adding a f (need s a l [])). rewrite E2. unfold ret at 1.
      apply (mmap_pure (fun c => (c, held0 s a c))). intros c Hc. rewrite (dget_fold f). cbn [dget].
      destruct (inb c (need s a l [])) eqn:Ei.
      + apply inb_In in Ei. destruct (need_in _ _ _ _ _ Ei) as (_ & Hg). unfold held0. rewrite Hg. reflexivity.
      + destruct (Hval c Hc) as [H|H]; [apply inb_In in H; congruence|]. unfold from_cache, mbind, gets. now rewrite H.
  Qed.

  Lemma r_read_cpus_same s a l : same s -> ms_faults s = [] -> NoDup l -> (forall c, In c l -> In c online) ->
    r_read_cpus env a l (sc a) s = read_cpus env a l (sc a) s.
  Proof. intros. unfold r_read_cpus. destruct (1 <? length l)%nat; [now apply remote_read|reflexivity]. Qed.
End Reads.
