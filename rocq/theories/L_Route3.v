(** Lemmas about what stands behind the properties (C73): setting frequencies. *)
From Coq Require Import Ascii String Sorting.Sorted Lia ZifyBool.
From Verif Require Import Base M_Text M_CPUInfo M_Props M_PStates M_CFreq M_Route S_Route L_Base L_Text L_PStates L_Route L_Route2.
Open Scope list_scope.
Open Scope Z_scope.

Lemma first_num_ok {K} (g : gen (K * option dval)) n : first_num g = Ok n -> exists c l e, g = ((c, Some (DNum n)) :: l, e).
Proof.
  unfold first_num, first_val. destruct g as [[|[c v] l] e]; [destruct e; discriminate|].
  destruct v as [[]|]; try discriminate. intros [= ->]. eauto.
Qed.
Lemma first_num_head {K} (c : K) n l e : first_num ((c, Some (DNum n)) :: l, e) = Ok n.
Proof. reflexivity. Qed.
Lemma first_num_refused {K} (g : gen (K * option dval)) : first_num g = Exn ENotSupported -> g = ([], Some ENotSupported).
Proof.
  unfold first_num, first_val. destruct g as [[|[c v] l] e]; [destruct e as [x|]; [intros [= ->]; reflexivity|discriminate]|].
  destruct v as [[]|]; discriminate.
Qed.

Lemma mn_first {K} (g : str -> gen (K * option dval)) m ms n : first_num (mn_loop g (m :: ms)) = Ok n ->
  (exists c l e, g m = ((c, Some (DNum n)) :: l, e)) \/ g m = ([], Some ENotSupported) /\ first_num (mn_loop g ms) = Ok n.
Proof.
  cbn [mn_loop]. destruct (g m) as [l e] eqn:E. intros H. destruct l as [|x l].
  - destruct e as [[]|]; try (apply first_num_ok in H as (? & ? & ? & ?); discriminate). right. split; [reflexivity|exact H].
  - left. destruct e as [[]|]; apply first_num_ok in H as (c & l' & e' & H); injection H as -> -> <-; eauto.
Qed.
Lemma mn_none {K} (g : str -> gen (K * option dval)) n : first_num (mn_loop g []) = Ok n -> False.
Proof. discriminate. Qed.
Lemma mn_head {K} (g : str -> gen (K * option dval)) m ms c n l e : g m = ((c, Some (DNum n)) :: l, e) -> first_num (mn_loop g (m :: ms)) = Ok n.
Proof. intros H. cbn [mn_loop]. rewrite H. destruct e as [[]|]; reflexivity. Qed.
Lemma mn_one_refused {A} (g : str -> gen A) m : mn_loop g [m] = ([], Some ENotSupported) -> g m = ([], Some ENotSupported).
Proof. cbn [mn_loop]. destruct (g m) as [[|x l] [[]|]]; cbn; congruence. Qed.

Lemma gmap_head {A B} (f : A -> res B) l e y r e' : gmap_l f l e = (y :: r, e') -> exists x t, l = x :: t /\ f x = Ok y.
Proof.
  destruct l as [|x t]; cbn [gmap_l]; [discriminate|]. destruct (f x) as [y'|x'] eqn:E; [|discriminate].
  destruct (gmap_l f t e). intros [= -> _ _]. eauto.
Qed.
Lemma gzip_head {A B} (a : gen A) (b : gen B) x y r e : gzip a b = ((x, y) :: r, e) -> exists ta tb, fst a = x :: ta /\ fst b = y :: tb.
Proof.
  unfold gzip. destruct a as [[|x' a] ea], b as [[|y' b] eb]; cbn [fst snd gzip_l]; try discriminate.
  destruct (gzip_l a ea b eb). intros [= -> -> _ _]. eauto.
Qed.

Section Writing.
  Context {St : Type}.
  Variable lo : lower St.

  Lemma again_pure p ms c st : exists r, reads (fun st => first_num (pstates_again lo p ms [c] st)) st = (r, st).
  Proof. eexists. reflexivity. Qed.

  Lemma limit_tells (b : bool) m c st n : m = "sysfs"%string \/ m = "msr"%string ->
    first_num (pstates_again lo (s2l (if b then "min_freq_limit" else "max_freq_limit")) (Some [s2l m]) [c] st) = Ok n <->
    tells lo CpufreqSysfs (if b then "get_min_freq_limit" else "get_max_freq_limit") c st n.
  Proof.
    intros Hm.
    assert (R : pstates_again lo (s2l (if b then "min_freq_limit" else "max_freq_limit")) (Some [s2l m]) [c] st =
      mn_loop (fun _ => lo_read lo CpufreqSysfs (s2l (if b then "get_min_freq_limit" else "get_max_freq_limit")) [] [c] st) [s2l m]).
    { destruct b, Hm as [-> | ->]; reflexivity. }
    rewrite R. unfold tells, answers. cbn [map]. split.
    - intros H. apply mn_first in H as [H|(_ & H)]; [exact H|discriminate].
    - intros (c' & l & e & H). exact (mn_head _ _ _ _ _ _ _ H).
  Qed.

  Lemma cur_tells (b : bool) m o c st n : (m, o) = ("sysfs"%string, CpufreqSysfs) \/ (m, o) = ("msr"%string, CpufreqMsr) ->
    first_num (pstates_again lo (s2l (if b then "min_freq" else "max_freq")) (Some [s2l m]) [c] st) = Ok n <->
    tells lo o (if b then "get_min_freq" else "get_max_freq") c st n.
  Proof.
    intros Hm.
    assert (R : pstates_again lo (s2l (if b then "min_freq" else "max_freq")) (Some [s2l m]) [c] st =
      mn_loop (fun m' => pstates_read lo 1 (s2l (if b then "min_freq" else "max_freq")) [c] m' st) [s2l m]).
    { destruct b; reflexivity. }
    assert (R' : pstates_read lo 1 (s2l (if b then "min_freq" else "max_freq")) [c] (s2l m) st =
      lo_read lo o (s2l (if b then "get_min_freq" else "get_max_freq")) [] [c] st).
    { destruct b, Hm as [E|E]; injection E as -> ->; reflexivity. }
    rewrite R. unfold tells, answers. cbn [map]. rewrite <- R'. split.
    - intros H. apply mn_first in H as [H|(_ & H)]; [exact H|discriminate].
    - intros (c' & l & e & H). exact (mn_head _ _ _ _ _ _ _ H).
  Qed.

  Lemma base_inner n c st x : first_num (inner lo n (s2l "base_freq") None [c] st) = Ok x -> tells_base lo c st x.
  Proof.
    unfold inner. change (mnames_of pstates_table (s2l "base_freq")) with (Ok [s2l "sysfs"; s2l "msr"; s2l "cppc"]). cbv iota.
    unfold tells_base, tells, refuses_cpus, answers. cbn [map]. intros H.
    apply mn_first in H as [H|(R1 & H)]; [left; destruct n; exact H|]. right. split; [destruct n; exact R1|].
    apply mn_first in H as [H|(R2 & H)]; [left; destruct n; exact H|]. right. split; [destruct n; exact R2|].
    apply mn_first in H as [H|(_ & H)]; [destruct n; exact H|discriminate].
  Qed.

  Lemma pm_tells c st x : first_num (pstates_again lo (s2l "min_oper_freq") None [c] st) = Ok x -> tells_min_oper lo c st x.
  Proof.
    unfold pstates_again. change (mnames_of pstates_table (s2l "min_oper_freq")) with (Ok [s2l "msr"; s2l "cppc"]). cbv iota.
    unfold tells_min_oper, tells at 1 2, refuses_cpus, answers. cbn [map]. intros H.
    apply mn_first in H as [H|(R1 & H)]; [left; exact H|]. right. split; [exact R1|].
    apply mn_first in H as [H|(_ & H)]; [|discriminate]. destruct H as (c' & l & e & H).
    rewrite (cppc_cases lo 0 "min_oper_freq" "get_min_freq_limit" "get_min_perf_limit" [c] st (or_intror (or_introl eq_refl))) in H.
    destruct (lo_read lo CpufreqCppc (s2l "get_min_freq_limit") [] [c] st) as [l0 e0] eqn:E0.
    destruct l0 as [|y l0].
    2:{ left. assert (Y : y = (c', Some (DNum x))).
        { destruct e0 as [[]|]; try (injection H as -> _ _; reflexivity). destruct (gmap _ _). injection H as -> _ _. reflexivity. }
        subst y. eauto. }
    destruct e0 as [[]|]; try discriminate. right. split; [reflexivity|].
    destruct (gmap scaled _) as [l1 e1] eqn:E1. cbn [app] in H. injection H as -> ->. unfold gmap in E1.
    apply gmap_head in E1 as ([[[c1 v1] [c2 v2]] [c3 v3]] & t & Et & Es).
    destruct (gzip (gzip (inner lo 0 (s2l "base_freq") None [c] st) (lo_read lo CpufreqCppc (s2l "get_base_perf") [] [c] st))
      (lo_read lo CpufreqCppc (s2l "get_min_perf_limit") [] [c] st)) as [z ez] eqn:Ez. cbn [fst] in Et. subst z.
    apply gzip_head in Ez as (ta & tb & Ea & Eb).
    destruct (gzip (inner lo 0 (s2l "base_freq") None [c] st) (lo_read lo CpufreqCppc (s2l "get_base_perf") [] [c] st)) as [z2 ez2] eqn:Ez2.
    cbn [fst] in Ea. subst z2. apply gzip_head in Ez2 as (tc & td & Ec & Ed).
    cbn [scaled] in Es. destruct v1 as [[base| | | | |]|]; try discriminate. destruct v2 as [[nominal| | | | |]|]; try discriminate.
    destruct v3 as [[perf| | | | |]|]; try discriminate. destruct (Z.eqb_spec nominal 0) as [|Nz]; [discriminate|]. injection Es as -> <-.
    exists base, nominal, perf. split; [|split; [|split; [|split; [exact Nz|reflexivity]]]].
    - apply (base_inner 0). destruct (inner lo 0 (s2l "base_freq") None [c] st) as [l2 e2]. cbn [fst] in Ec. subst l2. reflexivity.
    - unfold tells, answers. cbn [map]. destruct (lo_read lo CpufreqCppc (s2l "get_base_perf") [] [c] st) as [l2 e2]. cbn [fst] in Ed. subst l2. eauto.
    - unfold tells, answers. cbn [map]. destruct (lo_read lo CpufreqCppc (s2l "get_min_perf_limit") [] [c] st) as [l2 e2]. cbn [fst] in Eb. subst l2. eauto.
  Qed.

  Lemma eff_again c st : pstates_again lo (s2l "max_eff_freq") None [c] st =
    mn_loop (fun _ => lo_read lo CpufreqMsr (s2l "get_max_eff_freq") [] [c] st) [s2l "msr"].
  Proof. reflexivity. Qed.

  Section Cpu.
    Variables (p m : string) (o : obj) (is_min : bool) (setter : string).
    Hypothesis Hp : In (p, m, o, is_min, setter) freq_sinks.
    Let io := cpu_io lo (s2l p) (s2l m).

    Lemma mech : (m, o) = ("sysfs"%string, CpufreqSysfs) \/ (m, o) = ("msr"%string, CpufreqMsr).
    Proof. cbn in Hp. repeat (destruct Hp as [E|Hp']; [injection E as <- <- <- <- <-; tauto|clear Hp; rename Hp' into Hp]). destruct Hp. Qed.
    Lemma mech' : m = "sysfs"%string \/ m = "msr"%string.
    Proof. destruct mech as [E|E]; injection E as -> _; tauto. Qed.

    Lemma io_set f ks : f_set io is_min f ks = lo_write lo o (s2l setter) [] (DNum f) ks.
    Proof. unfold io. cbn in Hp. repeat (destruct Hp as [E|Hp']; [injection E as <- <- <- <- <-; reflexivity|clear Hp; rename Hp' into Hp]). destruct Hp. Qed.

    Lemma fits_allowed c st f : fits_in io st is_min c f <-> allowed lo o is_min c st f.
    Proof.
      unfold fits_in, allowed, io, cpu_io, reads. cbn [f_limit f_cur]. split; intros (l & h & cur & A & B & C & D & E); exists l, h, cur.
      - injection A as A. injection B as B. injection D as D.
        apply (limit_tells true m c st l mech') in A. apply (limit_tells false m c st h mech') in B.
        apply (cur_tells (negb is_min) m o c st cur mech) in D. destruct is_min; repeat split; try assumption; lia.
      - apply (limit_tells true m c st l mech') in A. apply (limit_tells false m c st h mech') in B.
        assert (D' : tells lo o (if negb is_min then "get_min_freq" else "get_max_freq") c st cur) by (destruct is_min; exact D).
        apply (cur_tells (negb is_min) m o c st cur mech) in D'.
        split; [f_equal; exact A|]. split; [f_equal; exact B|]. split; [exact C|]. split; [f_equal; exact D'|exact E].
    Qed.

    Lemma special_is t v : fval_of (DText t) = Ok v ->
      (t = s2l "min" /\ v = VMin) \/ (t = s2l "max" /\ v = VMax) \/
      (exists s, t = s2l s /\ In s ["base"; "hfm"; "P1"]%string /\ v = VSpecial SBase) \/
      (exists s, t = s2l s /\ In s ["eff"; "lfm"; "Pn"]%string /\ v = VSpecial SEff) \/ (t = s2l "Pm" /\ v = VSpecial SPm).
    Proof.
      unfold fval_of, is_in. cbn [existsb].
      destruct (is t "min") eqn:E1; [apply is_true in E1; intros [= <-]; tauto|].
      destruct (is t "max") eqn:E2; [apply is_true in E2; intros [= <-]; tauto|].
      destruct (is t "base") eqn:E3; [apply is_true in E3; intros [= <-]; right; right; left; exists "base"%string; cbn; tauto|].
      destruct (is t "hfm") eqn:E4; [apply is_true in E4; intros [= <-]; right; right; left; exists "hfm"%string; cbn; tauto|].
      destruct (is t "P1") eqn:E5; [apply is_true in E5; intros [= <-]; right; right; left; exists "P1"%string; cbn; tauto|].
      destruct (is t "eff") eqn:E6; [apply is_true in E6; intros [= <-]; right; right; right; left; exists "eff"%string; cbn; tauto|].
      destruct (is t "lfm") eqn:E7; [apply is_true in E7; intros [= <-]; right; right; right; left; exists "lfm"%string; cbn; tauto|].
      destruct (is t "Pn") eqn:E8; [apply is_true in E8; intros [= <-]; right; right; right; left; exists "Pn"%string; cbn; tauto|].
      destruct (is t "Pm") eqn:E9; [apply is_true in E9; intros [= <-]; tauto|]. discriminate.
    Qed.

    Lemma meaning cpus c st d v f : fval_of d = Ok v ->
      is_for io st v c f \/ v = VSpecial SEff /\ is_for io st VMin c f /\
        (exists c0 rest, cpus = c0 :: rest /\ f_special io SEff c0 st = (Exn ENotSupported, st)) ->
      stands_for lo cpus c st d f.
    Proof.
      intros Ev H. destruct d as [n|t| | | |]; try discriminate.
      - injection Ev as <-. destruct H as [H|(X & _)]; [|discriminate]. cbn in H. subst f. constructor.
      - assert (Lim : forall b, f_limit io b c st = (Ok f, st) -> tells lo CpufreqSysfs (if b then "get_min_freq_limit" else "get_max_freq_limit") c st f).
        { intros b X. unfold io, cpu_io, reads in X. cbn [f_limit] in X. injection X as X. apply (limit_tells b m c st f mech'). exact X. }
        destruct (special_is t v Ev) as [(-> & ->)|[(-> & ->)|[(s & -> & Hs & ->)|[(s & -> & Hs & ->)|(-> & ->)]]]].
        + destruct H as [H|(X & _)]; [|discriminate]. apply sf_min. exact (Lim true H).
        + destruct H as [H|(X & _)]; [|discriminate]. apply sf_max. exact (Lim false H).
        + destruct H as [H|(X & _)]; [|discriminate]. apply sf_base; [exact Hs|]. cbn [is_for] in H. unfold io, cpu_io, reads in H. cbn [f_special] in H.
          injection H as H. apply (base_inner 1). exact H.
        + destruct H as [H|(_ & H & c0 & rest & -> & R)].
          * apply sf_eff; [exact Hs|]. cbn [is_for] in H. unfold io, cpu_io, reads in H. cbn [f_special] in H. injection H as H.
            rewrite eff_again in H. apply mn_first in H as [H|(_ & H)]; [exact H|discriminate].
          * apply (sf_eff_min _ _ _ _ s f c0 rest Hs eq_refl); [|exact (Lim true H)].
            unfold io, cpu_io, reads in R. cbn [f_special] in R. injection R as R. apply first_num_refused in R. rewrite eff_again in R.
            exact (mn_one_refused _ _ R).
        + destruct H as [H|(X & _)]; [|discriminate]. apply sf_pm. cbn [is_for] in H. unfold io, cpu_io, reads in H. cbn [f_special] in H.
          injection H as H. apply pm_tells. exact H.
    Qed.

    Lemma set_is d cpus : pstates_set lo (s2l p) d cpus (s2l m) = set_cpu_freq lo (s2l p) d cpus (s2l m).
    Proof. cbn in Hp. repeat (destruct Hp as [E|Hp']; [injection E as <- <- <- <- <-; reflexivity|clear Hp; rename Hp' into Hp]). destruct Hp. Qed.
    Lemma is_min_is : has_sub (s2l p) (s2l "min") = is_min.
    Proof. cbn in Hp. repeat (destruct Hp as [E|Hp']; [injection E as <- <- <- <- <-; reflexivity|clear Hp; rename Hp' into Hp]). destruct Hp. Qed.

    Lemma io_pure : (forall b k w, exists r, f_limit io b k w = (r, w)) /\ (forall b k w, exists r, f_cur io b k w = (r, w)) /\
      (forall sp k w, exists r, f_special io sp k w = (r, w)).
    Proof. repeat split; intros; eexists; reflexivity. Qed.

    Lemma written_ext {K} (w1 w2 : Z -> list K -> M St unit) g st st' : (forall f ks, w1 f ks = w2 f ks) -> written w1 g st st' -> written w2 g st st'.
    Proof. intros H. induction 1; [constructor|]. econstructor; [rewrite <- H; eassumption|assumption]. Qed.

    Lemma cpu_freq_set d cpus st st' : pstates_set lo (s2l p) d cpus (s2l m) st = (Ok tt, st') ->
      exists want groups, map fst want = cpus /\
        (forall c f, In (c, f) want -> stands_for lo cpus c st d f /\ allowed lo o is_min c st f) /\
        grouped want groups /\ written (fun f ks => lo_write lo o (s2l setter) [] (DNum f) ks) groups st st'.
    Proof.
      rewrite set_is. unfold set_cpu_freq, mbind, lift. destruct (fval_of d) as [v|e] eqn:Ev; [|discriminate]. rewrite is_min_is. fold io.
      intros E. destruct io_pure as (P1 & P2 & P3). destruct (set_ok io P1 P2 P3 _ _ _ _ _ E) as (want & groups & Hm & Hg & Hw & Hi).
      exists want, groups. split; [exact Hm|]. split; [|split; [exact Hg|exact (written_ext _ _ _ _ _ io_set Hw)]].
      intros c f Hc. destruct (Hi c f Hc) as (F & I). split; [exact (meaning cpus c st d v f Ev I)|now apply fits_allowed].
    Qed.

    Lemma cpu_freq_refused n cpus st c : In c cpus -> ~ allowed lo o is_min c st n -> exists e, pstates_set lo (s2l p) (DNum n) cpus (s2l m) st = (Exn e, st).
    Proof.
      intros Hc Na. rewrite set_is. unfold set_cpu_freq, mbind, lift. cbn [fval_of]. rewrite is_min_is. fold io.
      destruct io_pure as (P1 & P2 & P3). apply (set_refused_num io P1 P2 P3 is_min n cpus st c Hc). intros F. apply Na. now apply fits_allowed.
    Qed.

    Lemma cpu_freq_succeeds n cpus st st' : cpus <> [] -> (forall c, In c cpus -> allowed lo o is_min c st n) ->
      lo_write lo o (s2l setter) [] (DNum n) cpus st = (Ok tt, st') -> pstates_set lo (s2l p) (DNum n) cpus (s2l m) st = (Ok tt, st').
    Proof.
      intros Ne H W. rewrite set_is. unfold set_cpu_freq, mbind, lift. cbn [fval_of]. rewrite is_min_is. fold io.
      destruct cpus as [|c rest]; [congruence|]. apply set_num.
      - intros c' Hc. apply fits_allowed. now apply H.
      - rewrite io_set. exact W.
    Qed.
  End Cpu.

  Section Die.
    Variables (p : string) (is_min : bool) (setter : string).
    Hypothesis Hp : In (p, is_min, setter) uncore_sinks.
    Let io := die_io lo (s2l p).

    Lemma die_tells q g d st n : In (q, g) [("min_uncore_freq_limit", "get_min_freq_limit_dies"); ("max_uncore_freq_limit", "get_max_freq_limit_dies");
        ("min_uncore_freq", "get_min_freq_dies"); ("max_uncore_freq", "get_max_freq_dies")]%string ->
      first_num (uncore_again lo (s2l q) d st) = Ok n <-> tells_die lo g d st n.
    Proof.
      intros H. unfold uncore_again, tells_die.
      assert (R : get_uncore_freq_dies lo (s2l q) [d] st = lo_read_dies lo (s2l g) [d] st).
      { repeat (destruct H as [H|H]; [injection H as <- <-; reflexivity|]). destruct H. }
      rewrite <- R. split.
      - intros E. apply mn_first in E as [E|(_ & E)]; [exact E|discriminate].
      - intros (c' & l & e & E). exact (mn_head (fun _ => get_uncore_freq_dies lo (s2l q) [d] st) _ _ _ _ _ _ E).
    Qed.

    Lemma die_io_set f ks : f_set io is_min f ks = lo_write_dies lo (s2l setter) (DNum f) ks.
    Proof. unfold io. destruct Hp as [E|[E|[]]]; injection E as <- <- <-; reflexivity. Qed.
    Lemma die_is_min : has_sub (s2l p) (s2l "min") = is_min.
    Proof. destruct Hp as [E|[E|[]]]; injection E as <- <- <-; reflexivity. Qed.
    Lemma die_set_is d dies : pstates_set_dies lo (s2l p) d dies =
      Some (let! v := lift (uval_of d) in set_freq (die_io lo (s2l p)) (has_sub (s2l p) (s2l "min")) v dies).
    Proof. destruct Hp as [E|[E|[]]]; injection E as <- <- <-; reflexivity. Qed.

    Lemma die_pure : (forall b k w, exists r, f_limit io b k w = (r, w)) /\ (forall b k w, exists r, f_cur io b k w = (r, w)) /\
      (forall sp k w, exists r, f_special io sp k w = (r, w)).
    Proof.
      repeat split; intros; try (eexists; reflexivity). unfold io, die_io. cbn [f_special]. destruct sp; try (eexists; reflexivity).
      unfold mbind, reads. destruct (get_bclk_die lo w); [|eexists; reflexivity].
      destruct (first_num (uncore_again lo (s2l "min_uncore_freq_limit") k w)); [|eexists; reflexivity].
      destruct (first_num (uncore_again lo (s2l "max_uncore_freq_limit") k w)); eexists; reflexivity.
    Qed.

    Lemma die_limit (b : bool) d st n : f_limit io b d st = (Ok n, st) <-> tells_die lo (if b then "get_min_freq_limit_dies" else "get_max_freq_limit_dies") d st n.
    Proof.
      unfold io, die_io, reads. cbn [f_limit].
      rewrite <- (die_tells (if b then "min_uncore_freq_limit" else "max_uncore_freq_limit") _ d st n) by (destruct b; cbn; tauto).
      split; [intros [= H]; exact H|intros H; f_equal; exact H].
    Qed.
    Lemma die_cur (b : bool) d st n : f_cur io b d st = (Ok n, st) <-> tells_die lo (if b then "get_min_freq_dies" else "get_max_freq_dies") d st n.
    Proof.
      unfold io, die_io, reads. cbn [f_cur].
      rewrite <- (die_tells (if b then "min_uncore_freq" else "max_uncore_freq") _ d st n) by (destruct b; cbn; tauto).
      split; [intros [= H]; exact H|intros H; f_equal; exact H].
    Qed.

    Lemma die_allowed d st f : fits_in io st is_min d f <-> allowed_die lo is_min d st f.
    Proof.
      unfold fits_in, allowed_die. split; intros (l & h & cur & A & B & C & D & E); exists l, h, cur.
      - apply (proj1 (die_limit true _ _ _)) in A. apply (proj1 (die_limit false _ _ _)) in B. apply (proj1 (die_cur _ _ _ _)) in D.
        destruct is_min; repeat split; try assumption; lia.
      - apply (proj2 (die_limit true _ _ _)) in A. apply (proj2 (die_limit false _ _ _)) in B.
        split; [exact A|]. split; [exact B|]. split; [exact C|]. split; [|exact E]. apply die_cur. destruct is_min; exact D.
    Qed.

    Lemma middle_near l h : exists k, middle 100000000 l h = 100000000 * k /\ Z.abs (2 * middle 100000000 l h - (l + h)) <= 100000000.
    Proof.
      unfold middle. change (2 * 100000000) with 200000000.
      pose proof (Z.div_mod (l + h) 200000000 ltac:(lia)) as D. pose proof (Z.mod_pos_bound (l + h) 200000000 ltac:(lia)) as B.
      set (q := (l + h) / 200000000) in *. set (r := (l + h) mod 200000000) in *.
      eexists. split; [reflexivity|]. destruct (Z.ltb_spec r 100000000); [lia|]. destruct (Z.ltb_spec 100000000 r); [lia|].
      destruct (Z.even q); lia.
    Qed.

    Lemma die_meaning x st d v f : uval_of d = Ok v -> v <> VSpecial SEff /\ (is_for io st v x f -> stands_for_die lo x st d f).
    Proof.
      unfold uval_of. destruct d as [n|t| | | |]; try discriminate.
      - intros [= <-]. split; [discriminate|]. cbn. intros ->. constructor.
      - destruct (is t "min") eqn:E1; [apply is_true in E1; subst t; intros [= <-]; split; [discriminate|];
          intros H; apply sd_min; exact (proj1 (die_limit true _ _ _) H)|].
        destruct (is t "max") eqn:E2; [apply is_true in E2; subst t; intros [= <-]; split; [discriminate|];
          intros H; apply sd_max; exact (proj1 (die_limit false _ _ _) H)|].
        destruct (is t "mdl") eqn:E3; [|discriminate]. apply is_true in E3. subst t. intros [= <-]. split; [discriminate|].
        cbn [is_for]. unfold io, die_io. cbn [f_special]. unfold mbind, reads.
        destruct (get_bclk_die lo st) as [b|e] eqn:Eb; [|discriminate].
        destruct (first_num (uncore_again lo (s2l "min_uncore_freq_limit") x st)) as [l|e] eqn:El; [|discriminate].
        destruct (first_num (uncore_again lo (s2l "max_uncore_freq_limit") x st)) as [h|e] eqn:Eh; [|discriminate].
        intros [= <-]. unfold get_bclk_die in Eb. destruct (lo_fsb lo st) as [[]|[]] eqn:Ef; try discriminate.
        destruct (lo_intel lo) eqn:Ei; [|discriminate]. injection Eb as <-.
        apply (die_tells "min_uncore_freq_limit" "get_min_freq_limit_dies") in El; [|cbn; tauto].
        apply (die_tells "max_uncore_freq_limit" "get_max_freq_limit_dies") in Eh; [|cbn; tauto].
        destruct (middle_near l h) as (k & Ek & Hk). exact (sd_mdl lo x st _ l h k El Eh Ef Ei Ek Hk).
    Qed.

    Lemma die_freq_set d dies st st' : (exists go, pstates_set_dies lo (s2l p) d dies = Some go /\ go st = (Ok tt, st')) ->
      exists want groups, map fst want = dies /\
        (forall x f, In (x, f) want -> stands_for_die lo x st d f /\ allowed_die lo is_min x st f) /\
        grouped want groups /\ written (fun f ks => lo_write_dies lo (s2l setter) (DNum f) ks) groups st st'.
    Proof.
      intros (go & Eg & E). rewrite die_set_is, die_is_min in Eg. fold io in Eg. injection Eg as <-. unfold mbind, lift in E.
      destruct (uval_of d) as [v|e] eqn:Ev; [|discriminate].
      destruct die_pure as (P1 & P2 & P3). destruct (set_ok io P1 P2 P3 _ _ _ _ _ E) as (want & groups & Hm & Hg & Hw & Hi).
      exists want, groups. split; [exact Hm|]. split; [|split; [exact Hg|exact (written_ext _ _ _ _ _ die_io_set Hw)]].
      intros c f Hc. destruct (Hi c f Hc) as (F & I). split; [|now apply die_allowed].
      destruct (die_meaning c st d v f Ev) as (Nv & G). destruct I as [I|(X & _)]; [exact (G I)|contradiction].
    Qed.

    Lemma die_freq_refused n dies st x : In x dies -> ~ allowed_die lo is_min x st n ->
      exists go e, pstates_set_dies lo (s2l p) (DNum n) dies = Some go /\ go st = (Exn e, st).
    Proof.
      intros Hx Na. rewrite die_set_is. rewrite die_is_min. fold io. destruct die_pure as (P1 & P2 & P3).
      destruct (set_refused_num io P1 P2 P3 is_min n dies st x Hx) as (e & E); [intros F; apply Na; now apply die_allowed|].
      eexists _, e. split; [reflexivity|]. exact E.
    Qed.

    Lemma die_freq_succeeds n dies st st' : dies <> [] -> (forall x, In x dies -> allowed_die lo is_min x st n) ->
      lo_write_dies lo (s2l setter) (DNum n) dies st = (Ok tt, st') ->
      exists go, pstates_set_dies lo (s2l p) (DNum n) dies = Some go /\ go st = (Ok tt, st').
    Proof.
      intros Ne H W. rewrite die_set_is. rewrite die_is_min. fold io. eexists. split; [reflexivity|].
      destruct dies as [|x rest]; [congruence|]. apply (set_num io is_min n x rest st st').
      - intros x' Hx. apply die_allowed. now apply H.
      - rewrite die_io_set. exact W.
    Qed.
  End Die.
End Writing.
