(** Lemmas about what stands behind the properties (C73): reading. *)
From Coq Require Import Ascii String Sorting.Sorted Lia ZifyBool.
From Verif Require Import Base M_Text M_CPUInfo M_Props M_PStates M_CFreq M_Route S_Route L_Base L_Text L_CFreq4.
Open Scope list_scope.
Open Scope Z_scope.

Lemma gmap_fst {A B} (f : A -> res B) l e : gmap f (l, e) = gmap_l f l e.
Proof. reflexivity. Qed.

Lemma gmap_total {A B} (f : A -> res B) (g : A -> B) l e : (forall x, In x l -> f x = Ok (g x)) -> gmap_l f l e = (map g l, e).
Proof.
  induction l as [|x l IH]; intros H; [reflexivity|]. cbn [gmap_l map]. rewrite (H x) by now left. rewrite IH; [reflexivity|].
  intros y Hy. apply H. now right.
Qed.

Lemma gzip_map {A B C} (f : A -> B) (g : A -> C) l : gzip (map f l, None) (map g l, None) = (map (fun x => (f x, g x)) l, None).
Proof. unfold gzip. cbn [fst snd]. induction l as [|x l IH]; [reflexivity|]. cbn [map gzip_l]. now rewrite IH. Qed.

Lemma is_true p s : is p s = true -> p = s2l s.
Proof. apply str_eqb_eq. Qed.
Lemma is_false p s : p <> s2l s -> is p s = false.
Proof. intros H. unfold is. destruct (str_eqb p (s2l s)) eqn:E; [|reflexivity]. apply str_eqb_eq in E. contradiction. Qed.

Ltac each H := repeat (destruct H as [H|H]; [injection H as <- <- <-|]); try destruct H.

Section Reading.
  Context {St : Type}.
  Variable lo : lower St.

  Lemma entry_gives o meth args key cpus st : keys_unique lo ->
    forall l0 e0, lo_read lo o (s2l meth) (map s2l args) cpus st = (l0, e0) ->
    exists l e, gmap (fun cv : Z * option dval => match snd cv with
                      | Some (DDict d) => match dget str_eqb d (s2l key) with Some v => Ok (fst cv, Some v) | None => Exn EKey end
                      | _ => Exn EValue
                      end) (l0, e0) = (l, e) /\ gives_all lo (Entry o meth args key) cpus st l e.
  Proof.
    intros U l0 e0 E. unfold gmap. cbn [fst snd gives_all].
    assert (G : forall l0, (forall c d, In (c, Some (DDict d)) l0 -> NoDup (map fst d)) -> exists l e,
      gmap_l (fun cv : Z * option dval => match snd cv with
                      | Some (DDict d) => match dget str_eqb d (s2l key) with Some v => Ok (fst cv, Some v) | None => Exn EKey end
                      | _ => Exn EValue
                      end) l0 e0 = (l, e) /\
      ((e = e0 /\ Forall2 (fun x y => fst x = fst y /\ exists d v, snd x = Some (DDict d) /\ In (s2l key, v) d /\ snd y = Some v) l0 l) \/
           exists pre x rest, l0 = pre ++ x :: rest /\
             Forall2 (fun x y => fst x = fst y /\ exists d v, snd x = Some (DDict d) /\ In (s2l key, v) d /\ snd y = Some v) pre l /\
             (forall d, snd x = Some (DDict d) -> ~ In (s2l key) (map fst d)) /\
             e = Some (match snd x with Some (DDict _) => EKey | _ => EValue end))).
    { clear E l0. induction l0 as [|[c x] l0 IH]; intros N; cbn [gmap_l].
      - exists [], e0. split; [reflexivity|]. left. split; [reflexivity|constructor].
      - destruct IH as (l & e & E & H); [intros c' d Hd; apply (N c' d); now right|]. cbn [snd fst].
        destruct x as [x|].
        2:{ exists [], (Some EValue). split; [reflexivity|]. right. exists [], (c, None), l0. cbn. repeat split; [constructor|discriminate]. }
        destruct x as [n|s|b|ns|ts|d]; try (exists [], (Some EValue); split; [reflexivity|]; right; eexists [], _, l0; cbn; repeat split; [constructor|discriminate]).
        destruct (dget str_eqb d (s2l key)) as [v|] eqn:Ed.
        + exists ((c, Some v) :: l), e. rewrite E. split; [reflexivity|].
          assert (P : fst (c, Some (DDict d)) = fst (c, Some v) /\ exists d' v', snd (c, Some (DDict d)) = Some (DDict d') /\ In (s2l key, v') d' /\ snd (c, Some v) = Some v').
          { split; [reflexivity|]. exists d, v. repeat split. apply (dget_In str_eqb str_eqb_spec) in Ed. exact Ed. }
          destruct H as [(-> & H)|(pre & y & rest & -> & H1 & H2 & H3)].
          * left. split; [reflexivity|]. constructor; assumption.
          * right. exists ((c, Some (DDict d)) :: pre), y, rest. repeat split; [constructor; assumption|assumption|assumption].
        + exists [], (Some EKey). split; [reflexivity|]. right. exists [], (c, Some (DDict d)), l0. cbn.
          repeat split; [constructor|]. intros d' Hd'. injection Hd' as <-.
          apply (dget_None str_eqb str_eqb_spec) in Ed. exact Ed. }
    destruct (G l0) as (l & e & E' & H).
    - intros c d Hd. exact (U _ _ _ _ _ _ _ _ _ E Hd).
    - exists l, e. split; [exact E'|]. exists l0, e0. split; [exact E|exact H].
  Qed.

  Lemma once_gives o meth cpus st l e :
    (match lo_get lo o (s2l meth) st with Ok v => (map (fun c : Z => (c, Some v)) cpus, None) | Exn e => raises e end) = (l, e) ->
    gives_all lo (Once o meth) cpus st l e.
  Proof.
    intros H. cbn. destruct (lo_get lo o (s2l meth) st) as [v|x]; injection H as <- <-.
    - left. now exists v.
    - right. now exists x.
  Qed.

  Lemma pstates_sourced n p m src cpus st l e : In (p, m, src) pstates_sources ->
    pstates_read lo n (s2l p) cpus (s2l m) st = (l, e) -> gives_all lo src cpus st l e.
  Proof.
    intros H. cbn [pstates_sources In] in H. destruct n; each H; intros E; exact E.
  Qed.

  Lemma cstates_sourced p m src cpus st l e : keys_unique lo -> In (p, m, src) cstates_sources ->
    cstates_get lo (s2l p) cpus (s2l m) st = (l, e) -> gives_all lo src cpus st l e.
  Proof.
    intros U H. cbn [cstates_sources In] in H.
    assert (En : forall key, get_pkg_cstate_limit lo (s2l key) cpus st = (l, e) -> is (s2l key) "pkg_cstate_limit_lock" = false ->
      gives_all lo (Entry PCStateObj "read_feature" ["pkg_cstate_limit"%string] key) cpus st l e).
    { intros key E Hk. unfold get_pkg_cstate_limit in E. rewrite Hk in E.
      destruct (lo_read lo PCStateObj (s2l "read_feature") [s2l "pkg_cstate_limit"] cpus st) as [l0 e0] eqn:E0.
      destruct (entry_gives PCStateObj "read_feature" ["pkg_cstate_limit"%string] key cpus st U l0 e0 E0) as (l' & e' & E' & G).
      rewrite E' in E. injection E as <- <-. exact G. }
    each H; intros E; first [ exact E | now apply En | apply once_gives; exact E ].
  Qed.

  Lemma power_sourced p m src cpus st l e : In (p, m, src) power_sources ->
    power_get lo (s2l p) cpus (s2l m) st = (l, e) -> gives_all lo src cpus st l e.
  Proof. intros H. cbn [power_sources In] in H. each H; intros E; exact E. Qed.

  Lemma pmqos_sourced p m src cpus st l e : In (p, m, src) pmqos_sources ->
    pmqos_get lo (s2l p) cpus st = (l, e) -> gives_all lo src cpus st l e.
  Proof. intros H. cbn [pmqos_sources In] in H. each H; intros E; first [ exact E | apply once_gives; exact E ]. Qed.

  (** ** Names that are not in the tables *)

  Ltac names H := repeat match goal with
    | |- context [is ?p ?s] => rewrite (is_false p s) by (intros ->; apply H; cbn; tauto)
    end.

  Lemma pstates_unknown n p cpus m st : ~ In p (map (fun e => s2l (fst e)) pstates_table) ->
    pstates_read lo n p cpus m st = ([], Some EError) /\ forall v, pstates_set lo p v cpus m st = (Exn EError, st).
  Proof.
    intros H. split; [|intros v].
    - destruct n; cbn [pstates_read]; unfold pstates_get, is_uncore_prop, is_in; cbn [existsb]; names H; reflexivity.
    - unfold pstates_set, is_in; cbn [existsb]; names H; reflexivity.
  Qed.

  (** ** The computed values *)

  Lemma not_refused cpus (f : Z -> Z) : ~ (map (fun c => (c, Some (DNum (f c)))) cpus, @None exc) = ([], Some ENotSupported).
  Proof. congruence. Qed.

  Lemma mn_ok {A} (g : str -> gen A) m ms l : g m = (l, None) -> mn_loop g (m :: ms) = (l, None).
  Proof. intros H. cbn [mn_loop]. rewrite H. now destruct l. Qed.
  Lemma mn_refused {A} (g : str -> gen A) m ms : g m = ([], Some ENotSupported) -> mn_loop g (m :: ms) = mn_loop g ms.
  Proof. intros H. cbn [mn_loop]. now rewrite H. Qed.

  (** What _get_prop_cpus_mnames() gives inside the class. *)
  Definition inner (n : nat) (p : str) (ms : option (list str)) (cpus : list Z) (st : St) : gen (Z * option dval) :=
    match mnames_of pstates_table p with
    | Exn e => raises e
    | Ok all => mn_loop (fun m => pstates_read lo n p cpus m st) (match ms with Some l => l | None => all end)
    end.

  Lemma inner_base n cpus st f : base_freqs lo cpus st f ->
    inner n (s2l "base_freq") None cpus st = (map (fun c => (c, Some (DNum (f c)))) cpus, None).
  Proof.
    unfold inner. change (mnames_of pstates_table (s2l "base_freq")) with (Ok [s2l "sysfs"; s2l "msr"; s2l "cppc"]). cbv iota.
    unfold base_freqs, numbers, refuses_cpus, answers. cbn [map].
    intros [H|(R1 & [H|(R2 & H)])].
    - apply mn_ok. destruct n; exact H.
    - rewrite mn_refused by (destruct n; exact R1). apply mn_ok. destruct n; exact H.
    - rewrite mn_refused by (destruct n; exact R1). rewrite mn_refused by (destruct n; exact R2). apply mn_ok. destruct n; exact H.
  Qed.

  Lemma inner_freqs n p g cpus st f : In (p, g) [("min_freq", "get_min_freq"); ("max_freq", "get_max_freq")]%string ->
    freqs lo g cpus st f -> inner n (s2l p) None cpus st = (map (fun c => (c, Some (DNum (f c)))) cpus, None).
  Proof.
    intros Hp. unfold inner.
    assert (E : mnames_of pstates_table (s2l p) = Ok [s2l "sysfs"; s2l "msr"]).
    { destruct Hp as [E|[E|[]]]; injection E as <- <-; reflexivity. }
    rewrite E. unfold freqs, numbers, refuses_cpus, answers. cbn [map].
    intros [H|(R1 & H)].
    - apply mn_ok. destruct Hp as [X|[X|[]]]; injection X as <- <-; destruct n; exact H.
    - rewrite mn_refused by (destruct Hp as [X|[X|[]]]; injection X as <- <-; destruct n; exact R1).
      apply mn_ok. destruct Hp as [X|[X|[]]]; injection X as <- <-; destruct n; exact H.
  Qed.

  Lemma inner_driver n cpus st d : lo_read lo CpufreqSysfs (s2l "get_driver") [] cpus st = (map (fun c => (c, Some (DText (d c)))) cpus, None) ->
    inner n (s2l "driver") None cpus st = (map (fun c => (c, Some (DText (d c)))) cpus, None).
  Proof.
    intros H. unfold inner. change (mnames_of pstates_table (s2l "driver")) with (Ok [s2l "sysfs"]). cbv iota. apply mn_ok. destruct n; exact H.
  Qed.

  Lemma fsb_read cpus st khz : lo_read lo FsbObj (s2l "read_feature") [s2l "fsb"] cpus st = (map (fun c => (c, Some (DNum (khz c)))) cpus, None) ->
    get_fsb lo cpus st = (map (fun c => (c, Some (DNum (khz c * 1000)))) cpus, None).
  Proof.
    intros H. unfold get_fsb. rewrite H, gmap_fst.
    rewrite (gmap_total _ (fun cv => (fst cv, match snd cv with Some (DNum k) => Some (DNum (k * 1000)) | v => v end))).
    - rewrite map_map. reflexivity.
    - intros x Hx. apply in_map_iff in Hx as (c & <- & _). reflexivity.
  Qed.

  Lemma map_same {B} (f g : Z -> B) l : (forall c, f c = g c) -> map f l = map g l.
  Proof. intros H. apply map_ext. exact H. Qed.

  Lemma bclks_read cpus st b : bus_clocks lo cpus st b -> get_bclks_cpus lo cpus st = (map (fun c => (c, Some (DNum (b c)))) cpus, None).
  Proof.
    unfold get_bclks_cpus. intros [(-> & khz & H & E)|(-> & -> & E)].
    - rewrite (fsb_read cpus st khz H). f_equal. apply map_ext. intros c. now rewrite E.
    - f_equal. apply map_ext. intros c. now rewrite E.
  Qed.

  Lemma bus_clock_again cpus st b : bus_clocks lo cpus st b ->
    pstates_again lo (s2l "bus_clock") None cpus st = (map (fun c => (c, Some (DNum (b c)))) cpus, None).
  Proof.
    intros H. unfold pstates_again. change (mnames_of pstates_table (s2l "bus_clock")) with (Ok [s2l "msr"; s2l "doc"]). cbv iota.
    assert (R : forall m, pstates_read lo 1 (s2l "bus_clock") cpus m st = get_bus_clock lo cpus m st) by reflexivity.
    pose proof (bclks_read cpus st b H) as B. unfold get_bclks_cpus in B.
    destruct H as [(F & khz & H & E)|(F & I & E)].
    - apply mn_ok. cbv beta. rewrite R. unfold get_bus_clock. rewrite F in B |- *. exact B.
    - rewrite mn_refused by (cbv beta; rewrite R; unfold get_bus_clock; rewrite F; reflexivity).
      apply mn_ok. cbv beta. rewrite R. unfold get_bus_clock. rewrite F, I in B |- *. exact B.
  Qed.

  Lemma bus_clock_by n cpus st b : bus_clocks lo cpus st b ->
    pstates_read lo n (s2l "bus_clock") cpus (s2l "msr") st =
      match lo_fsb lo st with Ok _ => (map (fun c => (c, Some (DNum (b c)))) cpus, None) | Exn e => ([], Some e) end /\
    pstates_read lo n (s2l "bus_clock") cpus (s2l "doc") st =
      match lo_fsb lo st with Ok _ => ([], Some ETryAnother) | Exn _ => (map (fun c => (c, Some (DNum 100000000))) cpus, None) end.
  Proof.
    intros H. assert (R : forall m, pstates_read lo n (s2l "bus_clock") cpus m st = get_bus_clock lo cpus m st) by (intros m; destruct n; reflexivity).
    rewrite !R. pose proof (bclks_read cpus st b H) as B. unfold get_bclks_cpus in B. unfold get_bus_clock.
    destruct H as [(F & khz & H & E)|(F & I & E)].
    - rewrite F in *. split; [exact B|reflexivity].
    - rewrite F in *. rewrite I. split; reflexivity.
  Qed.
  Lemma bus_clock_refused n cpus st : lo_fsb lo st = Exn ENotSupported -> lo_intel lo = false ->
    pstates_read lo n (s2l "bus_clock") cpus (s2l "doc") st = ([], Some ENotSupported) /\
    pstates_again lo (s2l "bus_clock") None cpus st = ([], Some ENotSupported).
  Proof.
    intros F I. assert (R : forall n m, pstates_read lo n (s2l "bus_clock") cpus m st = get_bus_clock lo cpus m st) by (intros k m; destruct k; reflexivity).
    split.
    - rewrite R. unfold get_bus_clock. rewrite F, I. reflexivity.
    - unfold pstates_again. change (mnames_of pstates_table (s2l "bus_clock")) with (Ok [s2l "msr"; s2l "doc"]). cbv iota.
      rewrite mn_refused by (cbv beta; rewrite R; unfold get_bus_clock; rewrite F; reflexivity).
      rewrite mn_refused by (cbv beta; rewrite R; unfold get_bus_clock; rewrite F, I; reflexivity). reflexivity.
  Qed.

  Lemma cppc_read n p cpus st : p = "max_turbo_freq"%string \/ p = "min_oper_freq"%string ->
    pstates_read lo (S n) (s2l p) cpus (s2l "cppc") st = get_cppc_freq lo (inner n) (s2l p) cpus st.
  Proof. intros [->| ->]; reflexivity. Qed.

  Lemma cppc_cases n p g q cpus st : In (p, g, q) cppc_names ->
    pstates_read lo (S n) (s2l p) cpus (s2l "cppc") st =
      match lo_read lo CpufreqCppc (s2l g) [] cpus st with
      | (l, Some ENotSupported) =>
          let (l', e) := gmap scaled (gzip (gzip (inner n (s2l "base_freq") None cpus st) (lo_read lo CpufreqCppc (s2l "get_base_perf") [] cpus st))
                                            (lo_read lo CpufreqCppc (s2l q) [] cpus st)) in (l ++ l', e)
      | r => r
      end.
  Proof.
    intros Hp. rewrite cppc_read by (destruct Hp as [X|[X|[]]]; injection X as <- <- <-; tauto).
    destruct Hp as [X|[X|[]]]; injection X as <- <- <-; reflexivity.
  Qed.

  Lemma cppc_direct n p g q cpus st l e : In (p, g, q) cppc_names ->
    answers lo CpufreqCppc g [] cpus st l e -> e <> Some ENotSupported -> pstates_read lo (S n) (s2l p) cpus (s2l "cppc") st = (l, e).
  Proof.
    intros Hp A Ne. rewrite (cppc_cases n p g q cpus st Hp). unfold answers in A. cbn [map] in A. rewrite A. destruct e as [[]|]; congruence.
  Qed.

  Lemma cppc_computed n p g q cpus st base nominal perf : In (p, g, q) cppc_names ->
    refuses_cpus lo CpufreqCppc g cpus st -> base_freqs lo cpus st base -> numbers lo CpufreqCppc "get_base_perf" cpus st nominal ->
    numbers lo CpufreqCppc q cpus st perf -> (forall c, In c cpus -> nominal c <> 0) ->
    pstates_read lo (S n) (s2l p) cpus (s2l "cppc") st = (map (fun c => (c, Some (DNum (base c * perf c / nominal c)))) cpus, None).
  Proof.
    intros Hp R B N P Z. rewrite (cppc_cases n p g q cpus st Hp). unfold refuses_cpus, numbers, answers in R, N, P. cbn [map] in R, N, P.
    rewrite R, (inner_base n cpus st base B), N, P, !gzip_map, gmap_fst.
    rewrite (gmap_total _ (fun x => match x with
      | (((c, Some (DNum b)), (_, Some (DNum n0))), (_, Some (DNum p0))) => (c, Some (DNum (b * p0 / n0)))
      | (((c, _), _), _) => (c, None) end)).
    - rewrite map_map. reflexivity.
    - intros x Hx. apply in_map_iff in Hx as (c & <- & Hc). cbn [scaled]. destruct (Z.eqb_spec (nominal c) 0) as [E|_]; [|reflexivity].
      exfalso. exact (Z c Hc E).
  Qed.

  Lemma frequencies_read n cpus st : pstates_read lo (S n) (s2l "frequencies") cpus (s2l "doc") st =
    gmap frequencies_of (gzip (gzip (gzip (inner n (s2l "driver") None cpus st) (inner n (s2l "min_freq") None cpus st))
                    (inner n (s2l "max_freq") None cpus st)) (get_bclks_cpus lo cpus st)).
  Proof. reflexivity. Qed.

  Lemma frequencies_computed n cpus st fmin fmax b :
    lo_read lo CpufreqSysfs (s2l "get_driver") [] cpus st = (map (fun c => (c, Some (DText (s2l "intel_pstate")))) cpus, None) ->
    freqs lo "get_min_freq" cpus st fmin -> freqs lo "get_max_freq" cpus st fmax -> bus_clocks lo cpus st b -> (forall c, In c cpus -> 0 < b c) ->
    exists l, pstates_read lo (S n) (s2l "frequencies") cpus (s2l "doc") st = (l, None) /\
      Forall2 (fun c cv => fst cv = c /\ exists fs, snd cv = Some (DNums fs) /\ steps (fmin c) (fmax c) (b c) fs) cpus l.
  Proof.
    intros D F1 F2 B Pos. rewrite frequencies_read.
    rewrite (inner_driver n cpus st (fun _ => s2l "intel_pstate") D), (inner_freqs n "min_freq" "get_min_freq" cpus st fmin (or_introl eq_refl) F1),
      (inner_freqs n "max_freq" "get_max_freq" cpus st fmax (or_intror (or_introl eq_refl)) F2), (bclks_read cpus st b B), !gzip_map, gmap_fst.
    clear D F1 F2 B. induction cpus as [|c cpus IH]; cbn [map gmap_l]; [exists []; split; [reflexivity|constructor]|].
    destruct IH as (l & E & H); [intros c' Hc; apply Pos; now right|].
    destruct (frequencies_doc (fmin c) (fmax c) (b c) (Pos c (or_introl eq_refl))) as (fs & Ef & Hs & Hin).
    cbn [frequencies_of]. rewrite Ef. cbn [rbind]. rewrite E. eexists. split; [reflexivity|]. constructor; [|exact H].
    cbn [fst snd]. split; [reflexivity|]. exists fs. split; [reflexivity|]. split; [exact Hs|]. intros f. rewrite (Hin f). split.
    - intros (i & Hi & Hf & Hh). split; [exact Hh|]. now exists i.
    - intros (Hh & i & Hi & Hf). now exists i.
  Qed.

  Lemma frequencies_refused n c cpus st d fmin fmax b :
    lo_read lo CpufreqSysfs (s2l "get_driver") [] (c :: cpus) st = (map (fun c => (c, Some (DText (d c)))) (c :: cpus), None) ->
    freqs lo "get_min_freq" (c :: cpus) st fmin -> freqs lo "get_max_freq" (c :: cpus) st fmax -> bus_clocks lo (c :: cpus) st b ->
    d c <> s2l "intel_pstate" ->
    pstates_read lo (S n) (s2l "frequencies") (c :: cpus) (s2l "doc") st = ([], Some ENotSupported).
  Proof.
    intros D F1 F2 B Nd. rewrite frequencies_read.
    rewrite (inner_driver n _ st d D), (inner_freqs n "min_freq" "get_min_freq" _ st fmin (or_introl eq_refl) F1),
      (inner_freqs n "max_freq" "get_max_freq" _ st fmax (or_intror (or_introl eq_refl)) F2), (bclks_read _ st b B), !gzip_map, gmap_fst.
    cbn [map gmap_l frequencies_of]. unfold frequencies_intel.
    destruct (str_eqb (d c) intel_pstate) eqn:E; [|reflexivity]. apply str_eqb_eq in E. contradiction.
  Qed.
End Reading.
