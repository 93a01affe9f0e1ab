(** Lemmas about what stands behind the properties (C73): the other writes, the tables, the scopes. *)
From Coq Require Import Ascii String Sorting.Sorted Lia ZifyBool.
From Verif Require Import Base M_Text M_CPUInfo M_Props M_PStates M_CFreq M_Route S_Route L_Base L_Text L_PStates L_Route L_Route2 L_Route3.
Open Scope list_scope.
Open Scope Z_scope.

(** ** The tables *)

Definition flat (t : ptable) : list (string * string) := flat_map (fun e => map (fun m => (fst e, m)) (fst (snd e))) t.
Definition flat_w (t : ptable) : list (string * string) := flat (filter (fun e => snd (snd e)) t).

Lemma pairs_flat t p m : pairs t p m <-> In (p, m) (flat t).
Proof.
  unfold pairs, flat. rewrite in_flat_map. split.
  - intros (ms & w & H & Hm). exists (p, (ms, w)). split; [exact H|]. cbn. now apply in_map.
  - intros ([q [ms w]] & H & Hm). cbn in Hm. apply in_map_iff in Hm as (m' & E & Hm). injection E as <- <-. eauto.
Qed.
Lemma writable_flat t p m : writable_pairs t p m <-> In (p, m) (flat_w t).
Proof.
  unfold flat_w. rewrite <- pairs_flat. unfold writable_pairs, pairs. split.
  - intros (ms & H & Hm). exists ms, true. split; [apply filter_In; now split|exact Hm].
  - intros (ms & w & H & Hm). apply filter_In in H as [H E]. cbn in E. subst w. eauto.
Qed.

Ltac every H := repeat (destruct H as [H|H]; [try injection H as <- <-|]); try destruct H.

Lemma pstates_complete p m : pairs pstates_table p m <-> (exists src, In (p, m, src) pstates_sources) \/ In (p, m) pstates_computed.
Proof.
  rewrite pairs_flat. split.
  - intros H. cbn in H. every H; try (right; cbn; tauto); left; eexists; cbn; tauto.
  - intros [(src & H)|H].
    + cbn [pstates_sources In] in H. repeat (destruct H as [H|H]; [injection H as <- <- <-; cbn; tauto|]). destruct H.
    + cbn in H. every H; cbn; tauto.
Qed.
Lemma cstates_complete p m : pairs cstates_table p m <-> exists src, In (p, m, src) cstates_sources.
Proof.
  rewrite pairs_flat. split.
  - intros H. cbn in H. every H; eexists; cbn; tauto.
  - intros (src & H). cbn [cstates_sources In] in H. repeat (destruct H as [H|H]; [injection H as <- <- <-; cbn; tauto|]). destruct H.
Qed.
Lemma power_complete p m : pairs power_table p m <-> exists src, In (p, m, src) power_sources.
Proof.
  rewrite pairs_flat. split.
  - intros H. cbn in H. every H; eexists; cbn; tauto.
  - intros (src & H). cbn [power_sources In] in H. repeat (destruct H as [H|H]; [injection H as <- <- <-; cbn; tauto|]). destruct H.
Qed.
Lemma pmqos_complete p m : pairs pmqos_table p m <-> exists src, In (p, m, src) pmqos_sources.
Proof.
  rewrite pairs_flat. split.
  - intros H. cbn in H. every H; eexists; cbn; tauto.
  - intros (src & H). cbn [pmqos_sources In] in H. repeat (destruct H as [H|H]; [injection H as <- <- <-; cbn; tauto|]). destruct H.
Qed.

Lemma writable_complete p m :
  (writable_pairs pstates_table p m <-> (exists x, In (p, m, x) pstates_sinks) \/ (exists o b s, In (p, m, o, b, s) freq_sinks) \/
     p = "epp"%string /\ (m = "sysfs"%string \/ m = "msr"%string) \/ m = "sysfs"%string /\ exists b s, In (p, b, s) uncore_sinks) /\
  (writable_pairs cstates_table p m <-> (exists x, In (p, m, x) cstates_sinks) \/ (p, m) = ("governor"%string, "sysfs"%string)) /\
  (writable_pairs power_table p m <-> exists x, In (p, m, x) power_sinks) /\
  (writable_pairs pmqos_table p m <-> (p, m) = ("latency_limit"%string, "sysfs"%string)).
Proof.
  rewrite !writable_flat. repeat split.
  - intros H. cbn in H. every H;
      first [ left; eexists; cbn; tauto
            | right; left; eexists _, _, _; cbn; tauto
            | right; right; left; split; [reflexivity|tauto]
            | right; right; right; split; [reflexivity|]; eexists _, _; cbn; tauto ].
  - intros [(x & H)|[(o & b & s & H)|[(-> & [-> | ->])|(-> & b & s & H)]]].
    + cbn [pstates_sinks In] in H. repeat (destruct H as [H|H]; [injection H as <- <- <-; cbn; tauto|]). destruct H.
    + cbn [freq_sinks In] in H. repeat (destruct H as [H|H]; [injection H as <- <- <- <- <-; cbn; tauto|]). destruct H.
    + cbn; tauto.
    + cbn; tauto.
    + cbn [uncore_sinks In] in H. repeat (destruct H as [H|H]; [injection H as <- <- <-; cbn; tauto|]). destruct H.
  - intros H. cbn in H. every H; first [ right; reflexivity | left; eexists; cbn; tauto ].
  - intros [(x & H)|H].
    + cbn [cstates_sinks In] in H. repeat (destruct H as [H|H]; [injection H as <- <- <-; cbn; tauto|]). destruct H.
    + injection H as -> ->. cbn; tauto.
  - intros H. cbn in H. every H; eexists; cbn; tauto.
  - intros (x & H). cbn [power_sinks In] in H. repeat (destruct H as [H|H]; [injection H as <- <- <-; cbn; tauto|]). destruct H.
  - intros H. cbn in H. every H. reflexivity.
  - intros H. injection H as -> ->. cbn; tauto.
Qed.

(** ** Writes *)

Section Writes.
  Context {St : Type}.
  Variable lo : lower St.

  Lemma pstates_sunk p m o meth args v cpus st : In (p, m, (o, meth, args)) pstates_sinks ->
    pstates_set lo (s2l p) v cpus (s2l m) st = lo_write lo o (s2l meth) (map s2l args) v cpus st.
  Proof. intros H. cbn [pstates_sinks In] in H. repeat (destruct H as [H|H]; [injection H as <- <- <- <- <-; reflexivity|]). destruct H. Qed.
  Lemma cstates_sunk p m o meth args v cpus st : In (p, m, (o, meth, args)) cstates_sinks ->
    cstates_set lo (s2l p) v cpus (s2l m) st = lo_write lo o (s2l meth) (map s2l args) v cpus st.
  Proof. intros H. cbn [cstates_sinks In] in H. repeat (destruct H as [H|H]; [injection H as <- <- <- <- <-; reflexivity|]). destruct H. Qed.
  Lemma power_sunk p m o meth args v cpus st : In (p, m, (o, meth, args)) power_sinks ->
    (forall e, (p = "ppl1"%string \/ p = "ppl2"%string) -> lo_check lo (s2l p) v cpus st = Exn e -> power_set lo (s2l p) v cpus (s2l m) st = (Exn e, st)) /\
    (((p = "ppl1"%string \/ p = "ppl2"%string) -> lo_check lo (s2l p) v cpus st = Ok tt) ->
     power_set lo (s2l p) v cpus (s2l m) st = lo_write lo o (s2l meth) (map s2l args) v cpus st).
  Proof.
    intros H. cbn [power_sinks In] in H.
    repeat (destruct H as [H|H]; [injection H as <- <- <- <- <-; split;
      [ intros e Hp Hc;
        first [ unfold power_set; change (is (s2l "msr") "msr") with true; cbn [negb];
                match goal with |- context [is_in ?a ?b] => change (is_in a b) with true end; cbv iota; unfold mbind; rewrite Hc; reflexivity
              | destruct Hp; discriminate ]
      | intros Hc; first [ reflexivity
          | unfold power_set; change (is (s2l "msr") "msr") with true; cbn [negb];
                match goal with |- context [is_in ?a ?b] => change (is_in a b) with true end; cbv iota; unfold mbind; rewrite (Hc ltac:(tauto)); reflexivity ] ]|]).
    destruct H.
  Qed.

  Lemma epp_set m v cpus st r st1 : lo_write lo EppObj (s2l "set_vals") [s2l m] v cpus st = (r, st1) ->
    (r = Ok tt -> pstates_set lo (s2l "epp") v cpus (s2l m) st = (Ok tt, st1)) /\
    (forall e, r = Exn e -> exists e', pstates_set lo (s2l "epp") v cpus (s2l m) st = (Exn e', st1) /\
       (e' = e \/ m = "sysfs"%string /\ v <> DText (s2l "performance") /\ v <> DText (s2l "0") /\ exists cpu q,
          In q ["get_driver"; "get_intel_pstate_mode"; "get_governor"]%string /\ lo_err_cpu lo e st1 = Some cpu /\
          forall x l e0, ~ answers lo CpufreqSysfs q [] [cpu] st1 (x :: l) e0)).
  Proof.
    intros W. unfold pstates_set. change (is (s2l "epp") "epp") with true. cbv beta iota. rewrite W. split; [intros ->; reflexivity|].
    intros e ->. destruct (catches_error e); [|eexists; split; [reflexivity|now left]].
    eexists. split; [reflexivity|]. unfold handle_epp.
    destruct (is (s2l m) "sysfs") eqn:Em; [|now left]. cbn [negb].
    assert (Em' : m = "sysfs"%string).
    { apply is_true in Em. apply (f_equal string_of_list_ascii) in Em. unfold s2l in Em. rewrite !string_of_list_ascii_of_string in Em. exact Em. }
    destruct (match v with DText t => is_in t ["0"; "performance"]%string | _ => false end) eqn:Ev; [now left|].
    assert (Nv : v <> DText (s2l "performance") /\ v <> DText (s2l "0")) by (split; intros ->; discriminate Ev).
    destruct (lo_err_cpu lo e st1) as [cpu|] eqn:Ec; [|now left].
    assert (F : forall p q, In (p, q) [("driver", "get_driver"); ("intel_pstate_mode", "get_intel_pstate_mode"); ("governor", "get_governor")]%string ->
      forall x, first_val (pstates_again lo (s2l p) None [cpu] st1) = Exn x -> forall y l e0, ~ answers lo CpufreqSysfs q [] [cpu] st1 (y :: l) e0).
    { intros p q Hq x Hx y l e0 A. unfold answers in A. cbn [map] in A.
      assert (R : pstates_again lo (s2l p) None [cpu] st1 = mn_loop (fun _ => lo_read lo CpufreqSysfs (s2l q) [] [cpu] st1) [s2l "sysfs"]).
      { destruct Hq as [E|[E|[E|[]]]]; injection E as <- <-; reflexivity. }
      rewrite R in Hx. cbn [mn_loop] in Hx. rewrite A in Hx. destruct y. destruct e0 as [[]|]; discriminate. }
    destruct (first_val (pstates_again lo (s2l "driver") None [cpu] st1)) as [[d|]|x] eqn:E1; [|now left|].
    2:{ right. split; [exact Em'|]. destruct Nv. split; [assumption|]. split; [assumption|]. exists cpu, "get_driver"%string.
        split; [cbn; tauto|]. split; [reflexivity|]. eapply (F "driver"%string); [cbn; tauto|exact E1]. }
    destruct d; try (now left). destruct (negb (is s "intel_pstate")); [now left|].
    destruct (first_val (pstates_again lo (s2l "intel_pstate_mode") None [cpu] st1)) as [[d|]|x] eqn:E2; [|now left|].
    2:{ right. split; [exact Em'|]. destruct Nv. split; [assumption|]. split; [assumption|]. exists cpu, "get_intel_pstate_mode"%string.
        split; [cbn; tauto|]. split; [reflexivity|]. eapply (F "intel_pstate_mode"%string); [cbn; tauto|exact E2]. }
    destruct d; try (now left). destruct (negb (is s0 "active")); [now left|].
    destruct (first_val (pstates_again lo (s2l "governor") None [cpu] st1)) as [y|x] eqn:E3; [now left|].
    right. split; [exact Em'|]. destruct Nv. split; [assumption|]. split; [assumption|]. exists cpu, "get_governor"%string.
    split; [cbn; tauto|]. split; [reflexivity|]. eapply (F "governor"%string); [cbn; tauto|exact E3].
  Qed.

  (** ** Scopes *)

  Lemma pstates_scoped st :
    (forall p sc, In (p, sc) pstates_scopes -> pstates_set_sname lo (s2l p) st = Ok (sc, sc)) /\
    (forall sc io, lo_scopes lo EpbObj (s2l "epb") st = Ok (sc, io) -> pstates_set_sname lo (s2l "epb") st = Ok (sc, sc)) /\
    (lo_fsb lo st = Exn ENotSupported -> pstates_set_sname lo (s2l "bus_clock") st = Ok (SGlobal, SGlobal)) /\
    (forall sc io, lo_fsb lo st = Ok tt -> lo_scopes lo FsbObj (s2l "fsb") st = Ok (sc, io) -> pstates_set_sname lo (s2l "bus_clock") st = Ok (sc, sc)).
  Proof.
    split; [|split; [|split]].
    - intros p sc H. cbn [pstates_scopes In] in H. repeat (destruct H as [H|H]; [injection H as <- <-; reflexivity|]). destruct H.
    - intros sc io E. unfold pstates_set_sname. change (pstates_sname (s2l "epb")) with (@None scope). change (is (s2l "epb") "epb") with true.
      cbv iota. rewrite E. reflexivity.
    - intros E. unfold pstates_set_sname. change (pstates_sname (s2l "bus_clock")) with (@None scope). change (is (s2l "bus_clock") "epb") with false.
      cbv iota. rewrite E. reflexivity.
    - intros sc io E F. unfold pstates_set_sname. change (pstates_sname (s2l "bus_clock")) with (@None scope). change (is (s2l "bus_clock") "epb") with false.
      cbv iota. rewrite E, F. reflexivity.
  Qed.

  Lemma cstates_scoped st :
    (forall p sc, In (p, sc) cstates_scopes -> cstates_set_sname lo (s2l p) st = Ok (sc, sc)) /\
    (forall p o, In (p, o) cstates_fields -> cstates_set_sname lo (s2l p) st = lo_scopes lo o (s2l p) st).
  Proof.
    split.
    - intros p sc H. cbn [cstates_scopes In] in H. repeat (destruct H as [H|H]; [injection H as <- <-; reflexivity|]). destruct H.
    - intros p o H. cbn [cstates_fields In] in H. repeat (destruct H as [H|H]; [injection H as <- <-; reflexivity|]). destruct H.
  Qed.
End Writes.
