(** Saving and restoring the properties of a class. *)
From Coq Require Import Ascii String ZifyBool.
From Verif Require Import Base L_Base L_Monad M_CPUInfo S_CPUInfo L_CPUInfo M_Text M_Props S_Props L_Props M_OpTarget M_Print S_Print
  L_Print L_Print2 L_Print3 L_Print4 L_Print5.

Lemma round_trip : forall (St V S : Type) (cls : pclass St V), (forall x y, pc_veqb cls x y = true <-> x = y) ->
  forall (view : S -> Z -> pnum -> option V) setp, setter_law view setp ->
  one_value_per_cpu cls -> wf_ci (pc_ci cls) -> (forall k, exists_num (pc_ci cls) k -> nonneg_num k) ->
  forall pnames known s f s' r r', NoDup (asked_pnames (pc_props cls) pnames) ->
  save_props cls pnames s = (Ok f, s') -> restore setp known f r = (Ok tt, r') ->
  exists names l,
    (forall p, In p names <-> In p (asked_pnames (pc_props cls) pnames) /\
                 exists d, dget Z.eqb (pc_props cls) p = Some d /\ pd_writable d = true) /\
    reading (get_prop_sname cls None) (pc_props cls) true names s l s' /\
    (forall p items k v m, In (p, items) l -> In (k, v, m) items -> v <> None -> view r' p k = v) /\
    (forall p k, (forall items v m, In (p, items) l -> In (k, v, m) items -> v = None) -> view r' p k = view r p k).
Proof.
  intros St V S cls Hv view setp Law Hone W NN pnames known s f s' r r' ND HS HR. unfold save_props, mbind in HS.
  destruct (aggr_props _ _ _ _ _ _ s) as [[a|e] s1] eqn:Ea; [|discriminate HS]. injection HS as <- <-.
  destruct (print_ok cls Hv _ _ _ _ _ _ _ Hone ND Ea) as (names & l & Hn & R & NR & L & Once & U).
  pose proof (print_printable cls Hv _ _ _ _ _ _ _ Hone W ND Ea) as PR.
  destruct (file_exact a) as (_ & FE).
  { intros m p sn v n He. destruct (PR _ _ _ _ _ He) as (O & X). split; [exact O|]. intros k Hk. now apply NN, X. }
  assert (consistent (yaml_pinfo a)) as C.
  { intros p v v' k H1 H2. apply FE in H1. apply FE in H2. destruct H1 as (m & H1). destruct H2 as (m' & H2).
    exact (proj2 (U _ _ _ _ _ _ H1 H2)). }
  destruct (restore_ok view setp Law known _ _ _ C HR) as (_ & R1 & R2).
  exists names, l. split; [|split; [exact R|split]].
  - intros p. rewrite (Hn p). split; intros (A & B); split; auto.
  - intros p items k v m I J Hne. apply R1, FE. exists m. apply L. exists items. split; [exact I|]. split; [exact J|]. intros _. exact Hne.
  - intros p k H. apply R2. intros v Hf. apply FE in Hf. destruct Hf as (m & Hl). apply L in Hl. destruct Hl as (items & I & J & Sh).
    exact (Sh eq_refl (H items v m I J)).
Qed.
