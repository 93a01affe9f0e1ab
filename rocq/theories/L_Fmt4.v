(** Lemmas for C69: latency limits. *)
From Coq Require Import QArith Qabs.
From Verif Require Import Base M_Text M_Human S_Human M_Fmt S_Fmt L_Fmt3.

Lemma latency_l : forall global v, (v <= inject_Z 100)%Q ->
  exists t, format_latency global v = Ok t /\
    ((v == 0)%Q -> t = if global then s2l "0 (absolute minimum)" else s2l "0 (no limit)") /\
    (~ (v == 0)%Q -> about (s2l "s") t v).
Proof.
  intros g v Hv. unfold format_latency. destruct (Qeq_bool v 0) eqn:E.
  - apply Qeq_bool_iff in E. eexists. split; [reflexivity|]. split; [reflexivity|]. intros N. destruct (N E).
  - assert (N : ~ (v == 0)%Q) by (intros H; apply Qeq_bool_iff in H; congruence).
    destruct (number_l (s2l "s") v) as (t & Ht & Ha); [unfold base_unit; cbn; auto|right; exact Hv|].
    cbn [format_value] in Ht. destruct (format_unit (s2l "s") v) as [y|e] eqn:Ey; cbn [rbind] in Ht; [|discriminate].
    injection Ht as ->. exists t. split; [reflexivity|]. split; [intros H; destruct (N H)|intros _; exact Ha].
Qed.

Lemma latency_case_l : exists t, format_latency true (25 # 1000000) = Ok t /\ about (s2l "s") t (25 # 1000000).
Proof.
  destruct (latency_l true (25 # 1000000)) as (t & H1 & _ & H2); [unfold Qle; cbn; lia|].
  exists t. split; [exact H1|]. apply H2. unfold Qeq. cbn. lia.
Qed.
