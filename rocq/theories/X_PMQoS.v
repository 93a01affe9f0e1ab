(** Concrete cases for the PM QoS latency limits. *)
From Coq Require Import QArith Qabs.
From Verif Require Import Base M_Text M_Sysfs S_Sysfs S_SysView M_Human M_PMQoS S_PMQoS L_PMQoS.

Lemma global_prop k verify n rest cpus s : 0 <= n < 2 ^ 32 ->
  pmqos_get k (Some (four_bytes n ++ rest)) GlobalLatencyLimit cpus s =
    (Ok (map (fun c => (c, inject_Z n / inject_Z 1000000)%Q) cpus), s) /\
  forall v, pmqos_set k verify GlobalLatencyLimit v cpus s = (Exn EError, s).
Proof.
  intros H. split; [|reflexivity]. unfold pmqos_get, mbind, lift. rewrite global_decodes by exact H. reflexivity.
Qed.

Lemma not_supported k cpus c s : In c cpus ->
  (forall x, In x cpus -> seen k s (limit_file x) = Exn ENotSupported \/
    exists n, seen k s (limit_file x) = Ok (dec n) /\ 0 <= n) ->
  seen k s (limit_file c) = Exn ENotSupported ->
  (exists s', get_latency_limit k cpus s = (Exn ENotSupported, s')) /\
  get_global_latency_limit None = Exn ENotSupported.
Proof. intros H1 H2 H3. split; [eapply get_missing; eassumption|reflexivity]. Qed.

(** A kernel that appends a newline. *)
Definition xk : senv := SE true (fun _ _ v => Some (v ++ ["010"%char])) (fun _ c => c) (fun _ => false).
Definition xfs : str -> option str := fun _ => Some (s2l "0" ++ ["010"%char]).

Lemma case_l : exists s',
  set_latency_limit xk true (125 # 10000000) [0; 10] (s_init xfs) = (Ok tt, s') /\
  ss_fs s' (limit_file 0) = Some (s2l "12" ++ ["010"%char]) /\
  ss_fs s' (limit_file 10) = Some (s2l "12" ++ ["010"%char]) /\
  ss_fs s' (limit_file 1) = Some (s2l "0" ++ ["010"%char]) /\
  fst (get_latency_limit xk [10; 1] s') = Ok [(10, (12 # 1000000)%Q); (1, (0 # 1000000)%Q)].
Proof. eexists. split; [reflexivity|]. repeat split. Qed.
