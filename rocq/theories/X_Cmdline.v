(** Cases for C65. *)
From Coq Require Import Ascii String Permutation.
From Verif Require Import Base L_Base M_Text L_Text M_Cmdline S_Cmdline L_Cmdline.

(** The name space without any option. *)
Definition x_defaults : attrs :=
  [(s2l "hostname", s2l "localhost"); (s2l "username", s2l "root"); (s2l "timeout", s2l "8")]%string.

Definition x_line : list typed :=
  [TY OUser (s2l "-U"%string) (s2l "admin"%string); TY OHost (s2l "--host"%string) (s2l "box7"%string)].

Lemma x_proper : proper x_line /\ NoDup (map ty_val x_line).
Proof.
  split; [split|].
  - repeat (constructor; [cbn; intuition discriminate|]). constructor.
  - intros t [<- |[<- |[]]]; cbn [ty_as ty_val ty_opt]; (split; [cbn; auto|intros (u & E); discriminate E]).
  - constructor; [|constructor; [intros []|constructor]]. intros [E|[]]. discriminate E.
Qed.

Lemma x_target : pepc_target x_defaults (on_line x_line) =
  Ok (TSSH (s2l "box7"%string) (Some (s2l "admin"%string)) None (Some (s2l "8"%string))).
Proof. vm_compute. reflexivity. Qed.

(** Two options with the same value. *)
Definition x_same : list typed :=
  [TY OUser (s2l "-U"%string) (s2l "box"%string); TY OTimeout (s2l "-T"%string) (s2l "5"%string); TY OHost (s2l "-H"%string) (s2l "box"%string)].
Definition x_swap : list typed :=
  [TY OTimeout (s2l "-T"%string) (s2l "10"%string); TY OKey (s2l "-K"%string) (s2l "box"%string);
   TY OUser (s2l "-U"%string) (s2l "10"%string); TY OHost (s2l "-H"%string) (s2l "box"%string)].

Ltac prove_proper := split; [repeat (constructor; [cbn; intuition discriminate|]); constructor|
  intros t Ht; cbn in Ht; repeat (destruct Ht as [<- |Ht]; [cbn [ty_as ty_val ty_opt]; (split; [cbn; auto|intros (u & E); discriminate E])|]); contradiction].

Lemma same_refused_l : exists args l, proper l /\ value args OHost <> None /\ ~ uses_dataset (value args) /\
  (forall t, In t l -> ty_opt t <> ODataset) /\ parse_args args (on_line l) = Exn EError.
Proof.
  exists x_defaults, x_same. split; [prove_proper|]. split; [discriminate|]. split.
  - intros (d & E & _). discriminate E.
  - split; [|vm_compute; reflexivity]. intros t [<- |[<- |[<- |[]]]]; discriminate.
Qed.

Lemma swapped_l : exists args l args', proper l /\ parse_args args (on_line l) = Ok args' /\ ~ applied l (value args) (value args').
Proof.
  exists x_defaults, x_swap.
  exists [(s2l "hostname", s2l "box"); (s2l "username", s2l "10"); (s2l "timeout", s2l "box"); (s2l "privkey", s2l "10")]%string.
  split; [prove_proper|]. split; [vm_compute; reflexivity|]. intros H. destruct (H OKey) as (H1 & _).
  specialize (H1 (TY OKey (s2l "-K"%string) (s2l "box"%string)) ltac:(cbn; auto) eq_refl). discriminate H1.
Qed.

(** "-T" has no value, and "z" is nobody's. *)
Lemma malformed_l : exists args args' : attrs,
  parse_args args (map s2l ["-T"; "-K"; "a"; "z"; "-U"; "a"]%string) = Ok args' /\
  value args' OKey = Some (s2l "z"%string) /\ value args' OTimeout = Some (s2l "a"%string).
Proof. exists x_defaults. eexists. split; [vm_compute; reflexivity|]. split; vm_compute; reflexivity. Qed.

Lemma dataset_remote_l : exists args t, uses_dataset (value args) /\ is_remote (value args) /\
  pepc_target args [] = Ok (TDataset t).
Proof.
  exists [(s2l "hostname", s2l "box"); (s2l "dataset", s2l "icx1")]%string, (s2l "icx1"%string). split; [|split].
  - exists (s2l "icx1"%string). split; [reflexivity|discriminate].
  - discriminate.
  - vm_compute. reflexivity.
Qed.

Lemma emulation_l : exists args h, value args OHost = Some h /\ h <> s2l "localhost"%string /\ ~ uses_dataset (value args) /\
  pepc_target args [] = Ok (TEmul h).
Proof.
  exists [(s2l "hostname", s2l "emulation-lab.example.com")]%string, (s2l "emulation-lab.example.com"%string).
  split; [reflexivity|]. split; [discriminate|]. split; [intros (d & E & _); discriminate E|]. vm_compute. reflexivity.
Qed.

Lemma quiet_debug_l : exists args, base_check args = Exn EError /\ parse_args args [] = Ok args.
Proof. exists [(s2l "quiet", s2l "on"); (s2l "debug", s2l "on")]%string. split; vm_compute; reflexivity. Qed.

Lemma command_l args l : proper l -> NoDup (map ty_val l) ->
  value args OHost <> None ->
  (forall t, value args OHost <> Some (s2l "emulation"%string ++ t)) ->
  (forall t, In t l -> ty_opt t = OHost -> forall u, ty_val t <> s2l "emulation"%string ++ u) ->
  exists after, applied l (value args) after /\
    (l = [] \/ ~ (uses_dataset after /\ is_remote after) -> exists t, pepc_target args (on_line l) = Ok t /\ says_run after t) /\
    (l <> [] -> uses_dataset after -> is_remote after -> pepc_target args (on_line l) = Exn EError).
Proof.
  intros Hp Nv Hh He1 He2. destruct (options_applied args l Hp Nv) as (args' & A & _ & C1 & C2).
  exists (value args'). split; [exact A|]. unfold pepc_target. split.
  - intros H. rewrite (C2 H). cbn [rbind]. destruct (A OHost) as (B1 & B2).
    destruct (in_dec goption_dec OHost (map ty_opt l)) as [Hi|Hn].
    + apply in_map_iff in Hi as (t & E & Ht). specialize (B1 t Ht E). apply runs_on; rewrite B1; [discriminate|].
      intros u Eu. apply (He2 t Ht E u). congruence.
    + assert (Hn' : forall t, In t l -> ty_opt t <> OHost) by (intros t Ht E; apply Hn; apply in_map_iff; now exists t).
      specialize (B2 Hn'). apply runs_on; rewrite B2; [|exact He1]. exact Hh.
  - intros H1 H2 H3. rewrite (C1 H1 H2 H3). reflexivity.
Qed.
