(** Cases for C66. *)
From Coq Require Import Ascii String ZifyBool.
From Verif Require Import Base L_Base L_Monad M_CPUInfo S_CPUInfo L_CPUInfo X_CPUInfo M_Text S_Text L_Text M_Human L_Human M_CPUIdle S_CPUIdle L_CPUIdle L_CPUIdle2 X_CPUIdle M_CsConf S_CsConf L_CsConf.

Definition opt_ (o : string) (t : string) : opt := (s2l o, Some (s2l t)).

(** Two options, and a property. *)
Definition x_typed : list opt := [opt_ "disable" "all"; opt_ "pkg_cstate_limit" "PC2"; (s2l "c1_demotion"%string, None); opt_ "enable" "c1_acpi"].

Lemma surj {A B} (p : A * B) x : fst p = x -> p = (x, snd p).
Proof. destruct p. cbn. now intros ->. Qed.

Lemma x_kept : kept x_typed x_typed.
Proof. apply kept_same. unfold x_typed. repeat (constructor; [cbn; intuition discriminate|]). constructor. Qed.

Lemma x_case_l :
  let s' := snd (cstates_config xm3 [2; 5] x_typed (cc_init x0)) in
  fst (cstates_config xm3 [2; 5] x_typed (cc_init x0)) = Ok tt /\
  map (fun t => id_flags (cc_idle s') (fst t) (snd t)) [(2, 0); (2, 1); (2, 2); (5, 0); (4, 0)] =
    [flag_text true; flag_text false; flag_text true; flag_text true; flag_text false] /\
  map (fun e => match e with EvList _ _ => 1 | EvPrint _ => 2 | EvSet _ => 3 end) (cc_ev s') = [2; 1; 1; 3] /\
  last (cc_ev s') (EvPrint []) = EvSet [(s2l "pkg_cstate_limit"%string, s2l "PC2"%string)].
Proof. vm_compute. repeat split. Qed.

Lemma x_all_same : all_same xm3 (fun _ => 3) [2; 5] x_typed.
Proof. intros _. apply xm3_names. Qed.

Lemma x_possible : forall x en t c n, In x x_typed -> toggle_opt x en t -> In c [2; 5] ->
  asked (CsText t) (own_names xm3 (fun _ => 3) c) n -> In n (own_names xm3 (fun _ => 3) c).
Proof.
  intros x en t c n Hx (_ & Ht) Hc Ha.
  assert (Hcase : t = s2l "all"%string \/ t = s2l "c1_acpi"%string).
  { destruct Hx as [<- |[<- |[<- |[<- |[]]]]]; unfold opt_ in Ht; destruct en; try discriminate Ht; injection Ht as <-; auto. }
  destruct Hcase as [-> | ->]; [exact Ha|]. unfold asked in Ha. vm_compute (str_eqb _ _) in Ha.
  destruct Ha as (w & Hw & ->). vm_compute in Hw. destruct Hw as [<- |[]]. right. left. vm_compute. reflexivity.
Qed.

Definition x_rep : list opt := [opt_ "disable" "all"; opt_ "enable" "C1_ACPI"; opt_ "disable" "C6"].

Lemma x_rep_decided : decided xm3 (fun _ => 3) [2; 5] x_rep 2 0 false.
Proof.
  exists [], (opt_ "disable" "all"), [opt_ "enable" "C1_ACPI"; opt_ "disable" "C6"]. split; [reflexivity|]. split.
  - exists (s2l "all"%string). split; [split; [discriminate|reflexivity]|]. split; [now left|]. split; [lia|]. unfold asked. vm_compute (str_eqb _ _). vm_compute. now left.
  - intros y en' Hy (t & (_ & Ht) & _ & _ & Ha).
    assert (Hcase : t = s2l "C1_ACPI"%string \/ t = s2l "C6"%string).
    { destruct Hy as [<- |[<- |[]]]; unfold opt_ in Ht; destruct en'; try discriminate Ht; injection Ht as <-; auto. }
    destruct Hcase as [-> | ->]; unfold asked in Ha; vm_compute (str_eqb _ _) in Ha; destruct Ha as (w & Hw & E); vm_compute in Hw;
      destruct Hw as [<- |[]]; vm_compute in E; discriminate E.
Qed.

Lemma repeated_l : exists mc nst flags cpus typed s' c i en,
  idle_ok mc nst /\ obeys mc nst /\ flags_ok mc nst flags /\ same_names mc nst cpus /\
  cstates_config mc cpus typed (cc_init (idle_init flags [] 0 [] [])) = (Ok tt, s') /\
  decided mc nst cpus typed c i en /\ id_flags (cc_idle s') c i <> flag_text (negb en).
Proof.
  exists xm3, (fun _ => 3), all_on, [2; 5], x_rep, (snd (cstates_config xm3 [2; 5] x_rep (cc_init (idle_init all_on [] 0 [] [])))), 2, 0, false.
  split; [exact xm3_ok|]. split; [exact xm3_obeys|]. split; [apply all_on_ok|]. split; [apply xm3_names|].
  split; [apply surj; vm_compute; reflexivity|]. split; [exact x_rep_decided|]. vm_compute. discriminate.
Qed.

Definition x_half : list opt := [opt_ "disable" "C6"; opt_ "enable" "C9"].

Lemma halfway_l : exists mc nst flags cpus typed e s' c i,
  idle_ok mc nst /\ obeys mc nst /\ flags_ok mc nst flags /\ NoDup (map fst typed) /\
  cstates_config mc cpus typed (cc_init (idle_init flags [] 0 [] [])) = (Exn e, s') /\ id_flags (cc_idle s') c i <> flags c i.
Proof.
  exists xm3, (fun _ => 3), all_on, [2; 5], x_half, EError, (snd (cstates_config xm3 [2; 5] x_half (cc_init (idle_init all_on [] 0 [] [])))), 2, 2.
  split; [exact xm3_ok|]. split; [exact xm3_obeys|]. split; [apply all_on_ok|].
  split; [repeat (constructor; [cbn; intuition discriminate|]); constructor|].
  split; [apply surj; vm_compute; reflexivity|]. vm_compute. discriminate.
Qed.
