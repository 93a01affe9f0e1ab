(** Examples for C32 and C33 (C-states). *)
From Coq Require Import Ascii String ZifyBool.
From Verif Require Import Base L_Base M_CPUInfo S_CPUInfo X_CPUInfo M_Text S_Text L_Text M_Human M_CPUIdle S_CPUIdle X_CPUIdle
  M_CSave S_CSave L_CSave2 L_CSave3.

Definition xpnames : list str := map s2l ["pkg_cstate_limit"; "c1_demotion"; "governor"]%string.

Lemma xm3_plain : plain_names xm3 (fun _ => 3) xpnames.
Proof.
  intros c i _ Hi. assert (H : i = 0 \/ i = 1 \/ i = 2) by lia.
  assert (E : cs_name xm3 c i = s2l "POLL"%string \/ cs_name xm3 c i = s2l "C1_ACPI"%string \/ cs_name xm3 c i = s2l "C6"%string).
  { destruct H as [->|[->| ->]]; [left|right; left|right; right]; reflexivity. }
  destruct E as [->|[->| ->]]; (split; [discriminate|split; [apply has_char_false; reflexivity|]]); cbn; intuition discriminate.
Qed.

(** Two CPUs with two C-states switched off are saved; on a system where these are on, and another CPU has a C-state off,
    restoring gives the settings back. *)
Definition xsaved : ydict :=
  [(s2l "POLL"%string, [(s2l "value"%string, CStr (s2l "off"%string), s2l "2,5"%string)]);
   (s2l "C1_ACPI"%string, [(s2l "value"%string, CStr (s2l "on"%string), s2l "2,5"%string)]);
   (s2l "C6"%string, [(s2l "value"%string, CStr (s2l "off"%string), s2l "2,5"%string)])].

Definition xother : iop := IToggle (CsText (s2l "c6"%string)) (Some [4]) false.

Lemma csave_case_l :
  fst (save_cstates xm3 (Some [2; 5]) (irun xm3 [xoff] x0)) = Ok xsaved /\
  fst (restore xm3 xpnames xsaved (irun xm3 [xother] x0)) = Ok tt /\
  map (fun t => id_flags (snd (restore xm3 xpnames xsaved (irun xm3 [xother] x0))) (fst t) (snd t)) [(2, 0); (2, 1); (2, 2); (5, 2); (4, 2); (3, 2)] =
    [flag_text true; flag_text false; flag_text true; flag_text true; flag_text true; flag_text false].
Proof. split; [vm_compute; reflexivity|]. split; vm_compute; reflexivity. Qed.

Lemma csave_hyps_l : idle_ok xm3 (fun _ => 3) /\ obeys xm3 (fun _ => 3) /\ plain_names xm3 (fun _ => 3) xpnames /\ flags_ok xm3 (fun _ => 3) all_on /\
  same_names xm3 (fun _ => 3) (ci_online (mc_ci xm3)) /\ uniform xm3 (fun _ => 3) (id_flags (irun xm3 [xoff] x0)) [2; 5].
Proof.
  split; [exact xm3_ok|]. split; [exact xm3_obeys|]. split; [exact xm3_plain|]. split; [apply all_on_ok|]. split; [apply xm3_names|].
  intros c c' i i' Hc Hc' Hi Hi' E.
  assert (i = i').
  { destruct xm3_ok as (_ & _ & _ & _ & _ & _ & H). destruct (H c) as (_ & _ & _ & _ & Hinj & _).
    - change (ci_online (mc_ci xm3)) with x_on. cbn [In] in Hc |- *. unfold x_on. cbn [In]. lia.
    - now apply Hinj. }
  subst i'. assert (H : i = 0 \/ i = 1 \/ i = 2) by lia. cbn [In] in Hc, Hc'.
  destruct Hc as [<-|[<-|[]]], Hc' as [<-|[<-|[]]], H as [->|[->| ->]]; vm_compute; reflexivity.
Qed.

(** C-state C6 is off on CPUs 2 and 5, and on on the other CPUs. What is saved of all the CPUs cannot be restored, not
    even on the same system with nothing changed. *)
Definition xmixed : ydict :=
  [(s2l "POLL"%string, [(s2l "value"%string, CStr (s2l "on"%string), s2l "0,1,3,4,6,7"%string); (s2l "value"%string, CInt 1, s2l "2,5"%string)]);
   (s2l "C1_ACPI"%string, [(s2l "value"%string, CStr (s2l "on"%string), s2l "0-7"%string)]);
   (s2l "C6"%string, [(s2l "value"%string, CStr (s2l "on"%string), s2l "0,1,3,4,6,7"%string); (s2l "value"%string, CInt 1, s2l "2,5"%string)])].

Lemma mixed_refuted_l : exists mc nst pnames flags gov ops d,
  idle_ok mc nst /\ obeys mc nst /\ plain_names mc nst pnames /\ same_names mc nst (ci_online (mc_ci mc)) /\ flags_ok mc nst flags /\
  let s := irun mc ops (idle_init flags gov 0 [] []) in
  fst (save_cstates mc None s) = Ok d /\ (forall ops', fst (restore mc pnames d (irun mc ops' (idle_init flags gov 0 [] []))) <> Ok tt).
Proof.
  exists xm3, (fun _ => 3), xpnames, all_on, xgov, [xoff], xmixed.
  split; [exact xm3_ok|]. split; [exact xm3_obeys|]. split; [exact xm3_plain|]. split; [apply xm3_names|]. split; [apply all_on_ok|]. cbn zeta.
  assert (E : fst (save_cstates xm3 None (irun xm3 [xoff] (idle_init all_on xgov 0 [] []))) = Ok xmixed) by (vm_compute; reflexivity).
  split; [exact E|]. intros ops'.
  destruct (save_cstates xm3 None (irun xm3 [xoff] (idle_init all_on xgov 0 [] []))) as (r, s1) eqn:Es. cbn [fst] in E. subst r.
  apply (mixed_fails xm3 (fun _ => 3) xpnames xm3_ok xm3_plain all_on xgov 0 [] [xoff] None xmixed s1 (all_on_ok _ _) Es (xm3_names _)); [|apply all_on_ok].
  intros Hu. assert (H := Hu 2 3 2 2). cbn [cs_targets] in H. change (ci_online (mc_ci xm3)) with x_on in H.
  assert (F : id_flags (irun xm3 [xoff] (idle_init all_on xgov 0 [] [])) 2 2 = id_flags (irun xm3 [xoff] (idle_init all_on xgov 0 [] [])) 3 2).
  { apply H; [unfold x_on; cbn [In]; lia|unfold x_on; cbn [In]; lia|lia|lia|reflexivity]. }
  vm_compute in F. discriminate F.
Qed.

Lemma printed_case_l :
  match aggr_cstates xm3 all_cs None true (irun xm3 [xoff] x0) with
  | (Ok (Some a), _) => a =
      [(s2l "POLL"%string, [(s2l "disable"%string, [(CInt 0, [0; 1; 3; 4; 6; 7]); (CInt 1, [2; 5])])]);
       (s2l "C1_ACPI"%string, [(s2l "disable"%string, [(CInt 0, [0; 1; 2; 3; 4; 5; 6; 7])])]);
       (s2l "C6"%string, [(s2l "disable"%string, [(CInt 0, [0; 1; 3; 4; 6; 7]); (CInt 1, [2; 5])])])]
  | _ => False
  end.
Proof. vm_compute. reflexivity. Qed.
