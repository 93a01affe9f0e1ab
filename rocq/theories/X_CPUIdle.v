(** Example machines for C31 and C49, and the cases in which the claims are false. *)
From Coq Require Import Ascii String ZifyBool Permutation Sorted.
From Verif Require Import Base L_Base L_Monad M_CPUInfo S_CPUInfo L_CPUInfo X_CPUInfo M_Text S_Text L_Text M_Human L_Human M_CPUIdle S_CPUIdle L_CPUIdle L_CPUIdle2.
From Verif Require L_EP.

Definition xline_of (t : string) : str := s2l t ++ ["010"%char].

Definition xname (i : Z) : str := if i =? 0 then xline_of "POLL" else if i =? 1 then xline_of "C1_ACPI" else xline_of "c6".

Definition xtext (c i : Z) (f : str) (t : Z) : str :=
  if str_eqb f (s2l "name"%string) then xname i
  else if str_eqb f (s2l "desc"%string) then xline_of "ACPI FFH"
  else if str_eqb f (s2l "latency"%string) then xline_of "2"
  else if str_eqb f (s2l "usage"%string) then dec (Z.max 0 t) ++ ["010"%char]
  else xline_of "1".

(** CPU [c] has the C-states 0, ..., [n c] - 1. *)
Definition xfiles (cpus : list Z) (n : Z -> nat) : list (Z * Z * str) :=
  flat_map (fun c => flat_map (fun i => map (fun f => (c, Z.of_nat i, f)) (s2l "above"%string :: cst_fnames)) (seq 0 (n c))) cpus.

Definition xmachine (ci : cpuinfo) (cache : bool) (n : Z -> nat) (gstore : str -> str -> option str) : machine :=
  MC ci cache (xfiles (ci_online ci) n) xtext (fun _ _ _ new => Some new) (Some (xline_of "intel_idle"))
     (Some (xline_of "ladder menu teo")) true gstore.

Definition xm (n : Z -> nat) : machine := xmachine xci true n (fun old new => if nonemptyb new then Some new else None).

Lemma xfiles_In cpus n c i f : In (c, i, f) (xfiles cpus n) <->
  In c cpus /\ 0 <= i < Z.of_nat (n c) /\ In f (s2l "above"%string :: cst_fnames).
Proof.
  unfold xfiles. rewrite in_flat_map. split.
  - intros (d & Hd & H). apply in_flat_map in H as (k & Hk & H). apply in_map_iff in H as (g & E & Hg). apply in_seq in Hk.
    assert (d = c) by congruence. assert (i = Z.of_nat k) by congruence. assert (f = g) by congruence. subst. split; [exact Hd|]. split; [lia|exact Hg].
  - intros (Hc & Hi & Hf). exists c. split; [exact Hc|]. apply in_flat_map. exists (Z.to_nat i). split; [apply in_seq; lia|].
    apply in_map_iff. exists f. rewrite Z2Nat.id by lia. now split.
Qed.

Lemma xfiles_NoDup cpus n : NoDup cpus -> NoDup (xfiles cpus n).
Proof.
  intros Hc. unfold xfiles. apply NoDup_flat_map'; [exact Hc| |].
  - intros c _. apply NoDup_flat_map'; [apply seq_NoDup| |].
    + intros i _. apply FinFun.Injective_map_NoDup; [intros f g E; congruence|].
      unfold cst_fnames. repeat (constructor; [cbn; intuition discriminate|]). constructor.
    + intros i j b Hi Hj H1 H2. apply in_map_iff in H1 as (f & <- & _). apply in_map_iff in H2 as (g & E & _). 
      assert (Z.of_nat j = Z.of_nat i) by congruence. lia.
  - intros c d b _ _ H1 H2. apply in_flat_map in H1 as (i & _ & H1). apply in_flat_map in H2 as (j & _ & H2).
    apply in_map_iff in H1 as (f & <- & _). apply in_map_iff in H2 as (g & E & _). congruence.
Qed.

Lemma one_line_b t : has_char "010" (removelast t) = false -> last t "000"%char = "010"%char -> one_line t.
Proof.
  intros H1 H2. exists (removelast t). split; [|now apply has_char_false].
  destruct t as [|a t]; [discriminate|]. rewrite <- H2. apply app_removelast_last. discriminate.
Qed.

Lemma xtext_line c i f t : In f cst_fnames -> one_line (xtext c i f t) /\
  (is_int (strip (xtext c i f t)) = true -> py_int (strip (xtext c i f t)) <> None).
Proof.
  intros Hf. unfold cst_fnames in Hf. cbn [map In] in Hf.
  repeat destruct Hf as [<-|Hf]; try contradiction.
  - change (xtext c i _ t) with (xname i). unfold xname.
    destruct (i =? 0); [split; [apply one_line_b; reflexivity|discriminate]|].
    destruct (i =? 1); (split; [apply one_line_b; reflexivity|discriminate]).
  - change (xtext c i _ t) with (xline_of "ACPI FFH"). split; [apply one_line_b; reflexivity|discriminate].
  - change (xtext c i _ t) with (xline_of "1"). split; [apply one_line_b; reflexivity|discriminate].
  - change (xtext c i _ t) with (xline_of "2"). split; [apply one_line_b; reflexivity|discriminate].
  - change (xtext c i _ t) with (xline_of "1"). split; [apply one_line_b; reflexivity|discriminate].
  - change (xtext c i _ t) with (xline_of "1"). split; [apply one_line_b; reflexivity|discriminate].
  - change (xtext c i _ t) with (dec (Z.max 0 t) ++ ["010"%char]).
    assert (Hs : Forall (fun x => is_space x = false) (dec (Z.max 0 t))).
    { destruct (dec_numeral (Z.max 0 t)) as (_ & Hd & _); [lia|]. eapply Forall_impl; [|exact Hd]. apply digit_nospace. }
    split.
    + exists (dec (Z.max 0 t)). split; [reflexivity|]. intros H. rewrite Forall_forall in Hs. now specialize (Hs _ H).
    + rewrite strip_nl by exact Hs. intros _. rewrite L_EP.py_int_dec by lia. discriminate.
Qed.

Lemma xidle_ok ci n gs : wf_ci ci -> In 0 (ci_online ci) -> (forall c, In c (ci_online ci) -> 0 <= c /\ (2 <= n c <= 3)%nat) ->
  idle_ok (xmachine ci true n gs) (fun c => Z.of_nat (n c)).
Proof.
  intros Hw H0 Hn. unfold idle_ok. cbn [xmachine mc_ci mc_cache mc_driver mc_files mc_text mc_store].
  split; [exact Hw|]. split; [reflexivity|]. split; [exact H0|]. split; [exists (xline_of "intel_idle"); split; [reflexivity|discriminate]|].
  split; [apply xfiles_NoDup, Hw|]. split.
  - intros c i f H. apply xfiles_In in H as (Hc & Hi & Hf). split; [now apply Hn|]. split; [lia|].
    unfold cst_fnames in Hf. cbn [map In] in Hf.
    repeat (destruct Hf as [<-|Hf]; [split; [discriminate|]; split; [apply has_char_false; reflexivity|apply nospaceb; reflexivity]|]). contradiction.
  - intros c Hc. destruct (Hn c Hc) as (Hp & H23). split; [lia|]. split; [|split; [|split; [|split]]].
    + intros i f Hf. rewrite xfiles_In. split; [tauto|]. intros Hi. split; [exact Hc|]. split; [exact Hi|now right].
    + intros i f t Hi Hf. now apply xtext_line.
    + intros i t Hi. split; [reflexivity|]. change (xtext c i _ 0) with (xname i). unfold xname. destruct (i =? 0); [reflexivity|]. destruct (i =? 1); reflexivity.
    + intros i j Hi Hj E. unfold cs_name in E. cbn [mc_text] in E.
      change (xtext c i (s2l "name"%string) 0) with (xname i) in E. change (xtext c j (s2l "name"%string) 0) with (xname j) in E.
      assert (Hij : (i = 0 \/ i = 1 \/ i = 2) /\ (j = 0 \/ j = 1 \/ j = 2)) by lia.
      destruct Hij as ([->|[->| ->]] & [->|[->| ->]]); try reflexivity; discriminate.
    + intros i old off new Hi [= <-]. now left.
Qed.

Definition all_on : Z -> Z -> str := fun _ _ => flag_text false.

Lemma all_on_ok mc nst : flags_ok mc nst all_on.
Proof. intros c i _ _. now exists false. Qed.

Definition three : Z -> nat := fun _ => 3%nat.
Definition xgov : str := xline_of "menu".
Definition xm3 : machine := xm three.
Definition x0 : idle := idle_init all_on xgov 0 [] [].
Definition all_cs : csarg := CsText (s2l "all"%string).

Lemma xci_on c : In c (ci_online xci) -> 0 <= c.
Proof. change (ci_online xci) with x_on. unfold x_on. cbn [In]. lia. Qed.

Lemma xm_ok n : (forall c, (2 <= n c <= 3)%nat) -> idle_ok (xm n) (fun c => Z.of_nat (n c)).
Proof.
  intros H. apply xidle_ok; [exact xci_wf|now left|]. intros c Hc. split; [now apply xci_on|apply H].
Qed.

Lemma xm3_ok : idle_ok xm3 (fun _ => 3).
Proof. apply (xm_ok three). intros c. unfold three. lia. Qed.

Lemma xm3_names cpus : same_names xm3 (fun _ => 3) cpus.
Proof. intros c c' n _ _ H. exact H. Qed.

Lemma xm3_obeys : obeys xm3 (fun _ => 3).
Proof. intros c i old off _ _. reflexivity. Qed.

(** Disabling two C-states, by names in whatever case, on two CPUs; then the C-states of three CPUs. *)
Definition xoff : iop := IToggle (CsText (s2l "c6,Poll"%string)) (Some [2; 5]) false.

Lemma idle_case_l :
  idle_ok xm3 (fun _ => 3) /\ flags_ok xm3 (fun _ => 3) all_on /\ obeys xm3 (fun _ => 3) /\
  fst (toggle_cstates xm3 (CsText (s2l "c6,Poll"%string)) (Some [2; 5]) false x0) =
    Ok [(2, [s2l "C6"%string; s2l "POLL"%string]); (5, [s2l "C6"%string; s2l "POLL"%string])] /\
  map (fun t => id_flags (irun xm3 [xoff] x0) (fst t) (snd t)) [(2, 0); (2, 1); (2, 2); (5, 2); (4, 2)] =
    [flag_text true; flag_text false; flag_text true; flag_text true; flag_text false] /\
  (exists r, fst (get_cstates_info xm3 (Some [5; 4; 5]) all_cs (irun xm3 [xoff] x0)) = Ok r /\ map fst r = [5; 4] /\
     map (fun ci => map (fun nc => (fst nc, dget str_eqb (snd nc) (s2l "disable"%string))) (snd ci)) r =
     [[(s2l "POLL"%string, Some (CInt 1)); (s2l "C1_ACPI"%string, Some (CInt 0)); (s2l "C6"%string, Some (CInt 1))];
      [(s2l "POLL"%string, Some (CInt 0)); (s2l "C1_ACPI"%string, Some (CInt 0)); (s2l "C6"%string, Some (CInt 0))]]).
Proof.
  split; [exact xm3_ok|]. split; [apply all_on_ok|]. split; [exact xm3_obeys|]. split; [vm_compute; reflexivity|].
  split; [vm_compute; reflexivity|]. eexists. split; [vm_compute; reflexivity|]. split; vm_compute; reflexivity.
Qed.

(** The hypotheses of the refusals. *)
Lemma idle_refused_case_l :
  In 3 (cs_targets xm3 (Some [3])) /\ ~ is_all (CsList [s2l "C8"%string]) /\
  asked (CsList [s2l "C8"%string]) (own_names xm3 (fun _ => 3) 3) (s2l "C8"%string) /\
  ~ In (s2l "C8"%string) (own_names xm3 (fun _ => 3) 3) /\
  fst (toggle_cstates xm3 (CsList [s2l "C8"%string]) (Some [3]) false x0) = Exn EError /\
  In 9 (cs_targets xm3 (Some [9])) /\ ~ In 9 (ci_online (mc_ci xm3)).
Proof.
  split; [now left|]. split; [discriminate|]. split; [exists (s2l "C8"%string); split; [now left|reflexivity]|].
  split; [vm_compute; intuition discriminate|]. split; [vm_compute; reflexivity|]. split; [now left|]. vm_compute. intuition discriminate.
Qed.

Definition xmg : machine :=
  xmachine xci true three (fun _ new => if str_eqb (strip (new ++ ["010"%char])) new then Some (new ++ ["010"%char]) else None).

Lemma xmg_stores : gov_stores xmg.
Proof. intros old g new H. cbn [mc_gstore xmg xmachine] in H. destruct (str_eqb _ g) eqn:E; [|discriminate]. injection H as <-. now apply str_eqb_eq. Qed.

Lemma xmg_accepts : gov_accepts xmg.
Proof.
  split; [reflexivity|]. intros old g (t & [= <-] & H). vm_compute in H. repeat (destruct H as [<-|H]; [eexists; reflexivity|]). contradiction.
Qed.

(** The governor. *)
Lemma gov_case_l :
  idle_ok xmg (fun _ => 3) /\ gov_stores xmg /\ gov_accepts xmg /\ flags_ok xmg (fun _ => 3) all_on /\ offered xmg (s2l "teo"%string) /\ ~ offered xmg (s2l "haltpoll"%string) /\
  fst (set_current_governor xmg (s2l "teo"%string) x0) = Ok tt /\
  fst (get_current_governor xmg x0) = Ok (s2l "menu"%string) /\
  fst (get_current_governor xmg (irun xmg [xoff; IGovernor; ISetGovernor (s2l "teo"%string); ISetGovernor (s2l "haltpoll"%string); xoff] x0)) =
    Ok (s2l "teo"%string).
Proof.
  split; [apply (xidle_ok xci three); [exact xci_wf|now left|]; intros c Hc; split; [now apply xci_on|unfold three; lia]|].
  split; [exact xmg_stores|]. split; [exact xmg_accepts|].
  split; [apply all_on_ok|]. split; [exists (xline_of "ladder menu teo"); split; [reflexivity|]; vm_compute; tauto|].
  split; [intros (t & [= <-] & H); vm_compute in H; intuition discriminate|].
  split; [vm_compute; reflexivity|]. split; vm_compute; reflexivity.
Qed.

(** Where the claims are false. *)

(** A CPU with fewer C-states than another one: "all" is the names of the first CPU. *)
Definition two0 : Z -> nat := fun c => if c =? 0 then 2%nat else 3%nat.

Lemma all_refuted_l : exists mc nst flags cpus ts s',
  idle_ok mc nst /\ obeys mc nst /\ flags_ok mc nst flags /\
  disable_cstates mc (CsText (s2l "all"%string)) cpus (idle_init flags [] 0 [] []) = (Ok ts, s') /\
  exists c i, In c (cs_targets mc cpus) /\ 0 <= i < nst c /\ id_flags s' c i = flag_text false.
Proof.
  exists (xm two0), (fun c => Z.of_nat (two0 c)), all_on, (Some [0; 1]).
  eexists. eexists. split; [apply xm_ok; intros c; unfold two0; destruct (c =? 0); lia|]. split; [intros c i old off _ _; reflexivity|]. split; [apply all_on_ok|].
  split; [|exists 1, 2; split; [right; now left|]; split; [vm_compute; split; congruence|]].
  - match goal with |- ?m = (Ok ?r, ?s) => let v := eval vm_compute in (fst m) in
      match v with Ok ?w => unify r w; unify s (snd m) end end.
    match goal with |- ?m = (?r, snd ?m) => rewrite (surjective_pairing m) at 1; replace (fst m) with r; [reflexivity|vm_compute; reflexivity] end.
  - vm_compute. reflexivity.
Qed.

(** The other way round, nothing can be read. *)
Definition two1 : Z -> nat := fun c => if c =? 1 then 2%nat else 3%nat.

Lemma all_fails_refuted_l : exists mc nst flags,
  idle_ok mc nst /\ flags_ok mc nst flags /\
  fst (get_cstates_info mc None (CsText (s2l "all"%string)) (idle_init flags [] 0 [] [])) = Exn EError.
Proof.
  exists (xm two1), (fun c => Z.of_nat (two1 c)), all_on. split; [apply xm_ok; intros c; unfold two1; destruct (c =? 1); lia|]. split; [apply all_on_ok|].
  vm_compute. reflexivity.
Qed.

(** Every CPU has one C-state: it is not listed. *)
Lemma single_refuted_l : exists mc flags r,
  mc_cache mc = true /\
  (forall c f, In c (ci_online (mc_ci mc)) -> In f cst_fnames -> In (c, 0, f) (mc_files mc)) /\
  fst (get_cstates_info mc None (CsText (s2l "all"%string)) (idle_init flags [] 0 [] [])) = Ok r /\
  forall c info, In (c, info) r -> info = [].
Proof.
  exists (xm (fun _ => 1%nat)), all_on. eexists. split; [reflexivity|]. split.
  - intros c f Hc Hf. apply xfiles_In. split; [exact Hc|]. split; [cbn; lia|now right].
  - split; [vm_compute; reflexivity|]. cbn [In]. intros c info H.
    repeat (destruct H as [H|H]; [apply pair_equal_spec in H as (_ & <-); reflexivity|]). contradiction.
Qed.

(** One CPU without C-states: no C-states of any CPU. *)
Lemma none_refuted_l : exists mc flags,
  mc_cache mc = true /\ (forall c, In c (ci_online (mc_ci mc)) -> c <> 7 -> forall i f, In i [0; 1; 2] -> In f cst_fnames -> In (c, i, f) (mc_files mc)) /\
  fst (get_cstates_info mc None (CsText (s2l "all"%string)) (idle_init flags [] 0 [] [])) = Exn ENotFound.
Proof.
  exists (xm (fun c => if c =? 7 then 0%nat else 3%nat)), all_on. split; [reflexivity|]. split.
  - intros c Hc H7 i f Hi Hf. apply xfiles_In. split; [exact Hc|]. destruct (Z.eqb_spec c 7); [contradiction|]. cbn [In] in Hi. split; [cbn; lia|now right].
  - vm_compute. reflexivity.
Qed.

(** Without caching nothing can be read. *)
Lemma nocache_refuted_l : exists mc flags,
  mc_cache mc = false /\ idle_ok (MC (mc_ci mc) true (mc_files mc) (mc_text mc) (mc_store mc) (mc_driver mc) (mc_avail mc) (mc_hasgov mc) (mc_gstore mc)) (fun _ => 3) /\
  fst (get_cstates_info mc None (CsText (s2l "all"%string)) (idle_init flags [] 0 [] [])) = Exn ENotFound.
Proof.
  exists (xmachine xci false three (fun _ new => Some new)), all_on. split; [reflexivity|]. split.
  - apply (xidle_ok xci three); [exact xci_wf|now left|]. intros c Hc. split; [now apply xci_on|unfold three; lia].
  - vm_compute. reflexivity.
Qed.

(** CPU 0 is offline: the driver cannot be read. *)
Definition ci_no0 : cpuinfo := after_hotplug xsys [1; 2; 3] [].

Lemma cpu0_refuted_l : exists mc flags,
  mc_driver mc <> None /\ ~ In 0 (ci_online (mc_ci mc)) /\
  (forall c i f, In c (ci_online (mc_ci mc)) -> In i [0; 1; 2] -> In f cst_fnames -> In (c, i, f) (mc_files mc)) /\
  fst (get_cstates_info mc None (CsText (s2l "all"%string)) (idle_init flags [] 0 [] [])) = Exn EError.
Proof.
  exists (xmachine ci_no0 true three (fun _ new => Some new)), all_on. split; [discriminate|]. split; [vm_compute; intuition discriminate|]. split.
  - intros c i f Hc Hi Hf. apply xfiles_In. split; [exact Hc|]. cbn [In] in Hi. split; [unfold three; lia|now right].
  - vm_compute. reflexivity.
Qed.

(** A read error after the write: what is cached is wrong from then on. *)
Lemma stale_refuted_l : exists mc nst flags rf r s',
  idle_ok mc nst /\ obeys mc nst /\ flags_ok mc nst flags /\
  let s := irun mc [IToggle (CsList [s2l "C6"%string]) (Some [3]) false] (idle_init flags [] 0 rf []) in
  id_rf s = [] /\ get_cpu_cstate_info mc 3 (s2l "C6"%string) s = (Ok (Some r), s') /\
  exists cs, In (s2l "C6"%string, cs) r /\ shows_off cs false /\ id_flags s' 3 2 = flag_text true.
Proof.
  exists xm3, (fun _ => 3), all_on, [false; false; false; true]. eexists. eexists. split; [exact xm3_ok|]. split; [exact xm3_obeys|]. split; [apply all_on_ok|].
  cbn zeta. split; [vm_compute; reflexivity|]. split; [|eexists; split; [|split]].
  - match goal with |- ?m = (Ok (Some ?r), ?s) => let v := eval vm_compute in (fst m) in
      match v with Ok (Some ?w) => unify r w; unify s (snd m) end end.
    match goal with |- ?m = (?r, snd ?m) => rewrite (surjective_pairing m) at 1; replace (fst m) with r; [reflexivity|vm_compute; reflexivity] end.
  - left. reflexivity.
  - vm_compute. reflexivity.
  - vm_compute. reflexivity.
Qed.

(** The kernel keeps its governor: nobody notices, and the wrong one is reported from then on. *)
Lemma gov_unnoticed_l : exists mc nst flags gov g s',
  idle_ok mc nst /\ offered mc g /\ set_current_governor mc g (idle_init flags gov 0 [] []) = (Ok tt, s') /\
  fst (get_current_governor mc s') = Ok g /\ strip (id_gov s') <> g.
Proof.
  exists (xmachine xci true three (fun old _ => Some old)), (fun _ => 3), all_on, xgov, (s2l "teo"%string). eexists.
  split; [apply (xidle_ok xci three); [exact xci_wf|now left|]; intros c Hc; split; [now apply xci_on|unfold three; lia]|].
  split; [exists (xline_of "ladder menu teo"); split; [reflexivity|]; vm_compute; tauto|].
  split; [|split].
  - match goal with |- ?m = (?r, ?s) => unify s (snd m); rewrite (surjective_pairing m) at 1; replace (fst m) with r; [reflexivity|vm_compute; reflexivity] end.
  - vm_compute. reflexivity.
  - vm_compute. discriminate.
Qed.
