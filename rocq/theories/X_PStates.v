(** Concrete cases for setting frequencies. *)
From Verif Require Import Base L_Base M_Text S_Text L_Text M_Sysfs S_Sysfs L_Sysfs S_SysView L_SysView M_CPUFreq M_Uncore S_Uncore L_Uncore M_PStates S_PStates
  X_Uncore L_Uncore3.

(** A kernel that stores what is written, with a newline, and refuses what cannot be stored. *)
Definition xpk : senv :=
  SE true (fun _ _ v => if str_eqb (strip (v ++ ["010"%char])) v then Some (v ++ ["010"%char]) else None)
     (fun _ c => c) (fun _ => false).

(** Limits of 800 MHz and 3 GHz; CPU 0 has 1 GHz to 2 GHz, CPU 1 has 2.6 GHz to 2.8 GHz. *)
Definition xpfs : str -> option str := fun p =>
  if str_eqb p (cpufreq_path true 0 true) then Some (s2l "800000")
  else if str_eqb p (cpufreq_path false 0 true) then Some (s2l "3000000")
  else if str_eqb p (cpufreq_path true 1 true) then Some (s2l "800000")
  else if str_eqb p (cpufreq_path false 1 true) then Some (s2l "3000000")
  else if str_eqb p (cpufreq_path true 0 false) then Some (s2l "1000000")
  else if str_eqb p (cpufreq_path false 0 false) then Some (s2l "2000000")
  else if str_eqb p (cpufreq_path true 1 false) then Some (s2l "2600000")
  else if str_eqb p (cpufreq_path false 1 false) then Some (s2l "2800000")
  else None.

Definition xps : sstate := SS xpfs [] [] false [].
Definition xhwp (_ : Z) : bool := true.
Definition xrd (_ : special) (_ : Z) : M sstate Z := throw ENotSupported.
Definition xspec (_ : sstate) (_ : special) (_ : Z) : res Z := Exn ENotSupported.
Definition xpio : freq_io sstate Z := cpu_sysfs_io xpk true xhwp xrd.
Definition xpv : fview sstate Z := cpu_view xpk xspec.

Lemma xspec_ok : special_ok xpk xrd xspec.
Proof. split; [|reflexivity]. intros w sp cpu. exists w. repeat split. Qed.

Lemma xfiles_ok : files_ok xpk xhwp false xps.
Proof. split; [reflexivity|]. split; [discriminate|]. intros p _ _. rewrite seen_eq. reflexivity. Qed.

Lemma xhonest : honest xpk.
Proof.
  intros p _. split; [reflexivity|]. split; [|reflexivity]. intros old val c H. cbn in H.
  destruct (str_eqb (strip (val ++ ["010"%char])) val) eqn:E; [|discriminate]. injection H as <-. now apply str_eqb_eq.
Qed.

Ltac num := vm_compute; reflexivity.
Ltac le := vm_compute; discriminate.
Ltac taken := split; [vm_compute; discriminate|split; [reflexivity|intros old; eexists; split; num]].

Lemma xlimited c : In c [0; 1] -> limited xpv xps c.
Proof.
  intros [<-|[<-|[]]].
  - exists 800000000, 3000000000, 1000000000, 2000000000. repeat (split; [num || le|]). le.
  - exists 800000000, 3000000000, 2600000000, 2800000000. repeat (split; [num || le|]). le.
Qed.

Lemma xin c f : In c [0; 1] -> 800000000 <= f <= 3000000000 -> in_limits xpv xps c f.
Proof. intros [<-|[<-|[]]] H; exists 800000000, 3000000000; (split; [num|split; [num|exact H]]). Qed.

Lemma xtaken b c f : In c [0; 1] -> In f [800000000; 2000000000; 2500000000; 2700000000; 2200000000; 2400000000; 1000000000; 2600000000; 2800000000; 3000000000] ->
  freq_taken xpk xps b f c.
Proof.
  intros Hc Hf. destruct b, Hc as [<-|[<-|[]]]; cbn [In] in Hf;
    repeat (destruct Hf as [<-|Hf]; [taken|]); destruct Hf.
Qed.

(** Both CPUs: 2.5 GHz is below the minimum of CPU 1 and above the maximum of CPU 0; 2.7 GHz is an acceptable
    maximum, and "min" is an acceptable minimum. *)
Lemma set_case :
  ~ acceptable xpv xps false (VNum 2500000000) [0; 1] /\
  ~ acceptable xpv xps true (VNum 2500000000) [0; 1] /\
  ~ acceptable xpv xps false (VNum 3100000000) [0; 1] /\
  acceptable xpv xps false (VNum 2700000000) [0; 1] /\
  acceptable xpv xps true VMin [0; 1] /\
  (forall c f, In c [0; 1] -> means xpv xps VMin [0; 1] c = Ok f -> freq_taken xpk xps true f c).
Proof.
  split; [|split; [|split; [|split; [|split]]]].
  - intros A. destruct (A 1 (or_intror (or_introl eq_refl))) as (f & E & _ & cur & C1 & C2). injection E as <-.
    assert (E1 : v_cur xpv xps (negb false) 1 = Ok 2600000000) by num. rewrite E1 in C1. injection C1 as <-. now vm_compute in C2.
  - intros A. destruct (A 0 (or_introl eq_refl)) as (f & E & _ & cur & C1 & C2). injection E as <-.
    assert (E1 : v_cur xpv xps (negb true) 0 = Ok 2000000000) by num. rewrite E1 in C1. injection C1 as <-. now vm_compute in C2.
  - intros A. destruct (A 0 (or_introl eq_refl)) as (f & E & (lo & hi & _ & L2 & _ & L3) & _). injection E as <-.
    assert (E1 : v_limit xpv xps false 0 = Ok 3000000000) by num. rewrite E1 in L2. injection L2 as <-. now vm_compute in L3.
  - intros c Hc. exists 2700000000. split; [reflexivity|]. split; [apply xin; [exact Hc|split; le]|].
    destruct Hc as [<-|[<-|[]]]; [exists 1000000000|exists 2600000000]; (split; [num|le]).
  - intros c Hc. exists 800000000. split; [destruct Hc as [<-|[<-|[]]]; num|]. split; [apply xin; [exact Hc|split; le]|].
    destruct Hc as [<-|[<-|[]]]; [exists 2000000000|exists 2800000000]; (split; [num|le]).
  - intros c f Hc E. assert (E1 : means xpv xps VMin [0; 1] c = Ok 800000000) by (destruct Hc as [<-|[<-|[]]]; num).
    rewrite E1 in E. injection E as <-. apply xtaken; [exact Hc|]. cbn. tauto.
Qed.

(** A history: lower the maximum of CPU 1, fail, raise the minimum of CPU 0, set "max" for both. *)
Definition xops : list (bool * fval * list Z) :=
  [(false, VNum 2700000000, [1]); (false, VNum 1000000000, [1]); (true, VNum 1500000000, [0]); (false, VMax, [0; 1])].

Lemma history_case :
  Forall (fun op : bool * fval * list Z => incl (snd op) [0; 1]) xops /\
  map (fun bc => v_cur xpv (freq_history xpio xops xps) (fst bc) (snd bc)) [(true, 0); (false, 0); (true, 1); (false, 1)] =
    [Ok 1500000000; Ok 3000000000; Ok 2600000000; Ok 3000000000].
Proof.
  split; [|num]. repeat (apply Forall_cons; [intros c H; cbn in *; tauto|]). constructor.
Qed.

(** Settings of the two properties for the CPUs. *)
Definition xsetp (cpus : list Z) (pn : pname) (val : fval) : M sstate Z :=
  match pn with PFreq _ b => set_freq_mechs [(1, xpio)] b val cpus | POther _ => throw EError end.

Lemma xset_with cpus u : set_with [(1, xpio)] cpus u (xsetp cpus).
Proof. intros b val. reflexivity. Qed.

Lemma xpair cpus mn mx : incl cpus [0; 1] -> mn <= mx ->
  In mn [800000000; 2000000000; 2500000000; 2700000000; 2200000000; 2400000000] ->
  In mx [800000000; 2000000000; 2500000000; 2700000000; 2200000000; 2400000000] ->
  cpu_pair xpk xhwp xspec cpus mn mx xps.
Proof.
  intros Hc Hle H1 H2. split; [reflexivity|]. split; [exact Hle|].
  assert (K : forall f, In f [800000000; 2000000000; 2500000000; 2700000000; 2200000000; 2400000000] ->
    f / 1000 * 1000 = f /\ 800000000 <= f <= 3000000000).
  { intros f H. cbn [In] in H. repeat (destruct H as [<-|H]; [split; [reflexivity|split; le]|]). destruct H. }
  split; [split; now apply K|]. split.
  { apply Forall_forall. intros c Hin. destruct (Hc c Hin) as [<-|[<-|[]]]; le. }
  split; [exact xfiles_ok|]. split; [reflexivity|]. split.
  - intros c Hin. split; [apply xlimited; auto|]. split; apply xin; auto; now apply K.
  - intros c Hin. split; apply xtaken; auto; cbn in *; tauto.
Qed.

(** CPU 1: from 2.6..2.8 GHz to 2.0..2.4 GHz, with the minimum first. *)
Lemma pair_case : cpu_pair xpk xhwp xspec [1] 2000000000 2400000000 xps /\
  exists w', set_props (xsetp [1]) (s_start xpk) (s_commit xpk)
      [(PFreq false true, VNum 2000000000); (PFreq false false, VNum 2400000000)] xps =
    (Ok [(PFreq false true, 1); (PFreq false false, 1)], w') /\
    v_cur xpv w' true 1 = Ok 2000000000 /\ v_cur xpv w' false 1 = Ok 2400000000 /\ v_cur xpv w' false 0 = Ok 2000000000.
Proof.
  split; [apply xpair; [intros c H; cbn in *; tauto|le|cbn; tauto..]|].
  eexists. split; [apply run_ok; num|]. split; [num|]. split; num.
Qed.

(** The same with the maximum first. *)
Lemma max_first_refuted_l : exists k hwp rd spec m cpus setp mn mx w,
  special_ok k rd spec /\ cpu_pair k hwp spec cpus mn mx w /\
  set_with [(m, cpu_sysfs_io k true hwp rd)] cpus false setp /\
  exists w', set_props setp (s_start k) (s_commit k) [(PFreq false false, VNum mx); (PFreq false true, VNum mn)] w = (Exn EFreqOrder, w').
Proof.
  exists xpk, xhwp, xrd, xspec, 1, [1], (xsetp [1]), 2000000000, 2400000000, xps.
  split; [exact xspec_ok|]. split; [apply pair_case|]. split; [apply xset_with|].
  eexists. apply run_ok. num.
Qed.

(** Two CPUs with different frequencies, the minimum first. *)
Lemma mixed_refuted_l : exists k hwp rd spec m cpus setp mn mx w,
  special_ok k rd spec /\ cpu_pair k hwp spec cpus mn mx w /\
  set_with [(m, cpu_sysfs_io k true hwp rd)] cpus false setp /\
  exists w', set_props setp (s_start k) (s_commit k) [(PFreq false true, VNum mn); (PFreq false false, VNum mx)] w = (Exn EFreqOrder, w').
Proof.
  exists xpk, xhwp, xrd, xspec, 1, [0; 1], (xsetp [0; 1]), 2200000000, 2400000000, xps.
  split; [exact xspec_ok|]. split; [apply xpair; [intros c H; cbn in *; tauto|le|cbn; tauto..]|]. split; [apply xset_with|].
  eexists. apply run_ok. num.
Qed.

(** ** Restoring *)

(** The state when the frequencies were saved: CPU 0 had 2.2..2.4 GHz, CPU 1 had 800 MHz..2.4 GHz. *)
Definition xps0 : sstate := SS (fun p =>
  if str_eqb p (cpufreq_path true 0 false) then Some (s2l "2200000")
  else if str_eqb p (cpufreq_path false 0 false) then Some (s2l "2400000")
  else if str_eqb p (cpufreq_path true 1 false) then Some (s2l "800000")
  else if str_eqb p (cpufreq_path false 1 false) then Some (s2l "2400000")
  else xpfs p) [] [] false [].

Definition xsav (b : bool) (c : Z) : Z :=
  if b then if c =? 0 then 2200000000 else 800000000 else 2400000000.

Definition xsetn (pn : pname) (val : fval) (cpus : list Z) : M sstate unit :=
  match pn with
  | PFreq _ b => fun w => match set_freq_mechs [(1, xpio)] b val cpus w with (Ok _, w') => (Ok tt, w') | (Exn e, w') => (Exn e, w') end
  | POther _ => ret tt
  end.

Definition xsaved (max_first : bool) : list (pname * list (fval * list Z)) :=
  if max_first then
    [(POther 1, [(VNum 1, [0; 1])])] ++ (PFreq false false, [(VNum 2400000000, [0; 1])]) :: [] ++
    (PFreq false true, [(VNum 2200000000, [0]); (VNum 800000000, [1])]) :: []
  else
    [] ++ (PFreq false true, [(VNum 2200000000, [0]); (VNum 800000000, [1])]) :: [] ++
    (PFreq false false, [(VNum 2400000000, [0; 1])]) :: [].

Lemma restore_hyps :
  restored_with [(1, xpio)] false xsetn /\
  (forall c, In c [0; 1] -> limited xpv xps0 c /\ forall b, v_cur xpv xps0 b c = Ok (xsav b c)) /\
  (forall c, In c [0; 1] -> limited xpv xps c /\ (forall b, v_limit xpv xps b c = v_limit xpv xps0 b c) /\
     (forall b, freq_taken xpk xps b (xsav b c) c) /\
     (forall b f, v_limit xpv xps b c = Ok f -> freq_taken xpk xps b f c)) /\
  unrelated xpv (files_ok xpk xhwp false) (fun c => 0 <= c) (fun w b f c => freq_taken xpk w b f c) xsetn (POther 1) /\
  groups_of xsav true [0; 1] [(VNum 2200000000, [0]); (VNum 800000000, [1])] /\
  groups_of xsav false [0; 1] [(VNum 2400000000, [0; 1])].
Proof.
  split; [intros b val keys w; reflexivity|]. split; [|split; [|split; [|split]]].
  - intros c [<-|[<-|[]]].
    + split; [|intros []; num]. exists 800000000, 3000000000, 2200000000, 2400000000. repeat (split; [num || le|]). le.
    + split; [|intros []; num]. exists 800000000, 3000000000, 800000000, 2400000000. repeat (split; [num || le|]). le.
  - intros c Hc. split; [now apply xlimited|]. split; [|split].
    + intros b. destruct Hc as [<-|[<-|[]]], b; num.
    + intros b. apply xtaken; [exact Hc|]. destruct b, Hc as [<-|[<-|[]]]; cbn; tauto.
    + intros b f E. apply xtaken; [exact Hc|].
      assert (E1 : v_limit xpv xps b c = Ok (if b then 800000000 else 3000000000)) by (destruct Hc as [<-|[<-|[]]], b; num).
      rewrite E1 in E. injection E as <-. destruct b; cbn; tauto.
  - intros w val nums G. exists w. split; [reflexivity|]. split; [exact G|]. intros b key _. auto.
  - split.
    + intros val nums [[= <- <-]|[[= <- <-]|[]]]; eexists; (split; [reflexivity|]); intros key [<-|[]]; (split; [cbn; tauto|reflexivity]).
    + intros key [<-|[<-|[]]]; [exists (VNum 2200000000), [0]|exists (VNum 800000000), [1]]; cbn; tauto.
  - split.
    + intros val nums [[= <- <-]|[]]; eexists; (split; [reflexivity|]); intros key [<-|[<-|[]]]; (split; [cbn; tauto|reflexivity]).
    + intros key Hk. exists (VNum 2400000000), [0; 1]. split; [now left|exact Hk].
Qed.

Lemma restore_case first : exists w', restore_props (ret tt) (ret tt) xsetn VMin VMax (xsaved first) xps = (Ok tt, w') /\
  map (fun bc => v_cur xpv w' (fst bc) (snd bc)) [(true, 0); (false, 0); (true, 1); (false, 1)] =
    [Ok 2200000000; Ok 2400000000; Ok 800000000; Ok 2400000000].
Proof. destruct first; (eexists; split; [apply run_ok; num|num]). Qed.

(** ** Dies *)
Definition xdir (pd : Z * Z) : str := if snd pd =? 0 then s2l "uncore00" else s2l "uncore01".

(** Limits of 800 MHz and 2 GHz. *)
Definition xufiles : str -> option Z := fun q =>
  if str_eqb q (legacy_path KMax 0 0 true) then Some 2000000
  else if str_eqb q (legacy_path KMax 0 0 false) then Some 1500000
  else if str_eqb q (uncore_path (s2l "uncore00") KMax true) then Some 2000000
  else if str_eqb q (uncore_path (s2l "uncore01") KMax true) then Some 2000000
  else if str_eqb q (uncore_path (s2l "uncore00") KMax false) then Some 1500000
  else if str_eqb q (uncore_path (s2l "uncore01") KMax false) then Some 1200000
  else Some 800000.

Definition xuio : uio kstate := kernel_uio (xeff (fun _ => true)).
Definition xus : ust kstate := US (KS xufiles []) false None.
Definition xuv : fview (ust kstate) (Z * Z) := uncore_view kview xdir.

Lemma xu_ok : uncore_ok xuio kview kfresh xe.
Proof. split; [exact xe_ok|]. apply kernel_behaves. apply xeff_ok. Qed.

Lemma xu_dirs : Forall (has_dir xe xdir) [(0, 0); (0, 1)].
Proof. repeat constructor; apply xe_shows; cbn; auto. Qed.

Lemma xu_failure ok : unchanged_on_failure (kernel_uio (xeff ok)) kview kfresh.
Proof.
  intros p n w w' x E q. cbn in E. unfold kview, kfresh.
  assert (X : ks_files w' = ks_files w /\ ks_cache w' = ddel str_eqb (ks_cache w) p).
  { destruct (ks_files w p); [|injection E as _ <-; now split].
    destruct (xeff ok p n (ks_files w)); [discriminate|]. injection E as _ <-. now split. }
  destruct X as [-> ->]. split; [reflexivity|]. destruct (str_dec q p) as [->|Hne].
  - rewrite dget_ddel_same. exact (fun _ => Logic.I).
  - rewrite (dget_ddel_other _ str_eqb_eq) by exact Hne. exact (fun H => H).
Qed.

Lemma xJ_start : xthere (us_w xus).
Proof. intros f. cbn. unfold xufiles. repeat (destruct (str_eqb _ _); [discriminate|]). discriminate. Qed.

Lemma xu_good : start_ok kfresh xe xus.
Proof. split; [now left|]. split; [intros; exact Logic.I|intros _ f _; exact Logic.I]. Qed.

Lemma xulimited pd : In pd [(0, 0); (0, 1)] -> limited xuv xus pd.
Proof.
  intros [<-|[<-|[]]].
  - exists 800000000, 2000000000, 800000000, 1500000000. repeat (split; [num || le|]). le.
  - exists 800000000, 2000000000, 800000000, 1200000000. repeat (split; [num || le|]). le.
Qed.

Lemma xuin pd f : In pd [(0, 0); (0, 1)] -> 800000000 <= f <= 2000000000 -> in_limits xuv xus pd f.
Proof. intros [<-|[<-|[]]] H; exists 800000000, 2000000000; (split; [num|split; [num|exact H]]). Qed.

Lemma die_case :
  acceptable xuv xus false (VSpecial SMdl) [(0, 0); (0, 1)] /\
  ~ acceptable xuv xus true (VSpecial SMdl) [(0, 0); (0, 1)] /\
  ~ acceptable xuv xus true (VNum 700000000) [(0, 1)].
Proof.
  split; [|split].
  - intros pd Hp. exists 1400000000. split; [destruct Hp as [<-|[<-|[]]]; num|]. split; [apply xuin; [exact Hp|split; le]|].
    exists 800000000. split; [destruct Hp as [<-|[<-|[]]]; num|le].
  - intros A. destruct (A (0, 1) (or_intror (or_introl eq_refl))) as (f & E & _ & cur & C1 & C2).
    assert (E0 : means xuv xus (VSpecial SMdl) [(0, 0); (0, 1)] (0, 1) = Ok 1400000000) by num. rewrite E0 in E. injection E as <-.
    assert (E1 : v_cur xuv xus (negb true) (0, 1) = Ok 1200000000) by num. rewrite E1 in C1. injection C1 as <-. now vm_compute in C2.
  - intros A. destruct (A (0, 1) (or_introl eq_refl)) as (f & E & (lo & hi & L1 & _ & L3 & _) & _). injection E as <-.
    assert (E1 : v_limit xuv xus true (0, 1) = Ok 800000000) by num. rewrite E1 in L1. injection L1 as <-. now vm_compute in L3.
Qed.

Definition xuops : list (bool * fval * list (Z * Z)) :=
  [(true, VNum 1100000000, [(0, 0); (0, 1)]); (false, VNum 1000000000, [(0, 0)]); (false, VMax, [(0, 1)])].

Lemma die_history_case :
  Forall (fun op : bool * fval * list (Z * Z) => incl (snd op) [(0, 0); (0, 1)]) xuops /\
  map (fun bc => v_cur xuv (freq_history (uncore_io xuio xe) xuops xus) (fst bc) (snd bc))
      [(true, (0, 0)); (false, (0, 0)); (true, (0, 1)); (false, (0, 1))] =
    [Ok 1100000000; Ok 1500000000; Ok 1100000000; Ok 2000000000].
Proof.
  split; [|num]. repeat (apply Forall_cons; [intros c H; cbn in *; tauto|]). constructor.
Qed.

Definition xusetp (dies : list (Z * Z)) (pn : pname) (val : fval) : M (ust kstate) Z :=
  match pn with PFreq _ b => set_freq_mechs [(1, uncore_io xuio xe)] b val dies | POther _ => throw EError end.

Lemma die_pair_case : die_pair kview kfresh xe xdir xthere [(0, 0)] 1600000000 1800000000 xus /\
  exists s', set_props (xusetp [(0, 0)]) (ret tt) (ret tt)
      [(PFreq true true, VNum 1600000000); (PFreq true false, VNum 1800000000)] xus =
    (Ok [(PFreq true false, 1); (PFreq true true, 1)], s') /\
    v_cur xuv s' true (0, 0) = Ok 1600000000 /\ v_cur xuv s' false (0, 0) = Ok 1800000000 /\ v_cur xuv s' false (0, 1) = Ok 1200000000.
Proof.
  split.
  - split; [le|]. split; [split; reflexivity|]. split; [repeat constructor; apply xe_shows; cbn; auto|].
    split; [exact xu_good|]. split; [|exact xJ_start]. intros c Hc.
    assert (Hc' : In c [(0, 0); (0, 1)]) by (cbn in *; tauto).
    split; [now apply xulimited|]. split; apply xuin; [exact Hc'|split; le|exact Hc'|split; le].
  - eexists. split; [apply run_ok; num|]. split; [num|]. split; num.
Qed.

(** Frequencies saved in [xus], restored when the dies have 1.6..1.8 GHz. *)
Definition xus1 : ust kstate := US (KS (fun q =>
  if str_eqb q (uncore_path (s2l "uncore00") KMax false) then Some 1800000
  else if str_eqb q (uncore_path (s2l "uncore01") KMax false) then Some 1800000
  else if str_eqb q (uncore_path (s2l "uncore00") KMin false) then Some 1600000
  else if str_eqb q (uncore_path (s2l "uncore01") KMin false) then Some 1600000
  else xufiles q) []) false None.

Definition xusav (b : bool) (pd : Z * Z) : Z :=
  if b then 800000000 else if snd pd =? 0 then 1500000000 else 1200000000.

Definition xusetn (pn : pname) (val : fval) (dies : list (Z * Z)) : M (ust kstate) unit :=
  match pn with
  | PFreq _ b => fun w => match set_freq_mechs [(1, uncore_io xuio xe)] b val dies w with (Ok _, w') => (Ok tt, w') | (Exn e, w') => (Exn e, w') end
  | POther _ => ret tt
  end.

Lemma die_restore_case :
  restored_with [(1, uncore_io xuio xe)] true xusetn /\
  (forall c, In c [(0, 0); (0, 1)] -> limited xuv xus c /\ forall b, v_cur xuv xus b c = Ok (xusav b c)) /\
  start_ok kfresh xe xus1 /\ xthere (us_w xus1) /\
  (forall c, In c [(0, 0); (0, 1)] -> limited xuv xus1 c /\ forall b, v_limit xuv xus1 b c = v_limit xuv xus b c) /\
  groups_of xusav true [(0, 0); (0, 1)] [(VNum 800000000, [(0, 0); (0, 1)])] /\
  groups_of xusav false [(0, 0); (0, 1)] [(VNum 1500000000, [(0, 0)]); (VNum 1200000000, [(0, 1)])].
Proof.
  split; [intros b val keys w; reflexivity|]. split; [|split; [|split; [|split; [|split]]]].
  - intros c Hc. split; [now apply xulimited|]. intros b. destruct Hc as [<-|[<-|[]]], b; num.
  - split; [now left|]. split; [intros; exact Logic.I|intros _ f _; exact Logic.I].
  - intros f. cbn. unfold xufiles. repeat (destruct (str_eqb _ _); [discriminate|]). discriminate.
  - intros c Hc. split; [exists 800000000, 2000000000, 1600000000, 1800000000|intros b]; destruct Hc as [<-|[<-|[]]];
      [repeat (split; [num || le|]); le..|destruct b; num|destruct b; num].
  - split.
    + intros val nums [[= <- <-]|[]]; eexists; (split; [reflexivity|]); intros key [<-|[<-|[]]]; (split; [cbn; tauto|reflexivity]).
    + intros key Hk. eexists. exists [(0, 0); (0, 1)]. split; [now left|exact Hk].
  - split.
    + intros val nums [[= <- <-]|[[= <- <-]|[]]]; eexists; (split; [reflexivity|]); intros key [<-|[]]; (split; [cbn; tauto|reflexivity]).
    + intros key [<-|[<-|[]]]; [exists (VNum 1500000000), [(0, 0)]|exists (VNum 1200000000), [(0, 1)]]; cbn; tauto.
Qed.

Lemma cpufreq_files cpu : let dir := s2l "/sys/devices/system/cpu/cpufreq/policy" ++ dec cpu in
  cpufreq_path true cpu false = dir ++ s2l "/scaling_min_freq" /\
  cpufreq_path false cpu false = dir ++ s2l "/scaling_max_freq" /\
  cpufreq_path true cpu true = dir ++ s2l "/cpuinfo_min_freq" /\
  cpufreq_path false cpu true = dir ++ s2l "/cpuinfo_max_freq".
Proof. unfold cpufreq_path, fkey_text. repeat split; rewrite <- !app_assoc; reflexivity. Qed.
