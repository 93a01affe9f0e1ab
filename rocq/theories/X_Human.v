(** Concrete cases for the theorems about numbers with units. *)
From Coq Require Import QArith Qabs Lqa.
From Verif Require Import Base M_Text S_Text M_Human S_Human L_Human7.

Lemma hz_unit : si_unit (s2l "Hz") (s2l "Hz") 1.
Proof. split; [cbn; tauto|]. exists [], 0. split; [now left|]. split; reflexivity. Qed.
Lemma mhz_unit : si_unit (s2l "MHz") (s2l "Hz") (inject_Z 1000000).
Proof. split; [cbn; tauto|]. exists (s2l "M"), 6. split; [cbn; tauto|]. split; reflexivity. Qed.
Lemma us_unit : si_unit (s2l "us") (s2l "s") (1 # 1000000).
Proof. split; [cbn; tauto|]. exists (s2l "u"), (-6). split; [cbn; tauto|]. split; reflexivity. Qed.
Lemma num_2_5 : number (s2l "2.5") (inject_Z 25 * (10 # 1) ^ (-1)).
Proof.
  change (inject_Z 25 * (10 # 1) ^ (-1))%Q with (inject_Z (1 * spelled (s2l "2" ++ s2l "5")) * (10 # 1) ^ (0 - Z.of_nat (length (s2l "5"))))%Q.
  apply (Number [] [] 1 (s2l "2") ["."%char] (s2l "5") [] 0 []).
  - constructor.
  - constructor.
  - constructor.
  - constructor; [unfold is_digit; cbn; lia|constructor].
  - constructor; [unfold is_digit; cbn; lia|constructor].
  - discriminate.
  - now left.
  - constructor.
Qed.
(** 1h 2m *)
Definition xtime : list part := [tpart [] 1 "h" 3600; tpart [" "%char] 2 "m" 60].
Lemma xtime_ok : time_parts xtime.
Proof.
  apply tlist_time. apply T2; [lia|constructor|cbn; tauto|lia|].
  apply T1; [lia|constructor; [cbn; lia|constructor]|cbn; tauto].
Qed.

Lemma C46_prefixed_refuted_l : exists v unit base f txt w, si_unit unit base f /\ num2si v unit 1 [] false = Ok txt /\
  parse_human txt base None false = Ok (HFloat w) /\ (1 < Qabs (w - v * f))%Q.
Proof.
  exists (inject_Z 150), (s2l "MHz"), (s2l "Hz"), (inject_Z 1000000), (s2l "150.0Hz"), (1500 # 10)%Q.
  split; [apply mhz_unit|]. split; [vm_compute; reflexivity|]. split; [vm_compute; reflexivity|]. vm_compute. reflexivity.
Qed.
Lemma C46_prefixed_scaled_refuted_l : exists v unit base f txt w, si_unit unit base f /\ (1000 # 1 <= v)%Q /\
  num2si v unit 1 [] false = Ok txt /\ parse_human txt base None false = Ok (HFloat w) /\ (1 < Qabs (w - v * f))%Q.
Proof.
  exists (inject_Z 2000000), (s2l "uW"), (s2l "W"), (1 # 1000000)%Q, (s2l "2.0uW"), (20 # 10000000)%Q.
  split; [split; [cbn; tauto|exists (s2l "u"), (-6); split; [cbn; tauto|split; reflexivity]]|].
  split; [vm_compute; discriminate|]. split; [vm_compute; reflexivity|]. split; [vm_compute; reflexivity|]. vm_compute. reflexivity.
Qed.
Lemma C46_blank_refuted_l : parse_human [] (s2l "Hz") None false = Ok (HFloat 0) /\ forall q, ~ number [] q.
Proof.
  split; [vm_compute; reflexivity|]. intros q H. remember [] as t eqn:E in H.
  destruct H as [b1 st sg ip pt fp et e b2 W1 W2 Hs Hi Hf Hne Hp He].
  apply app_eq_nil in E as (_ & E). apply app_eq_nil in E as (_ & E). apply app_eq_nil in E as (-> & E).
  apply app_eq_nil in E as (_ & E). apply app_eq_nil in E as (-> & _). now apply Hne.
Qed.
Lemma C46_days_refuted_l : exists n txt, 86400 <= n /\ duration n = Ok txt /\ parse_human txt (s2l "s") None false = Exn EError.
Proof. exists 90000. eexists. split; [lia|]. split; [vm_compute; reflexivity|]. vm_compute. reflexivity. Qed.
Lemma C46_negative_refuted_l : exists n txt w, -86400 < n < 0 /\ duration n = Ok txt /\
  parse_human txt (s2l "s") None false = Ok (HFloat w) /\ ~ (w == inject_Z n)%Q.
Proof.
  exists (-65). eexists. eexists. split; [lia|]. split; [vm_compute; reflexivity|]. split; [vm_compute; reflexivity|].
  vm_compute. discriminate.
Qed.
