(** An example machine for C72, and refutation witnesses. *)
From Coq Require Import Ascii String ZifyBool.
From Verif Require Import Base L_Base M_CPUInfo S_CPUInfo L_CPUInfo L_CPUInfo2 L_Hotplug X_CPUInfo M_Text M_Props S_Props X_Props
  M_OpTarget X_OpTarget M_Print S_Print X_Print S_Keep.

(** Properties: 0 CPU scope, 1 global, 2 package scope, 3 package scope with core I/O scope, 4 die scope, 5 core scope, 6 read-only. The
    state is a table by property and I/O unit. *)
Definition kscope (p : Z) : scope :=
  if p =? 1 then SGlobal else if p =? 2 then SPackage else if p =? 3 then SPackage else if p =? 4 then SDie else if p =? 5 then SCore else SCPU.
Definition kio (p : Z) : scope :=
  if p =? 1 then SGlobal else if p =? 2 then SPackage else if p =? 3 then SCore else if p =? 4 then SDie else if p =? 5 then SCore else SCPU.
Definition kline (c : Z) : option tline := find (fun t => negb (t_cpu t =? NA) && (t_cpu t =? c)) (ci_topo xci).
Definition kkey (p c : Z) : option (list Z) :=
  match kline c with Some t => Some (p :: unit_id (kio p) t) | None => None end.
Definition keqb (a b : list Z) : bool := if list_eq_dec Z.eq_dec a b then true else false.
Definition ktab : Type := list (list Z * Z).
Definition ksees (st : ktab) (p c : Z) : option Z := match kkey p c with Some k => dget keqb st k | None => None end.
Definition kput (p v : Z) (st : ktab) (c : Z) : ktab := match kkey p c with Some k => dset keqb st k v | None => st end.
Definition kget (p : Z) (cpus : list Z) (m : Z) (st : ktab) : gen (Z * option Z) :=
  if m =? 2 then (map (fun c => (c, ksees st p c)) cpus, None) else ([], Some ENotSupported).
Definition kset (p v : Z) (w : list Z) (m : Z) : M ktab unit :=
  if m =? 2 then modify (fun st => fold_left (kput p v) w st) else throw ENotSupported.
Definition kcls : pclass ktab Z :=
  PC [(0, PD [2; 0] true); (1, PD [2] true); (2, PD [2] true); (3, PD [2] true); (4, PD [2] true); (5, PD [2; 1] true); (6, PD [2] false)]
     mechanisms xci Z.eqb (fun _ p => Some (kscope p)) (fun _ p => Some (kio p)) (fun _ => ret tt) kget kset (fun _ v => Ok v).
Definition kshares (p x c : Z) : Prop := same_unit (ci_topo xci) (kio p) x c.

Lemma keqb_spec a b : keqb a b = true <-> a = b.
Proof. unfold keqb. destruct (list_eq_dec Z.eq_dec a b); split; congruence. Qed.

Lemma kline_spec c t : kline c = Some t <-> In t (ci_topo xci) /\ cpu_line t /\ t_cpu t = c.
Proof.
  unfold kline. split.
  - intros H. apply find_some in H. destruct H as (I & H). unfold cpu_line. split; [exact I|]. lia.
  - intros (I & L & E). destruct (find _ _) as [u|] eqn:F.
    + apply find_some in F. destruct F as (I' & F). f_equal. eapply (cpu_line_unique xci); [exact xci_wf|exact I'|exact I| |]; unfold cpu_line in *; lia.
    + apply (find_none _ _ F) in I. unfold cpu_line in L. lia.
Qed.

Lemma kshares_key p x c : kshares p x c <-> exists k, kkey p x = Some k /\ kkey p c = Some k.
Proof.
  unfold kshares, kkey. split.
  - intros (t & u & It & Iu & Lt & Lu & Et & Eu & E). rewrite (proj2 (kline_spec x t)), (proj2 (kline_spec c u)) by auto. exists (p :: unit_id (kio p) t).
    split; [reflexivity|]. now rewrite E.
  - intros (k & H1 & H2). destruct (kline x) as [t|] eqn:F1; [|discriminate]. destruct (kline c) as [u|] eqn:F2; [|discriminate].
    apply kline_spec in F1. apply kline_spec in F2. exists t, u. repeat (split; [tauto|]). congruence.
Qed.

Lemma kput_all p v k w : forall st, dget keqb (fold_left (kput p v) w st) k =
  if existsb (fun c => match kkey p c with Some k' => keqb k k' | None => false end) w then Some v else dget keqb st k.
Proof.
  induction w as [|c w IH]; intros st; [reflexivity|]. cbn [fold_left existsb]. rewrite IH. unfold kput.
  destruct (kkey p c) as [k'|]; [|reflexivity]. destruct (existsb _ w) eqn:E; [now rewrite orb_true_r|]. rewrite orb_false_r.
  destruct (keqb k k') eqn:E2.
  - apply keqb_spec in E2. subst k'. apply (dget_dset_same _ keqb_spec).
  - apply (dget_dset_other _ keqb_spec). intros ->. rewrite (proj2 (keqb_spec k' k') eq_refl) in E2. discriminate.
Qed.

Lemma kcls_machine : machine kcls ksees kshares.
Proof.
  constructor.
  - intros p cpus m st vals e c v. cbn [pc_get kcls]. unfold kget. destruct (m =? 2); intros [= <- <-] I; [|destruct I].
    apply in_map_iff in I. destruct I as (x & [= <- <-] & _). reflexivity.
  - intros p cpus m st c. unfold lacks. cbn [pc_get kcls]. unfold kget. destruct (m =? 2); [discriminate|reflexivity].
  - intros p st r st1 q c [= _ <-]. reflexivity.
  - intros p v w m st st1 q c. unfold refuses. cbn [pc_set kcls]. unfold kset. destruct (m =? 2); unfold modify, throw; intros [H|H]; try discriminate H; congruence.
  - intros p v w m st st1. cbn [pc_set kcls]. unfold kset. destruct (m =? 2); [|discriminate]. intros [= <-]. split.
    + intros x c I Sx. apply kshares_key in Sx. destruct Sx as (k & K1 & K2). unfold ksees. rewrite K2, kput_all.
      match goal with |- (if ?b then _ else _) = _ => replace b with true; [reflexivity|] end. symmetry. apply existsb_exists. exists x. split; [exact I|].
      rewrite K1. now apply keqb_spec.
    + intros q c N. unfold ksees. destruct (kkey q c) as [k|] eqn:K; [|reflexivity]. rewrite kput_all.
      match goal with |- (if ?b then _ else _) = _ => destruct b eqn:E; [|reflexivity] end. exfalso. apply existsb_exists in E. destruct E as (x & I & E).
      destruct (kkey p x) as [k'|] eqn:K'; [|discriminate]. apply keqb_spec in E. subst k'. assert (q = p) as ->.
      { unfold kkey in K, K'. destruct (kline c), (kline x); try discriminate. congruence. }
      apply N. split; [reflexivity|]. exists x. split; [exact I|]. apply kshares_key. eauto.
  - intros st p x c H. apply kshares_key in H. destruct H as (k & K1 & K2). unfold ksees. now rewrite K1, K2.
  - intros p c H. apply (same_unit_refl xci); [exact xci_wf|exact H].
  - intros st p io x c [= <-]. reflexivity.
  - intros st p sc x c [= <-] (t & u & It & Iu & Lt & Lu & Et & Eu & E). exists t, u. repeat (split; [assumption|]). revert E.
    unfold kio, kscope. repeat match goal with |- context [if ?b then _ else _] => destruct b end; cbn; congruence.
  - intros st st' p sc sc' [= <-] [= <-]. reflexivity.
  - intros st p. cbn [pc_iosname kcls]. unfold kio. repeat match goal with |- context [if ?b then _ else _] => destruct b end; discriminate.
  - reflexivity.
Qed.

Lemma kcls_one : one_value_per_cpu kcls.
Proof.
  intros st pname cpus m vals. unfold gives. cbn [pc_get kcls]. unfold kget. destruct (m =? 2); [|discriminate]. intros [= <-].
  rewrite map_map. cbn. apply map_id.
Qed.
Lemma kcls_keyed : keyed kcls.
Proof.
  intros pname cpu m st vals e. cbn [pc_get kcls]. unfold kget. destruct (m =? 2); intros [= <- <-]; repeat constructor.
Qed.
Lemma kcls_veqb x y : pc_veqb kcls x y = true <-> x = y.
Proof. apply Z.eqb_eq. Qed.
Lemma kcls_accepts p : 0 <= p <= 5 -> accepts kcls p.
Proof.
  intros H. assert (p = 0 \/ p = 1 \/ p = 2 \/ p = 3 \/ p = 4 \/ p = 5) as C by lia.
  assert (forall d m rest sc, dget Z.eqb (pc_props kcls) p = Some d -> pd_writable d = true -> pd_mnames d = m :: rest -> m = 2 -> kscope p = sc ->
    (sc = SCPU \/ sc = SGlobal \/ sc = SPackage \/ sc = SDie /\ io_dies_exact (pc_ci kcls) \/ sc = SCore) -> accepts kcls p) as X.
  { intros d m rest sc Hd Hw Hm -> <- Hs. exists d, 2, rest, (kscope p). repeat (split; [assumption|]). intros st. exists st. split; [reflexivity|]. split; [reflexivity|].
    split; [eexists; reflexivity|]. intros v0 v w _ _ _. eexists. reflexivity. }
  pose proof xci_io as IO. destruct C as [-> |[-> |[-> |[-> |[-> | ->]]]]]; eapply X; try reflexivity; auto 6.
Qed.

(** A machine in which the CPUs of every unit agree, and one with other values; the operation target is everything. *)
Definition kfill (f : Z -> Z -> Z) : pst ktab Z :=
  PS (fold_left (fun st p => fold_left (fun st c => kput p (f p c) st c) x_on st) [0; 1; 2; 3; 4; 5; 6] []) [] [].
Definition kst1 : pst ktab Z := kfill (fun p c => if p =? 0 then 10 + c else if c <? 4 then 20 + p else 30 + p).
Definition kst2 : pst ktab Z := kfill (fun _ _ => 99).
Definition kps1 : pstate (St := ktab) (V := Z) := (kst1, xobj xall).

(** The cores of package 0 have different values of property 3. *)
Definition kst3 : pst ktab Z := kfill (fun p c => if Z.even c then 1 else 2).
Definition kps3 : pstate (St := ktab) (V := Z) := (kst3, xobj xall).
(** The operation target is CPU 0. *)
Definition kcpu0 : otargs := OA (Some (Some [0])) UNone None UNone None [] [] false.
Definition kps4 : pstate (St := ktab) (V := Z) := (kst1, xobj kcpu0).

Definition table (s : pst ktab Z) (p : Z) : list (option Z) := map (ksees (ps_st s) p) x_on.

Lemma disagree_refuted_l : exists (s : pstate (St := ktab) (V := Z)) f s', machine kcls ksees kshares /\ accepts kcls 3 /\
  save_props kcls (Some [3]) s = (Ok f, s') /\ fst (restore (set_prop kcls) [3] f (fst s')) <> Ok tt.
Proof.
  exists kps3. destruct (save_props kcls (Some [3]) kps3) as [[f|e] s'] eqn:E.
  - exists f, s'. split; [exact kcls_machine|]. split; [apply kcls_accepts; lia|]. split; [reflexivity|].
    assert (fst (restore (set_prop kcls) [3] f (fst s')) = match save_props kcls (Some [3]) kps3 with (Ok f, s') => fst (restore (set_prop kcls) [3] f (fst s')) | _ => Ok tt end) as -> by now rewrite E.
    vm_compute. discriminate.
  - exfalso. assert (fst (save_props kcls (Some [3]) kps3) = Exn e) as H by now rewrite E. vm_compute in H. discriminate.
Qed.

Lemma subset_refuted_l : exists (s : pstate (St := ktab) (V := Z)) f s', machine kcls ksees kshares /\ accepts kcls 1 /\
  (forall c x, ksees (ps_st (fst s)) 1 c <> None -> ksees (ps_st (fst s)) 1 x <> None -> ksees (ps_st (fst s)) 1 c = ksees (ps_st (fst s)) 1 x) /\
  save_props kcls (Some [1]) s = (Ok f, s') /\ fst (restore (set_prop kcls) [1] f (fst s')) <> Ok tt.
Proof.
  exists kps4. destruct (save_props kcls (Some [1]) kps4) as [[f|e] s'] eqn:E.
  - exists f, s'. split; [exact kcls_machine|]. split; [apply kcls_accepts; lia|]. split.
    { intros c x. unfold ksees, kkey. change (kio 1) with SGlobal; cbn [unit_id]; destruct (kline c), (kline x); congruence. }
    split; [reflexivity|].
    assert (fst (restore (set_prop kcls) [1] f (fst s')) = match save_props kcls (Some [1]) kps4 with (Ok f, s') => fst (restore (set_prop kcls) [1] f (fst s')) | _ => Ok tt end) as -> by now rewrite E.
    vm_compute. discriminate.
  - exfalso. assert (fst (save_props kcls (Some [1]) kps4) = Exn e) as H by now rewrite E. vm_compute in H. discriminate.
Qed.

(** The hypotheses of the round trip's success. *)
Lemma kagree p v : In p [0; 2; 4] -> whole kcls p (fun c => ksees (ps_st (fst kps1)) p c = v).
Proof.
  intros Hp st sc x c [= <-] (t & u & It & Iu & Lt & Lu & <- & <- & E) H. cbn beta in *. cbn [fst kps1] in *. rewrite <- H.
  assert (forallb (fun p => forallb (fun t => forallb (fun u => (t_cpu t =? NA) || (t_cpu u =? NA) || negb (keqb (unit_id (kscope p) t) (unit_id (kscope p) u)) ||
    match ksees (ps_st kst1) p (t_cpu t), ksees (ps_st kst1) p (t_cpu u) with Some a, Some b => a =? b | None, None => true | _, _ => false end)
    (ci_topo xci)) (ci_topo xci)) [0; 2; 4] = true) as C by (vm_compute; reflexivity).
  rewrite forallb_forall in C. specialize (C p Hp). cbn beta in C. rewrite forallb_forall in C. specialize (C t It). cbn beta in C. rewrite forallb_forall in C.
  specialize (C u Iu). cbn beta in C. rewrite (proj2 (keqb_spec _ _) E) in C. unfold cpu_line in *.
  destruct (ksees _ p (t_cpu t)), (ksees _ p (t_cpu u)); try reflexivity; try (exfalso; lia). f_equal. lia.
Qed.

Lemma succeeds_ex_l : exists f s', save_props kcls (Some [0; 2; 4]) kps1 = (Ok f, s') /\
  (forall p, In p [0; 2; 4] -> accepts kcls p) /\
  forall l s'', reading (get_prop_sname kcls None) (pc_props kcls) true [0; 2; 4] kps1 l s'' ->
    forall p items v, In (p, items) l -> whole kcls p (fun c => ksees (ps_st (fst kps1)) p c = v) /\
                       whole kcls p (fun c => exists v m, In (NumCPU c, v, m) items).
Proof.
  destruct (save_props kcls (Some [0; 2; 4]) kps1) as [[f|e] s'] eqn:E.
  2:{ exfalso. assert (fst (save_props kcls (Some [0; 2; 4]) kps1) = Exn e) as H by now rewrite E. vm_compute in H. discriminate. }
  exists f, s'. split; [reflexivity|]. split; [intros p Hp; apply kcls_accepts; cbn in Hp; lia|].
  intros l s'' R.
  assert (forall p items, In (p, items) l -> In p [0; 2; 4] /\ (p = 0 \/ forall c v m, ~ In (NumCPU c, v, m) items)) as X.
  { inversion R as [|? ? ? ? ? ? _ D W|? ? ? ? i0 s0 ? ? D W G0 R0|? ? ? ? ? ? ? ? D W G0]; subst; try (match goal with D : dget _ _ _ = Some ?d, W : pd_writable ?d = false |- _ => vm_compute in D; injection D as <-; discriminate W end);
      [|match goal with G : get_prop_sname _ _ _ false _ = (Exn _, _) |- _ => vm_compute in G; discriminate G end].
    vm_compute in G0. injection G0 as <- <-. clear D W.
    inversion R0 as [|? ? ? ? ? ? _ D W|? ? ? ? i0 s0 ? ? D W G0 R1|? ? ? ? ? ? ? ? D W G0]; subst; try (match goal with D : dget _ _ _ = Some ?d, W : pd_writable ?d = false |- _ => vm_compute in D; injection D as <-; discriminate W end);
      [|match goal with G : get_prop_sname _ _ _ false _ = (Exn _, _) |- _ => vm_compute in G; discriminate G end].
    vm_compute in G0. injection G0 as <- <-. clear D W.
    inversion R1 as [|? ? ? ? ? ? _ D W|? ? ? ? i0 s0 ? ? D W G0 R2|? ? ? ? ? ? ? ? D W G0]; subst; try (match goal with D : dget _ _ _ = Some ?d, W : pd_writable ?d = false |- _ => vm_compute in D; injection D as <-; discriminate W end);
      [|match goal with G : get_prop_sname _ _ _ false _ = (Exn _, _) |- _ => vm_compute in G; discriminate G end].
    vm_compute in G0. injection G0 as <- <-. clear D W. inversion R2; subst.
    intros p items [H|[H|[H|[]]]]; injection H as <- <-; (split; [cbn; auto|]); auto; right; intros c v m; cbn; intuition discriminate. }
  intros p items v I. destruct (X _ _ I) as (Hp & C). split; [now apply kagree|].
  destruct C as [-> |C].
  - intros st sc x c [= <-] (t & u & It & Iu & Lt & Lu & <- & <- & E') H. cbn in E'. injection E' as E'. now rewrite <- E'.
  - intros st sc x c _ _ (w & m & J). exfalso. exact (C _ _ _ J).
Qed.
