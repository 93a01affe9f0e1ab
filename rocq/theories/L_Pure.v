(** Lemmas: reading MSRs does not write registers, whatever the state of the MSR object. *)
From Coq Require Import Ascii String.
From Verif Require Import Base M_CPUInfo M_Text M_MSR M_FMSR M_HWP M_EP.

Definition mpure {A} (m : M mstate A) : Prop := forall s, ms_hw (snd (m s)) = ms_hw s.

Lemma mpure_bind {A B} (m : M mstate A) (f : A -> M mstate B) : mpure m -> (forall a, mpure (f a)) -> mpure (let! y := m in f y).
Proof.
  unfold mpure, mbind. intros H1 H2 s. specialize (H1 s). destruct (m s) as [[a|e] s1]; cbn [snd] in *; [|exact H1].
  now rewrite H2.
Qed.
Lemma mpure_ret {A} (a : A) : mpure (ret a).
Proof. intros s. reflexivity. Qed.
Lemma mpure_throw {A} e : @mpure A (throw e).
Proof. intros s. reflexivity. Qed.
Lemma mpure_lift {A} (r : res A) : mpure (lift r).
Proof. intros s. reflexivity. Qed.
Lemma mpure_gets {A} (f : mstate -> A) : mpure (gets f).
Proof. intros s. reflexivity. Qed.
Lemma mpure_mmap {A B} (f : A -> M mstate B) l : (forall a, mpure (f a)) -> mpure (mmap l f).
Proof. intros H. induction l; cbn [mmap]; [apply mpure_ret|]. apply mpure_bind; [auto|]. intros y. apply mpure_bind; [auto|]. intros. apply mpure_ret. Qed.
Lemma mpure_mfor {A} (f : A -> M mstate unit) l : (forall a, mpure (f a)) -> mpure (mfor l f).
Proof. intros H. induction l; cbn [mfor]; [apply mpure_ret|]. apply mpure_bind; auto. Qed.
Ltac pure := repeat
  match goal with
    | |- mpure (ret _) => apply mpure_ret
    | |- mpure (gets _) => apply mpure_gets
    | |- mpure (throw _) => apply mpure_throw
    | |- mpure (lift _) => apply mpure_lift
    | |- mpure (mbind _ _) => apply mpure_bind; [|intros]
    | |- mpure (mmap _ _) => apply mpure_mmap; intros
    | |- mpure (mfor _ _) => apply mpure_mfor; intros
    | |- mpure (if ?b then _ else _) => destruct b
    | |- mpure (match ?b with _ => _ end) => destruct b
    | _ => progress cbn beta
  end.

Section Pure.
  Variable env : menv.
  Lemma io_pure : mpure io.
  Proof. intros s. unfold io. destruct (ms_faults s) as [|[] f]; reflexivity. Qed.
  Lemma hw_read_pure a c : mpure (hw_read env a c).
  Proof. unfold hw_read. pure. apply io_pure. Qed.
  Lemma cache_add_pure a c v sn : mpure (cache_add env a c v sn).
  Proof. unfold cache_add. pure. intros s. reflexivity. Qed.
  Lemma read_one_pure a sn c : mpure (read_one env a sn c).
  Proof. unfold read_one. pure; auto using hw_read_pure, cache_add_pure. Qed.
  Lemma read_pure a cpus sn : mpure (read env a cpus sn).
  Proof. unfold read, read_cpus. pure. apply read_one_pure. Qed.
  Lemma read_bits_pure a b cpus sn : mpure (read_bits env a b cpus sn).
  Proof. unfold read_bits, read_cpus. pure. apply read_one_pure. Qed.
  Lemma read_bits_ios_pure a b cpus ios : mpure (read_bits_ios env a b cpus ios).
  Proof. unfold read_bits_ios. pure; auto using hw_read_pure, read_bits_pure. Qed.
  Lemma read_feature_pure fr n cpus : mpure (read_feature env fr n cpus).
  Proof. unfold read_feature. pure; auto using read_bits_ios_pure. Qed.
  Lemma enabled_pure fr n cpus : mpure (is_feature_enabled env fr n cpus).
  Proof. unfold is_feature_enabled. pure; auto using read_feature_pure. Qed.
  Lemma read_num_pure fr n c : mpure (read_num env fr n c).
  Proof. unfold read_num. pure; auto using read_feature_pure. Qed.
  Lemma pkg_controlled_pure fr k c : mpure (is_pkg_controlled env fr k c).
  Proof.
    assert (E : forall n, mpure (is_cpu_enabled env fr n c)) by (intros n; unfold is_cpu_enabled; pure; auto using enabled_pure).
    intros s. unfold is_pkg_controlled. pose proof (E (s2l "pkg_control"%string) s) as H.
    destruct (is_cpu_enabled env fr (s2l "pkg_control"%string) c s) as [[[]|e] s1]; cbn [snd] in *; [| |destruct e]; try exact H.
    rewrite <- H. assert (P : mpure (let! v := is_cpu_enabled env fr (hvalid k) c in ret (negb v))) by (pure; auto). apply P.
  Qed.
  Lemma ns_pure fr n c :
    mpure (fun s => match read_num env fr n c s with (Ok n, s1) => (Ok (Some n), s1) | (Exn ENotSupported, s1) => (Ok None, s1) | (Exn e, s1) => (Exn e, s1) end).
  Proof. intros s. pose proof (read_num_pure fr n c s) as H. destruct (read_num env fr n c s) as [[v|[]] s1]; exact H. Qed.
  Lemma epp_read_pure x c : mpure (epp_read_msr env x c).
  Proof. unfold epp_read_msr. pure; auto using pkg_controlled_pure, ns_pure. Qed.
  Lemma epb_read_pure epb c : mpure (epb_read_msr env epb c).
  Proof.
    intros s. unfold epb_read_msr. assert (H : mpure (let! fr := lift epb in read_num env fr (s2l "epb"%string) c)) by (pure; auto using read_num_pure).
    specialize (H s). destruct (mbind _ _ s) as [[v|[]] s1]; exact H.
  Qed.
End Pure.
