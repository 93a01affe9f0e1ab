(** Lemmas: which parts of the MSR code never raise ErrorNotSupported. *)
From Coq Require Import Ascii String.
From Verif Require Import Base M_CPUInfo M_Text M_MSR M_FMSR.

(** ** Who raises ErrorNotSupported *)
Definition rquiet {A} (r : res A) : Prop := r <> Exn ENotSupported.
Definition mquiet {S A} (m : M S A) : Prop := forall s s', m s <> (Exn ENotSupported, s').

Lemma rquiet_bind {A B} (r : res A) (f : A -> res B) : rquiet r -> (forall a, rquiet (f a)) -> rquiet (let? y := r in f y).
Proof. unfold rquiet. intros H1 H2. destruct r; cbn; [apply H2|]. intros [= ->]. now apply H1. Qed.
Lemma rquiet_ok {A} (a : A) : rquiet (Ok a).
Proof. discriminate. Qed.
Lemma rquiet_map {A B} (f : A -> res B) l : (forall a, rquiet (f a)) -> rquiet (rmap l f).
Proof. intros H. induction l; cbn [rmap]; [discriminate|]. apply rquiet_bind; [auto|]. intros y. apply rquiet_bind; [exact IHl|]. discriminate. Qed.
Lemma mquiet_bind {S A B} (m : M S A) (f : A -> M S B) : mquiet m -> (forall a, mquiet (f a)) -> mquiet (let! y := m in f y).
Proof. unfold mquiet, mbind. intros H1 H2 s s'. specialize (H1 s). destruct (m s) as [[a|e] s1]; [apply H2|]. intros [= -> ->]. exact (H1 _ eq_refl). Qed.
Lemma mquiet_ret {S A} (a : A) : @mquiet S A (ret a).
Proof. discriminate. Qed.
Lemma mquiet_throw {S A} e : e <> ENotSupported -> @mquiet S A (throw e).
Proof. intros H s s' [= ?]. contradiction. Qed.
Lemma mquiet_lift {S A} (r : res A) : rquiet r -> @mquiet S A (lift r).
Proof. unfold lift. intros H s s' [= ? ?]. contradiction. Qed.
Lemma mquiet_gets {S A} (f : S -> A) : mquiet (gets f).
Proof. discriminate. Qed.
Lemma mquiet_modify {S} (f : S -> S) : mquiet (modify f).
Proof. discriminate. Qed.
Lemma mquiet_mfor {S A} (f : A -> M S unit) l : (forall a, mquiet (f a)) -> mquiet (mfor l f).
Proof. intros H. induction l; cbn [mfor]; [apply mquiet_ret|]. apply mquiet_bind; auto. Qed.
Lemma mquiet_mmap {S A B} (f : A -> M S B) l : (forall a, mquiet (f a)) -> mquiet (mmap l f).
Proof. intros H. induction l; cbn [mmap]; [apply mquiet_ret|]. apply mquiet_bind; [auto|]. intros y. apply mquiet_bind; [auto|]. intros. apply mquiet_ret. Qed.
Ltac quiet := repeat
  match goal with
    | |- mquiet (ret _) => apply mquiet_ret
    | |- mquiet (gets _) => apply mquiet_gets
    | |- mquiet (modify _) => apply mquiet_modify
    | |- mquiet (throw _) => apply mquiet_throw; discriminate
    | |- mquiet (mbind _ _) => apply mquiet_bind; [|intros]
    | |- mquiet (mfor _ _) => apply mquiet_mfor; intros
    | |- mquiet (mmap _ _) => apply mquiet_mmap; intros
    | |- mquiet (lift _) => apply mquiet_lift
    | |- rquiet (Ok _) => apply rquiet_ok
    | |- rquiet (rbind _ _) => apply rquiet_bind; [|intros]
    | |- rquiet (rmap _ _) => apply rquiet_map; intros
    | |- mquiet (if ?b then _ else _) => destruct b
    | |- mquiet (match ?b with _ => _ end) => destruct b
    | |- rquiet (if ?b then _ else _) => destruct b
    | |- rquiet (match ?b with _ => _ end) => destruct b
    | |- rquiet (Exn _) => discriminate
    | _ => progress cbn beta
  end.

Section Quiet.
  Variable env : menv.
  Notation ci := (me_ci env).
  Lemma normalize_in_quiet av l : rquiet (normalize_in av l).
  Proof. unfold normalize_in. quiet. Qed.
  Lemma normalize_cpus_quiet cpus off : rquiet (normalize_cpus ci cpus off).
  Proof. unfold normalize_cpus. quiet. apply normalize_in_quiet. Qed.
  Lemma level_nums_quiet a b n o : rquiet (get_level_nums ci a b n o).
  Proof. unfold get_level_nums. quiet. Qed.
  Lemma tline_quiet c : rquiet (get_cpu_tline ci c).
  Proof. unfold get_cpu_tline. quiet. Qed.
  Lemma siblings_quiet c sn : rquiet (get_cpu_siblings ci c sn).
  Proof.
    unfold get_cpu_siblings, package_to_cpus, nodes_to_cpus, dies_to_cpus, modules_to_cpus, cores_to_cpus.
    destruct sn; quiet; auto using normalize_cpus_quiet, level_nums_quiet, tline_quiet.
  Qed.
  Lemma io_quiet : mquiet io.
  Proof. intros s s'. unfold io. destruct (ms_faults s) as [|[] f]; discriminate. Qed.
  Lemma hw_read_quiet a c : mquiet (hw_read env a c).
  Proof. unfold hw_read. quiet. apply io_quiet. Qed.
  Lemma hw_write_quiet a c v : mquiet (hw_write env a c v).
  Proof. unfold hw_write. quiet. apply io_quiet. Qed.
  Lemma cache_add_quiet a c v sn : mquiet (cache_add env a c v sn).
  Proof. unfold cache_add. quiet. apply siblings_quiet. Qed.
  Lemma cache_remove_quiet a c sn : mquiet (cache_remove env a c sn).
  Proof. unfold cache_remove. quiet; apply siblings_quiet. Qed.
  Lemma read_one_quiet a sn c : mquiet (read_one env a sn c).
  Proof. unfold read_one. quiet; auto using hw_read_quiet, cache_add_quiet. Qed.
  Lemma normalize_bits_quiet b : rquiet (normalize_bits b).
  Proof. unfold normalize_bits. quiet. Qed.
  Lemma get_bits_quiet v b : rquiet (get_bits v b).
  Proof. unfold get_bits, py_shr. quiet. apply normalize_bits_quiet. Qed.
  Lemma set_bits_quiet v b n : rquiet (set_bits v b n).
  Proof. unfold set_bits, py_shl. quiet. apply normalize_bits_quiet. Qed.
  Lemma read_bits_quiet a b cpus sn : mquiet (read_bits env a b cpus sn).
  Proof. unfold read_bits. quiet; auto using normalize_cpus_quiet, read_one_quiet, get_bits_quiet. Qed.
  Lemma verify_quiet a v l sn : mquiet (verify env a v l sn).
  Proof. unfold verify. quiet; auto using cache_remove_quiet, read_one_quiet. Qed.
  Lemma write_quiet a v cpus sn vf : mquiet (write env a v cpus sn vf).
  Proof.
    unfold write, write_one, add_for_transaction.
    quiet; auto using normalize_cpus_quiet, cache_remove_quiet, hw_write_quiet, cache_add_quiet, verify_quiet.
  Qed.
  Lemma group_writes_quiet a b v sn l : forall acc, mquiet (group_writes env a b v sn l acc).
  Proof. induction l; intros acc; cbn [group_writes]; quiet; auto using read_one_quiet, set_bits_quiet. Qed.
  Lemma write_bits_quiet a b v cpus sn vf : mquiet (write_bits env a b v cpus sn vf).
  Proof. unfold write_bits. quiet; auto using normalize_cpus_quiet, group_writes_quiet, write_quiet. Qed.

  Lemma read_bits_ios_quiet a b cpus ios : mquiet (read_bits_ios env a b cpus ios).
  Proof. unfold read_bits_ios. quiet; auto using normalize_cpus_quiet, hw_read_quiet, read_bits_quiet. Qed.
  Lemma write_bits_ios_quiet a b v cpus ios vf : mquiet (write_bits_ios env a b v cpus ios vf).
  Proof. unfold write_bits_ios. quiet; auto using normalize_cpus_quiet, hw_read_quiet, read_one_quiet, write_bits_quiet. Qed.
  Lemma decode_quiet fe n : rquiet (decode fe n).
  Proof. unfold decode. quiet. Qed.
  Lemma get_feature_quiet fr n : rquiet (get_feature fr n).
  Proof. unfold get_feature. quiet. Qed.
  Lemma resolve_quiet fe v : rquiet (resolve_alias fe v).
  Proof. unfold resolve_alias. quiet. Qed.
  Lemma normalize_value_quiet fe v : rquiet (normalize_feature_value fe v).
  Proof. unfold normalize_feature_value. quiet; auto using resolve_quiet. Qed.

  (** Only the check of the feature does. *)
  Lemma read_feature_ns fr n cpus s s' : read_feature env fr n cpus s = (Exn ENotSupported, s') ->
    validate_feature_supported env fr n cpus = Exn ENotSupported.
  Proof.
    unfold read_feature. unfold mbind at 1. unfold lift at 1.
    destruct (validate_feature_supported env fr n cpus) as [u|e]; [|congruence]. intros E. exfalso. revert E.
    match goal with |- ?m s = _ -> _ => enough (Q : mquiet m) by apply Q end.
    quiet; auto using get_feature_quiet, read_bits_ios_quiet, decode_quiet.
  Qed.
  Lemma enabled_ns fr n cpus s s' : is_feature_enabled env fr n cpus s = (Exn ENotSupported, s') ->
    validate_feature_supported env fr n cpus = Exn ENotSupported.
  Proof.
    unfold is_feature_enabled. unfold mbind at 1. unfold lift at 1.
    destruct (validate_feature_supported env fr n cpus) as [u|e] eqn:Ev; [|congruence].
    unfold mbind at 1. unfold lift at 1.
    destruct (get_feature fr n) as [fe|e] eqn:Ef; [|intros [= -> _]; now apply get_feature_quiet in Ef].
    destruct (negb _); [discriminate|]. unfold mbind.
    destruct (read_feature env fr n cpus s) as [[l|e] s1] eqn:Er; [discriminate|]. intros [= -> ->].
    apply read_feature_ns in Er. congruence.
  Qed.
  Lemma write_feature_ns fr n v cpus s s' : write_feature env fr n v cpus s = (Exn ENotSupported, s') ->
    validate_feature_supported env fr n cpus = Exn ENotSupported.
  Proof.
    unfold write_feature. unfold mbind at 1. unfold lift at 1.
    destruct (validate_feature_supported env fr n cpus) as [u|e]; [|congruence]. intros E. exfalso. revert E.
    match goal with |- ?m s = _ -> _ => enough (Q : mquiet m) by apply Q end.
    quiet; auto using get_feature_quiet, write_bits_ios_quiet, normalize_value_quiet.
  Qed.
End Quiet.
