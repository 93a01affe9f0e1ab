(** Lemmas about MSR access on a remote host: failures. *)
From Coq Require Import ZifyBool.
From Verif Require Import Base L_Base L_Monad M_Text M_CPUInfo S_CPUInfo L_CPUInfo M_MSR S_MSR L_MSR L_MSR2 L_MSR3 L_MSR4 L_MSR5
  M_Remote S_Remote L_Remote L_Remote2 L_Remote3.

(** ** What succeeds although operations may fail, succeeds in the same way when no operation fails *)

Lemma In_dset {V} (d : list (Z * V)) k v k' v' : In (k', v') (dset Z.eqb d k v) -> In (k', v') d \/ (k', v') = (k, v).
Proof.
  induction d as [|[k0 v0] d IH]; cbn [dset]; intros H.
  - destruct H as [H|[]]. now right.
  - destruct (Z.eqb k k0) eqn:E; destruct H as [H|H].
    + right. apply Z.eqb_eq in E. congruence.
    + left. now right.
    + left. now left.
    + destruct (IH H); [left; now right|now right].
Qed.

Section Free.
  Variable env : menv.

  Definition ff {A} (m : M mstate A) : Prop :=
    forall s x s', m s = (Ok x, s') -> m (set_faults [] s) = (Ok x, set_faults [] s').

  Lemma ff_bind {A B} (m : M mstate A) (f : A -> M mstate B) : ff m -> (forall x, ff (f x)) -> ff (mbind m f).
  Proof.
    intros H1 H2 s x s' E. unfold mbind in *. destruct (m s) as [[y|e] s1] eqn:Em; [|discriminate].
    rewrite (H1 _ _ _ Em). now apply H2.
  Qed.
  Lemma ff_ret {A} (x : A) : ff (ret x).
  Proof. intros s y s' E. unfold ret in *. congruence. Qed.
  Lemma ff_throw {A} e : ff (throw e : M mstate A).
  Proof. intros s y s' E. discriminate. Qed.
  Lemma ff_lift {A} (r : res A) : ff (lift r).
  Proof. intros s y s' E. unfold lift in *. destruct r; [|discriminate]. congruence. Qed.
  Lemma ff_gets {A} (g : mstate -> A) : (forall s, g (set_faults [] s) = g s) -> ff (gets g).
  Proof. intros H s y s' E. unfold gets in *. rewrite H. congruence. Qed.
  Lemma ff_modify g : (forall s, g (set_faults [] s) = set_faults [] (g s)) -> ff (modify g).
  Proof. intros H s y s' E. unfold modify in *. rewrite H. congruence. Qed.
  Lemma ff_io : ff io.
  Proof.
    intros s y s' E. unfold io in *. cbn [ms_faults set_faults]. destruct (ms_faults s) as [|[|] f]; [congruence|discriminate|].
    injection E as <- <-. reflexivity.
  Qed.
  Lemma ff_mfor {A} (l : list A) b : (forall x, ff (b x)) -> ff (mfor l b).
  Proof. intros H. induction l as [|x l IH]; cbn [mfor]; [apply ff_ret|]. apply ff_bind; [apply H|]. intros _. exact IH. Qed.
  Lemma ff_mmap {A B} (l : list A) (b : A -> M mstate B) : (forall x, ff (b x)) -> ff (mmap l b).
  Proof.
    intros H. induction l as [|x l IH]; cbn [mmap]; [apply ff_ret|]. apply ff_bind; [apply H|]. intros y. apply ff_bind; [exact IH|].
    intros. apply ff_ret.
  Qed.

  Lemma ff_add a c v sn : ff (cache_add env a c v sn).
  Proof. unfold cache_add. destruct (negb _); [apply ff_ret|]. apply ff_bind; [apply ff_lift|]. intros sb. now apply ff_modify. Qed.

  Lemma ff_remove a c sn : ff (cache_remove env a c sn).
  Proof.
    unfold cache_remove. destruct (negb _); [apply ff_ret|].
    destruct sn; try (apply ff_bind; [apply ff_lift|]; intros sb; apply ff_modify; intros s; cbn [ms_cache set_faults]; now destruct (ms_cache s a)).
    apply ff_bind; [now apply ff_gets|]. intros [m|]; [now apply ff_modify|apply ff_throw].
  Qed.

  Lemma ff_hw_read a c : ff (hw_read env a c).
  Proof. apply ff_bind; [apply ff_io|]. intros _. now apply ff_gets. Qed.

  Lemma ff_hw_write a c v : ff (hw_write env a c v).
  Proof. apply ff_bind; [apply ff_io|]. intros _. now apply ff_modify. Qed.

  Lemma ff_get_cached {A} a c (f : option Z -> M mstate A) :
    (forall x, ff (f x)) -> ff (let! x := gets (fun s => cache_get env s a c) in f x).
  Proof. intros H. apply ff_bind; [now apply ff_gets|exact H]. Qed.

  Lemma ff_read_one a sn c : ff (read_one env a sn c).
  Proof.
    unfold read_one. apply ff_get_cached. intros [v|]; [apply ff_ret|]. apply ff_bind; [apply ff_hw_read|]. intros v.
    apply ff_bind; [apply ff_add|]. intros; apply ff_ret.
  Qed.

  Lemma ff_read_cpus a l sn : ff (read_cpus env a l sn).
  Proof. apply ff_mmap. intros. apply ff_read_one. Qed.

  Lemma plan_ext s a sn l : forall dont, plan env (set_faults [] s) a sn l dont = plan env s a sn l dont.
  Proof.
    induction l as [|c l IH]; intros dont; [reflexivity|]. cbn [plan].
    change (cache_get env (set_faults [] s) a c) with (cache_get env s a c).
    destruct (inb c dont); [apply IH|]. destruct (cache_get env s a c); [apply IH|]. destruct (me_cache env).
    - destruct (get_cpu_siblings _ _ _); cbn [rbind]; [|reflexivity]. now rewrite IH.
    - now rewrite IH.
  Qed.

  Lemma ff_from_cache a c : ff (from_cache env a c).
  Proof. unfold from_cache. apply ff_get_cached. intros [v|]; [apply ff_ret|apply ff_throw]. Qed.

  Lemma ff_take_lines a sn ls : forall rv, ff (take_lines env a sn ls rv).
  Proof.
    induction ls as [|l ls IH]; intros rv; cbn [take_lines]; [apply ff_ret|].
    destruct (split_csv_line _ _ _ _) as [|w0 [|w1 [|]]]; try apply ff_throw.
    apply ff_bind; [apply ff_lift|]. intros c. apply ff_bind; [apply ff_lift|]. intros v. apply ff_bind; [apply ff_add|]. intros _. apply IH.
  Qed.

  Lemma ff_read_remote a l sn : ff (read_remote env a l sn).
  Proof.
    unfold read_remote. apply ff_bind; [apply ff_gets; intros; apply plan_ext|]. intros p. apply ff_bind; [apply ff_lift|].
    intros [|n0 nr].
    - apply ff_mmap. intros c. apply ff_bind; [apply ff_from_cache|]. intros; apply ff_ret.
    - apply ff_bind.
      + unfold read_script. apply ff_bind; [apply ff_io|]. intros _. apply ff_bind; [|intros; apply ff_ret]. apply ff_mmap. intros c.
        apply ff_bind; [apply ff_hw_read|]. intros; apply ff_ret.
      + intros out. apply ff_bind; [apply ff_take_lines|]. intros rv. apply ff_mmap. intros c. destruct (dget _ _ _); [apply ff_ret|].
        apply ff_bind; [apply ff_from_cache|]. intros; apply ff_ret.
  Qed.

  Lemma ff_r_read_cpus a l sn : ff (r_read_cpus env a l sn).
  Proof. unfold r_read_cpus. destruct (_ <? _)%nat; [apply ff_read_remote|apply ff_read_cpus]. Qed.

  Lemma ff_verify a v l sn : ff (verify env a v l sn).
  Proof.
    unfold verify. apply ff_bind; [apply ff_mfor; intros; apply ff_remove|]. intros _. apply ff_mfor. intros c.
    apply ff_bind; [apply ff_read_one|]. intros [c' x]. destruct (x =? v); [apply ff_ret|apply ff_throw].
  Qed.

  Lemma ff_r_verify a v l sn : ff (r_verify env a v l sn).
  Proof.
    unfold r_verify. apply ff_bind; [apply ff_mfor; intros; apply ff_remove|]. intros _. apply ff_bind; [apply ff_r_read_cpus|].
    intros vals. apply ff_mfor. intros x. destruct (snd x =? v); [apply ff_ret|apply ff_throw].
  Qed.

  Lemma ff_write_one a v sn vf c : ff (write_one env a v sn vf c).
  Proof.
    unfold write_one. apply ff_get_cached. intros [x|]; [apply ff_ret|]. apply ff_bind; [now apply ff_gets|]. intros i.
    apply ff_bind; [|intros; apply ff_add]. destruct (negb i).
    - destruct (to_bytes_ok v); [apply ff_hw_write|apply ff_throw].
    - unfold add_for_transaction. destruct (negb _); [apply ff_throw|now apply ff_modify].
  Qed.

  Lemma ff_write_gen a v cpus sn vf (vfy : Z -> Z -> list Z -> scope -> M mstate unit) :
    (forall a v l sn, ff (vfy a v l sn)) ->
    ff (let! l := lift (normalize_cpus (me_ci env) cpus false) in
        mfor l (fun c => cache_remove env a c sn) ;; mfor l (write_one env a v sn vf) ;;
        let! intr := gets ms_intr in if vf && negb intr then vfy a v l sn else ret tt).
  Proof.
    intros H. apply ff_bind; [apply ff_lift|]. intros l. apply ff_bind; [apply ff_mfor; intros; apply ff_remove|]. intros _.
    apply ff_bind; [apply ff_mfor; intros; apply ff_write_one|]. intros _. apply ff_bind; [now apply ff_gets|]. intros i.
    destruct (vf && negb i); [apply H|apply ff_ret].
  Qed.

  Lemma ff_write a v cpus sn vf : ff (write env a v cpus sn vf).
  Proof. apply (ff_write_gen a v cpus sn vf (verify env)). apply ff_verify. Qed.

  Lemma ff_r_write a v cpus sn vf : ff (r_write env a v cpus sn vf).
  Proof. apply (ff_write_gen a v cpus sn vf (r_verify env)). apply ff_r_verify. Qed.

  Lemma ff_group a b val sn l : forall acc, ff (group_writes env a b val sn l acc).
  Proof.
    induction l as [|c r IH]; intros acc; cbn [group_writes]; [apply ff_ret|]. apply ff_bind; [apply ff_read_one|]. intros [c' old].
    apply ff_bind; [apply ff_lift|]. intros n. destruct (old =? n); apply IH.
  Qed.

  Lemma ff_transaction_write buf : ff (transaction_write env buf).
  Proof. apply ff_mfor. intros e. apply ff_mfor. intros r. destruct (to_bytes_ok _); [apply ff_hw_write|apply ff_throw]. Qed.

  Lemma ff_write_script buf : ff (write_script env buf).
  Proof.
    intros s x s' E. unfold write_script in *.
    assert (H : ff (io ;; transaction_write env buf)) by (apply ff_bind; [apply ff_io|intros; apply ff_transaction_write]).
    destruct ((io ;; transaction_write env buf) s) as [[y|e] s1] eqn:Em; [|discriminate]. rewrite (H _ _ _ Em). congruence.
  Qed.

  Lemma ff_flush_gen (w : list (Z * list (Z * tinfo)) -> M mstate unit) (vfy : Z -> Z -> list Z -> scope -> M mstate unit) :
    (forall buf, ff (w buf)) -> (forall a v l sn, ff (vfy a v l sn)) ->
    ff (let! intr := gets ms_intr in let! buf := gets ms_tbuf in
        if negb (me_cache env) || negb intr then ret false
        else match buf with
             | [] => ret false
             | _ => w buf ;; modify (set_tbuf []) ;;
                 mfor (verify_info buf) (fun vi => mfor (snd vi) (fun ai =>
                   vfy (fst ai) (fst vi) (snd (snd ai)) (fst (snd ai)))) ;; ret true
             end).
  Proof.
    intros H1 H2. apply ff_bind; [now apply ff_gets|]. intros i. apply ff_bind; [now apply ff_gets|]. intros buf.
    destruct (_ || _); [apply ff_ret|]. destruct buf as [|x bf]; [apply ff_ret|]. apply ff_bind; [apply H1|]. intros _.
    apply ff_bind; [now apply ff_modify|]. intros _. apply ff_bind; [|intros; apply ff_ret]. apply ff_mfor. intros vi. apply ff_mfor.
    intros ai. apply H2.
  Qed.

  Lemma ff_flush : ff (flush_transaction env).
  Proof. apply (ff_flush_gen (transaction_write env) (verify env)); [apply ff_transaction_write|apply ff_verify]. Qed.

  Lemma ff_r_flush : ff (r_flush env).
  Proof.
    apply (ff_flush_gen (fun buf => if (1 <? length buf)%nat then write_script env buf else transaction_write env buf) (r_verify env));
      [|apply ff_r_verify]. intros buf. destruct (_ <? _)%nat; [apply ff_write_script|apply ff_transaction_write].
  Qed.

  Lemma ff_start : ff (start_transaction env).
  Proof.
    unfold start_transaction. destruct (negb _); [apply ff_ret|]. apply ff_bind; [now apply ff_gets|]. intros [|]; [apply ff_throw|now apply ff_modify].
  Qed.

  Lemma ff_mstep o : ff (mstep env o).
  Proof.
    destruct o; cbn [mstep]; try (apply ff_bind; [|intros; apply ff_ret]).
    - unfold read. apply ff_bind; [apply ff_lift|]. intros; apply ff_read_cpus.
    - apply ff_write.
    - unfold write_bits. apply ff_bind; [apply ff_lift|]. intros l. apply ff_bind; [apply ff_group|]. intros gs. apply ff_mfor. intros; apply ff_write.
    - apply ff_start.
    - apply ff_flush.
    - unfold commit_transaction. apply ff_bind; [now apply ff_gets|]. intros i. destruct (negb i); [apply ff_throw|].
      apply ff_bind; [apply ff_flush|]. intros _. now apply ff_modify.
  Qed.

  Lemma ff_rstep o : ff (rstep env o).
  Proof.
    destruct o; cbn [rstep]; try (apply ff_bind; [|intros; apply ff_ret]).
    - unfold r_read. apply ff_bind; [apply ff_lift|]. intros; apply ff_r_read_cpus.
    - apply ff_r_write.
    - unfold r_write_bits. apply ff_bind; [apply ff_lift|]. intros l. apply ff_bind; [apply ff_r_read_cpus|]. intros vals.
      apply ff_bind; [apply ff_lift|]. intros gs. apply ff_mfor. intros; apply ff_r_write.
    - apply ff_start.
    - apply ff_r_flush.
    - unfold r_commit. apply ff_bind; [now apply ff_gets|]. intros i. destruct (negb i); [apply ff_throw|].
      apply ff_bind; [apply ff_r_flush|]. intros _. now apply ff_modify.
  Qed.

  Lemma ff_answers (step : mop -> M mstate (list (Z * Z))) : (forall o, ff (step o)) -> forall ops s rs s',
    answers step ops s = Some (rs, s') -> answers step ops (set_faults [] s) = Some (rs, set_faults [] s').
  Proof.
    intros H. induction ops as [|o ops IH]; intros s rs s' E; cbn [answers] in *; [congruence|].
    destruct (step o s) as [[r|e] s1] eqn:Es; [|discriminate]. rewrite (H o _ _ _ Es).
    destruct (answers step ops s1) as [[rs1 s2]|] eqn:Ea; [|discriminate]. rewrite (IH _ _ _ Ea). congruence.
  Qed.

  (** ** What a call may change *)

  Definition fr {A} (P : Z -> Z -> Prop) (m : M mstate A) : Prop :=
    forall s, forall a d, ~ P a d -> ms_hw (snd (m s)) a d = ms_hw s a d.

  Lemma fr_bind {A B} P (m : M mstate A) (f : A -> M mstate B) : fr P m -> (forall x, fr P (f x)) -> fr P (mbind m f).
  Proof.
    intros H1 H2 s a d Hn. unfold mbind. specialize (H1 s a d Hn). destruct (m s) as [[y|e] s1]; cbn [snd] in *; [|exact H1].
    now rewrite (H2 y s1 a d Hn).
  Qed.
  Lemma fr_lift_bind {A B} P (r : res A) (f : A -> M mstate B) : (forall x, r = Ok x -> fr P (f x)) -> fr P (mbind (lift r) f).
  Proof. intros H s a d Hn. unfold mbind, lift. destruct r as [x|e]; [now apply H|reflexivity]. Qed.
  Lemma fr_ret {A} P (x : A) : fr P (ret x).
  Proof. now intros s a d _. Qed.
  Lemma fr_throw {A} P e : fr P (throw e : M mstate A).
  Proof. now intros s a d _. Qed.
  Lemma fr_lift {A} P (r : res A) : fr P (lift r).
  Proof. intros s a d _. unfold lift. now destruct r. Qed.
  Lemma fr_gets {A} P (g : mstate -> A) : fr P (gets g).
  Proof. now intros s a d _. Qed.
  Lemma fr_modify P g : (forall s, ms_hw (g s) = ms_hw s) -> fr P (modify g).
  Proof. intros H s a d _. unfold modify. cbn [snd]. now rewrite H. Qed.
  Lemma fr_io P : fr P io.
  Proof. intros s a d _. unfold io. destruct (ms_faults s) as [|[|] f]; reflexivity. Qed.
  Lemma fr_mfor {A} P (l : list A) b : (forall x, In x l -> fr P (b x)) -> fr P (mfor l b).
  Proof.
    induction l as [|x l IH]; intros H; cbn [mfor]; [apply fr_ret|]. apply fr_bind; [apply H; now left|]. intros _. apply IH.
    intros; apply H; now right.
  Qed.
  Lemma fr_mmap {A B} P (l : list A) (b : A -> M mstate B) : (forall x, fr P (b x)) -> fr P (mmap l b).
  Proof.
    intros H. induction l as [|x l IH]; cbn [mmap]; [apply fr_ret|]. apply fr_bind; [apply H|]. intros y. apply fr_bind; [exact IH|].
    intros. apply fr_ret.
  Qed.
  Lemma fr_add P a c v sn : fr P (cache_add env a c v sn).
  Proof. unfold cache_add. destruct (negb _); [apply fr_ret|]. apply fr_bind; [apply fr_lift|]. intros sb. now apply fr_modify. Qed.
  Lemma fr_remove P a c sn : fr P (cache_remove env a c sn).
  Proof.
    unfold cache_remove. destruct (negb _); [apply fr_ret|].
    destruct sn; try (apply fr_bind; [apply fr_lift|]; intros sb; apply fr_modify; intros s; now destruct (ms_cache s a)).
    apply fr_bind; [now apply fr_gets|]. intros [m|]; [now apply fr_modify|apply fr_throw].
  Qed.
  Lemma fr_hw_read P a c : fr P (hw_read env a c).
  Proof. apply fr_bind; [apply fr_io|]. intros _. now apply fr_gets. Qed.
  Lemma fr_hw_write (P : Z -> Z -> Prop) a c v : P a (me_dom env a c) -> fr P (hw_write env a c v).
  Proof.
    intros HP. apply fr_bind; [apply fr_io|]. intros _ s a' d Hn. unfold modify. cbn [snd ms_hw set_log set_hw]. unfold upd.
    destruct (Z.eqb_spec a' a) as [->|]; [|reflexivity]. destruct (Z.eqb_spec d (me_dom env a c)) as [->|]; [contradiction|reflexivity].
  Qed.
  Lemma fr_read_one P a sn c : fr P (read_one env a sn c).
  Proof.
    unfold read_one. apply fr_bind; [apply fr_gets|]. intros [v|]; [apply fr_ret|]. apply fr_bind; [apply fr_hw_read|]. intros v.
    apply fr_bind; [apply fr_add|]. intros; apply fr_ret.
  Qed.
  Lemma fr_from_cache P a c : fr P (from_cache env a c).
  Proof. unfold from_cache. apply fr_bind; [apply fr_gets|]. intros [v|]; [apply fr_ret|apply fr_throw]. Qed.
  Lemma fr_take_lines P a sn ls : forall rv, fr P (take_lines env a sn ls rv).
  Proof.
    induction ls as [|l ls IH]; intros rv; cbn [take_lines]; [apply fr_ret|].
    destruct (split_csv_line _ _ _ _) as [|w0 [|w1 [|]]]; try apply fr_throw.
    apply fr_bind; [apply fr_lift|]. intros c. apply fr_bind; [apply fr_lift|]. intros v. apply fr_bind; [apply fr_add|]. intros _. apply IH.
  Qed.
  Lemma fr_r_read_cpus P a l sn : fr P (r_read_cpus env a l sn).
  Proof.
    unfold r_read_cpus. destruct (_ <? _)%nat; [|apply fr_mmap; intros; apply fr_read_one].
    unfold read_remote. apply fr_bind; [apply fr_gets|]. intros p. apply fr_bind; [apply fr_lift|]. intros [|n0 nr].
    - apply fr_mmap. intros c. apply fr_bind; [apply fr_from_cache|]. intros; apply fr_ret.
    - apply fr_bind.
      + unfold read_script. apply fr_bind; [apply fr_io|]. intros _. apply fr_bind; [|intros; apply fr_ret]. apply fr_mmap. intros c.
        apply fr_bind; [apply fr_hw_read|]. intros; apply fr_ret.
      + intros out. apply fr_bind; [apply fr_take_lines|]. intros rv. apply fr_mmap. intros c. destruct (dget _ _ _); [apply fr_ret|].
        apply fr_bind; [apply fr_from_cache|]. intros; apply fr_ret.
  Qed.
  Lemma fr_r_verify P a v l sn : fr P (r_verify env a v l sn).
  Proof.
    unfold r_verify. apply fr_bind; [apply fr_mfor; intros; apply fr_remove|]. intros _. apply fr_bind; [apply fr_r_read_cpus|].
    intros vals. apply fr_mfor. intros x _. destruct (snd x =? v); [apply fr_ret|apply fr_throw].
  Qed.
  Lemma fr_r_write (P : Z -> Z -> Prop) a v cpus sn vf : (forall c, In c (targets env cpus) -> P a (me_dom env a c)) -> fr P (r_write env a v cpus sn vf).
  Proof.
    intros HP. unfold r_write. apply fr_lift_bind. intros l El.
    apply fr_bind; [apply fr_mfor; intros; apply fr_remove|]. intros _.
    apply fr_bind.
    - apply fr_mfor. intros c Hc. unfold write_one. apply fr_bind; [apply fr_gets|]. intros [x|]; [apply fr_ret|].
      apply fr_bind; [apply fr_gets|]. intros i. apply fr_bind; [|intros; apply fr_add]. destruct (negb i).
      + destruct (to_bytes_ok v); [|apply fr_throw]. apply fr_hw_write. apply HP. now apply (normalized_targets env cpus l El).
      + unfold add_for_transaction. destruct (negb _); [apply fr_throw|now apply fr_modify].
    - intros _. apply fr_bind; [apply fr_gets|]. intros i. destruct (vf && negb i); [apply fr_r_verify|apply fr_ret].
  Qed.

  Lemma fr_transaction_write (P : Z -> Z -> Prop) buf : (forall c m a t, In (c, m) buf -> In (a, t) m -> P a (me_dom env a c)) -> fr P (transaction_write env buf).
  Proof.
    intros HP. apply fr_mfor. intros [c m] Hm. apply fr_mfor. intros [a t] Ht. cbn [fst snd] in *.
    destruct (to_bytes_ok _); [|apply fr_throw]. apply fr_hw_write. eauto.
  Qed.

  Lemma r_flush_frame s a d : ~ waits env s a d -> ms_hw (snd (r_flush env s)) a d = ms_hw s a d.
  Proof.
    intros Hn. unfold r_flush. unfold mbind at 1, gets at 1. unfold mbind at 1, gets at 1.
    destruct (_ || _); [reflexivity|]. destruct (ms_tbuf s) as [|x bf] eqn:Eb; [reflexivity|]. rewrite <- Eb.
    match goal with |- ms_hw (snd (?m s)) a d = _ => assert (F : fr (waits env s) m); [|exact (F s a d Hn)] end.
    assert (Ft : fr (waits env s) (transaction_write env (ms_tbuf s))).
    { apply fr_transaction_write. intros c m a' t H1 H2. exists c, m, t. auto. }
    apply fr_bind.
    - destruct (_ <? _)%nat; [|exact Ft]. intros s1 a1 d1 H1. unfold write_script.
      assert (F2 : fr (waits env s) (io ;; transaction_write env (ms_tbuf s))) by (apply fr_bind; [apply fr_io|intros; exact Ft]).
      specialize (F2 s1 a1 d1 H1). destruct ((io ;; transaction_write env (ms_tbuf s)) s1) as [[u|e] s2]; exact F2.
    - intros _. apply fr_bind; [now apply fr_modify|]. intros _. apply fr_bind; [|intros; apply fr_ret].
      apply fr_mfor. intros vi _. apply fr_mfor. intros ai _. apply fr_r_verify.
  Qed.

  Lemma group_cpus b val l : forall acc gs, group b val l acc = Ok gs ->
    forall n cl c, In (n, cl) gs -> In c cl -> (exists cl', In (n, cl') acc /\ In c cl') \/ In c (map fst l).
  Proof.
    induction l as [|[c old] l IH]; intros acc gs E n cl x Hn Hx; cbn [group] in E.
    - injection E as <-. left. eauto.
    - destruct (set_bits old b val) as [nv|e]; cbn [rbind] in E; [|discriminate]. destruct (old =? nv).
      + destruct (IH _ _ E n cl x Hn Hx); [now left|right; cbn [map]; now right].
      + destruct (IH _ _ E n cl x Hn Hx) as [(cl' & H1 & H2)|H]; [|right; cbn [map]; now right].
        apply In_dset in H1. destruct H1 as [H1|H1]; [left; eauto|].
        injection H1 as -> ->. apply in_app_iff in H2. destruct H2 as [H2|[<- |[]]]; [|right; now left].
        destruct (dget Z.eqb acc nv) as [cs|] eqn:Ed; [|destruct H2]. apply (dget_In Z.eqb Zeqb_spec) in Ed. left. eauto.
  Qed.

  Lemma mmap_fst {A} (h : Z -> M mstate (Z * A)) : (forall c s y s', h c s = (Ok y, s') -> fst y = c) ->
    forall l s ys s', mmap l h s = (Ok ys, s') -> map fst ys = l.
  Proof.
    intros H. induction l as [|c l IH]; intros s ys s' E; cbn [mmap] in E; [unfold ret in E; injection E as <- <-; reflexivity|].
    unfold mbind in E. destruct (h c s) as [[y|e] s1] eqn:Eh; [|discriminate]. destruct (mmap l h s1) as [[zs|e] s2] eqn:Em; [|discriminate].
    unfold ret in E. injection E as <- <-. cbn [map]. rewrite (H _ _ _ _ Eh), (IH _ _ _ Em). reflexivity.
  Qed.

  Lemma cached_fst a c s (y : Z * Z) s' : (let! v := from_cache env a c in ret (c, v)) s = (Ok y, s') -> fst y = c.
  Proof. unfold mbind. destruct (from_cache env a c s) as [[v|e] s1]; [|discriminate]. unfold ret. intros [= <- _]. reflexivity. Qed.

  Lemma r_read_cpus_fst a l sn s vals s' : r_read_cpus env a l sn s = (Ok vals, s') -> map fst vals = l.
  Proof.
    unfold r_read_cpus. destruct (1 <? length l)%nat.
    - unfold read_remote. unfold mbind at 1, gets at 1. unfold mbind at 1. destruct (plan env s a sn l []) as [p|e]; [|discriminate]. unfold lift at 1.
      destruct p as [|n0 nr].
      + apply mmap_fst. intros c s1 y s2. apply cached_fst.
      + unfold mbind at 1. destruct (read_script env a (n0 :: nr) s) as [[out|e] s1]; [|discriminate]. unfold mbind at 1.
        destruct (take_lines env a sn (splitlines out) [] s1) as [[rv|e] s2]; [|discriminate]. apply mmap_fst.
        intros c s3 y s4. destruct (dget Z.eqb rv c); [|apply cached_fst]. unfold ret. intros [= <- _]. reflexivity.
    - apply mmap_fst. intros c s1 [c' x] s2 E. now apply read_one_fst in E.
  Qed.

  Lemma rstep_frame o s a d : ~ may_change env o s a d -> ms_hw (snd (rstep env o s)) a d = ms_hw s a d.
  Proof.
    intros Hn. destruct o as [a0 cpus sn|a0 v cpus sn vf|a0 b val cpus sn vf| | |]; cbn [rstep may_change] in *.
    - assert (F : fr (fun _ _ => False) (r_read env a0 cpus sn)); [|now apply F].
      unfold r_read. apply fr_bind; [apply fr_lift|]. intros; apply fr_r_read_cpus.
    - match type of Hn with ~ ?p => assert (F : fr (fun a d => a = a0 /\ exists c, In c (targets env cpus) /\ me_dom env a c = d)
                                       (r_write env a0 v cpus sn vf;; ret ([] : list (Z * Z)))); [|now apply F] end.
      apply fr_bind; [|intros; apply fr_ret]. apply fr_r_write. intros c Hc. split; [reflexivity|eauto].
    - assert (F : fr (fun a d => a = a0 /\ exists c, In c (targets env cpus) /\ me_dom env a c = d)
                    (r_write_bits env a0 b val cpus sn vf;; ret ([] : list (Z * Z)))); [|now apply F].
      apply fr_bind; [|intros; apply fr_ret]. unfold r_write_bits. apply fr_lift_bind. intros l El.
      intros s1 a1 d1 H1. unfold mbind at 1. destruct (r_read_cpus env a0 l sn s1) as [[vals|e] s2] eqn:Er.
      + pose proof (r_read_cpus_fst _ _ _ _ _ _ Er) as Ef.
        pose proof (fr_r_read_cpus (fun _ _ => False) a0 l sn s1 a1 d1 (fun x => x)) as Fr. rewrite Er in Fr. cbn [snd] in Fr. rewrite <- Fr.
        revert s2 Er Fr. intros s2 _ _. revert s2 a1 d1 H1.
        match goal with |- forall s2 a1 d1, ~ (_ /\ _) -> ms_hw (snd (?m s2)) a1 d1 = _ =>
          change (fr (fun a d => a = a0 /\ exists c, In c (targets env cpus) /\ me_dom env a c = d) m) end.
        apply fr_lift_bind. intros gs Eg. apply fr_mfor. intros [n cl] Hg. cbn [fst snd]. apply fr_r_write. cbn [targets].
        intros c Hc. split; [reflexivity|]. exists c. split; [|reflexivity]. apply (normalized_targets env cpus l El). rewrite <- Ef.
        destruct (group_cpus _ _ _ _ _ Eg n cl c Hg Hc) as [(cl' & [] & _)|H]. exact H.
      + pose proof (fr_r_read_cpus (fun _ _ => False) a0 l sn s1 a1 d1 (fun x => x)) as Fr. now rewrite Er in Fr.
    - assert (F : fr (fun _ _ => False) (start_transaction env;; ret ([] : list (Z * Z)))); [|now apply F].
      apply fr_bind; [|intros; apply fr_ret]. unfold start_transaction. destruct (negb _); [apply fr_ret|].
      apply fr_bind; [apply fr_gets|]. intros [|]; [apply fr_throw|now apply fr_modify].
    - pose proof (r_flush_frame s a d Hn) as F. unfold mbind. destruct (r_flush env s) as [[x|e] s1]; exact F.
    - pose proof (r_flush_frame s a d Hn) as F. unfold r_commit. unfold mbind. unfold gets. destruct (negb (ms_intr s)); [reflexivity|].
      destruct (r_flush env s) as [[x|e] s1]; exact F.
  Qed.
End Free.

(** ** The theorems *)

Section Thms.
  Variable env : menv.
  Variable sc : Z -> scope.
  Hypothesis Hwf : wf_ci (me_ci env).
  Hypothesis Hsc : forall a, scope_right env a (sc a).

  Lemma C68_same_l ops hw : (forall o, In o ops -> op_scoped sc o) ->
    answers (rstep env) ops (msr_init hw []) = answers (mstep env) ops (msr_init hw []).
  Proof. intros Ho. apply (answers_same env sc Hwf Hsc); [exact Ho|apply G0_init|apply Buf0_init]. Qed.

  Lemma remote_to_local ops hw faults rs s : (forall o, In o ops -> op_scoped sc o) ->
    answers (rstep env) ops (msr_init hw faults) = Some (rs, s) ->
    answers (mstep env) ops (msr_init hw []) = Some (rs, set_faults [] s).
  Proof. intros Ho E. rewrite <- (C68_same_l ops hw Ho). exact (ff_answers (rstep env) (ff_rstep env) ops _ _ _ E). Qed.

  Lemma C68_agree_l ops hw f1 f2 r1 s1 r2 s2 : (forall o, In o ops -> op_scoped sc o) ->
    answers (rstep env) ops (msr_init hw f1) = Some (r1, s1) -> answers (mstep env) ops (msr_init hw f2) = Some (r2, s2) ->
    r1 = r2 /\ (forall a d, ms_hw s1 a d = ms_hw s2 a d) /\ ms_log s1 = ms_log s2 /\ ms_intr s1 = ms_intr s2.
  Proof.
    intros Ho E1 E2. pose proof (remote_to_local ops hw f1 r1 s1 Ho E1) as L1.
    pose proof (ff_answers (mstep env) (ff_mstep env) ops _ _ _ E2) as L2.
    change (set_faults [] (msr_init hw f2)) with (msr_init hw []) in L2. rewrite L1 in L2.
    assert (E : (r1, ms_hw s1, ms_log s1, ms_intr s1) = (r2, ms_hw s2, ms_log s2, ms_intr s2)).
    { injection L2 as -> E3 E4 E5 E6 E7. congruence. }
    injection E as -> E3 E4 E5. rewrite E3. auto.
  Qed.

  Lemma answers_mrun_ok ops : forall s rs s', answers (mstep env) ops s = Some (rs, s') -> mrun_ok env ops s = Some s'.
  Proof.
    induction ops as [|o ops IH]; intros s rs s' E; cbn [answers mrun_ok] in *; [congruence|].
    destruct (mstep env o s) as [[r|e] s1]; [|discriminate]. destruct (answers (mstep env) ops s1) as [[rs1 s2]|] eqn:Ea; [|discriminate].
    rewrite (IH _ _ _ Ea). congruence.
  Qed.

  Lemma mrun_ok_answers ops : forall s s', mrun_ok env ops s = Some s' -> exists rs, answers (mstep env) ops s = Some (rs, s').
  Proof.
    induction ops as [|o ops IH]; intros s s' E; cbn [answers mrun_ok] in *; [exists []; congruence|].
    destruct (mstep env o s) as [[r|e] s1]; [|discriminate]. destruct (IH _ _ E) as (rs & Ea). rewrite Ea. eauto.
  Qed.

  Lemma mrun_ok_mrun ops : forall s s', mrun_ok env ops s = Some s' -> mrun env ops s = s'.
  Proof.
    induction ops as [|o ops IH]; intros s s' E; cbn [mrun_ok] in *; [unfold mrun; cbn; congruence|].
    unfold mrun. cbn [fold_left]. fold (mrun env ops (snd (mstep env o s))).
    destruct (mstep env o s) as [[r|e] s1]; [|discriminate]. cbn [snd]. now apply IH.
  Qed.

  Lemma C68_effects_l ops hw faults rs s : faithful env -> disciplined env sc ops ->
    answers (rstep env) ops (msr_init hw faults) = Some (rs, s) -> effects env ops hw (view env s).
  Proof.
    intros Hf Hd E. pose proof (remote_to_local ops hw faults rs s (proj1 Hd) E) as L.
    exact (C05_refinement_l env sc Hwf Hsc ops hw [] _ Hf Hd (answers_mrun_ok _ _ _ _ L)).
  Qed.

  Lemma C68_succeeds_l ops hw : faithful env -> disciplined env sc ops -> ops_valid env false ops ->
    (forall a d, 0 <= hw a d < 2 ^ 64) -> exists rs s, answers (rstep env) ops (msr_init hw []) = Some (rs, s).
  Proof.
    intros Hf Hd Hv Hh. destruct (available_l env sc ops hw [] Hwf Hsc Hf Hd Hv (fun b H => match H with end) Hh) as (s & E).
    destruct (mrun_ok_answers _ _ _ E) as (rs & Ea). exists rs, s. now rewrite (C68_same_l ops hw (proj1 Hd)).
  Qed.

  Lemma answers_app step : forall ops o s rs s', answers step (ops ++ [o]) s = Some (rs, s') ->
    exists rs1 s1 r, answers step ops s = Some (rs1, s1) /\ step o s1 = (Ok r, s') /\ rs = rs1 ++ [r].
  Proof.
    induction ops as [|x ops IH]; intros o s rs s' E; cbn [app answers] in *.
    - destruct (step o s) as [[r|e] s1] eqn:Es; [|discriminate]. injection E as <- <-. exists [], s, r. auto.
    - destruct (step x s) as [[r|e] s1] eqn:Es; [|discriminate]. destruct (answers step (ops ++ [o]) s1) as [[rs1 s2]|] eqn:Ea; [|discriminate].
      injection E as <- <-. destruct (IH _ _ _ _ Ea) as (rs2 & s3 & r3 & E1 & E2 & E3). rewrite E1. exists (r :: rs2), s3, r3. rewrite E3. auto.
  Qed.

  Lemma C68_verified_l ops hw faults a v cpus rs s : (forall o, In o ops -> op_scoped sc o) ->
    answers (rstep env) (ops ++ [OWrite a v cpus (sc a) true]) (msr_init hw faults) = Some (rs, s) -> ms_intr s = false ->
    forall c, In c (targets env cpus) -> ms_hw s a (me_dom env a c) = v.
  Proof.
    intros Ho E Hi c Hc.
    assert (Ho' : forall o, In o (ops ++ [OWrite a v cpus (sc a) true]) -> op_scoped sc o).
    { intros o H. apply in_app_iff in H as [H|[<- |[]]]; [now apply Ho|reflexivity]. }
    pose proof (remote_to_local _ hw faults rs s Ho' E) as L. apply answers_app in L as (rs1 & s1 & r & E1 & E2 & _).
    cbn [mstep] in E2. unfold mbind in E2. destruct (write env a v cpus (sc a) true s1) as [[[]|e] s2] eqn:Ew; [|discriminate].
    unfold ret in E2. injection E2 as _ E2.
    pose proof (mrun_ok_mrun _ _ _ (answers_mrun_ok _ _ _ _ E1)) as Em.
    assert (Ei : ms_intr s1 = false).
    { pose proof (write_0 env sc Hwf Hsc a v cpus true s1) as P. unfold post in P. rewrite Ew in P.
      destruct P as ((_ & P) & _).
      - rewrite <- Em. apply (mrun_0 env sc Hwf Hsc); [exact Ho|apply Buf0_init].
      - rewrite E2 in P. cbn [ms_intr set_faults] in P. congruence. }
    pose proof (C05_verified_write_l env sc Hwf Hsc ops hw [] a v cpus s2 Ho) as P. cbn zeta in P. rewrite Em in P.
    specialize (P Ei Ew c Hc). rewrite E2 in P. exact P.
  Qed.
End Thms.
