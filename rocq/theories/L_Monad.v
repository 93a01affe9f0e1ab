(** Reasoning about stateful code: postconditions for normal return and for exceptions. *)
From Verif Require Import Base L_Base.

Definition post {S A} (m : M S A) (s : S) (Q : A -> S -> Prop) (E : exc -> S -> Prop) : Prop :=
  match m s with
  | (Ok a, s') => Q a s'
  | (Exn e, s') => E e s'
  end.

Section Post.
  Context {S : Type}.

  Lemma post_ret {A} (a : A) (s : S) (Q : _ -> S -> Prop) (E : exc -> S -> Prop) : Q a s -> post (ret a) s Q E.
  Proof. exact (fun H => H). Qed.

  Lemma post_throw {A} e (s : S) (Q : A -> S -> Prop) (E : exc -> S -> Prop) : E e s -> post (throw e) s Q E.
  Proof. exact (fun H => H). Qed.

  Lemma post_modify f (s : S) (Q : unit -> S -> Prop) (E : exc -> S -> Prop) : Q tt (f s) -> post (modify f) s Q E.
  Proof. exact (fun H => H). Qed.

  Lemma post_gets {A} (f : S -> A) (s : S) (Q : _ -> S -> Prop) (E : exc -> S -> Prop) : Q (f s) s -> post (gets f) s Q E.
  Proof. exact (fun H => H). Qed.

  Lemma post_lift {A} (r : res A) (s : S) (Q : _ -> S -> Prop) (E : exc -> S -> Prop) :
    (forall a, r = Ok a -> Q a s) -> (forall e, r = Exn e -> E e s) -> post (lift r) s Q E.
  Proof. unfold post, lift. destruct r; auto. Qed.

  Lemma post_bind {A B} (m : M S A) (f : A -> M S B) (s : S) (Q : _ -> S -> Prop) (E : exc -> S -> Prop) :
    post m s (fun a s' => post (f a) s' Q E) E -> post (mbind m f) s Q E.
  Proof. unfold post, mbind. destruct (m s) as [[a|e] s']; auto. Qed.

  Lemma post_conseq {A} (m : M S A) (s : S) (Q Q' : A -> S -> Prop) (E E' : exc -> S -> Prop) :
    post m s Q E -> (forall a s', Q a s' -> Q' a s') -> (forall e s', E e s' -> E' e s') ->
    post m s Q' E'.
  Proof. unfold post. destruct (m s) as [[a|e] s']; auto. Qed.

  Lemma post_and {A} (m : M S A) (s : S) (Q Q' : A -> S -> Prop) (E E' : exc -> S -> Prop) :
    post m s Q E -> post m s Q' E' ->
    post m s (fun a s' => Q a s' /\ Q' a s') (fun e s' => E e s' /\ E' e s').
  Proof. unfold post. destruct (m s) as [[a|e] s']; auto. Qed.

  Lemma post_run {A} (m : M S A) (s : S) (Q : _ -> S -> Prop) (E : exc -> S -> Prop) r s' :
    post m s Q E -> m s = (r, s') -> match r with Ok a => Q a s' | Exn e => E e s' end.
  Proof. unfold post. intros H H2. rewrite H2 in H. now destruct r. Qed.

  Lemma post_mfor {A} (body : A -> M S unit) (I : list A -> S -> Prop) (E : exc -> S -> Prop) l :
    (forall p x r, l = p ++ x :: r -> forall s, I p s ->
       post (body x) s (fun _ s' => I (p ++ [x]) s') E) ->
    forall s, I [] s -> post (mfor l body) s (fun _ s' => I l s') E.
  Proof.
    intros Hb.
    assert (G : forall r p, l = p ++ r -> forall s, I p s ->
              post (mfor r body) s (fun _ s' => I l s') E).
    { induction r as [|x r IH]; intros p El s Hs.
      - rewrite app_nil_r in El. subst p. exact Hs.
      - cbn [mfor]. apply post_bind. eapply post_conseq; [apply (Hb p x r El s Hs)| |auto].
        intros u s' H'. apply (IH (p ++ [x])); [now rewrite <- app_assoc|exact H']. }
    intros s Hs. apply (G l []); auto.
  Qed.

  Lemma post_mmap {A B} (body : A -> M S B) (I : list A -> list B -> S -> Prop) (E : exc -> S -> Prop) l :
    (forall p x r, l = p ++ x :: r -> forall q s, I p q s ->
       post (body x) s (fun y s' => I (p ++ [x]) (q ++ [y]) s') E) ->
    forall s, I [] [] s -> post (mmap l body) s (fun ys s' => I l ys s') E.
  Proof.
    intros Hb.
    assert (G : forall r p q, l = p ++ r -> forall s, I p q s ->
              post (mmap r body) s (fun ys s' => I l (q ++ ys) s') E).
    { induction r as [|x r IH]; intros p q El s Hs.
      - rewrite app_nil_r in El. subst p. cbn [mmap]. apply post_ret. now rewrite app_nil_r.
      - cbn [mmap]. apply post_bind. eapply post_conseq; [apply (Hb p x r El q s Hs)| |auto].
        intros y s' H'. apply post_bind. eapply post_conseq.
        + apply (IH (p ++ [x]) (q ++ [y])); [now rewrite <- app_assoc|exact H'].
        + intros ys s'' H''. apply post_ret. cbn beta in H''. now rewrite <- app_assoc in H''.
        + auto. }
    intros s Hs. eapply post_conseq; [apply (G l [] []); auto| |]; cbn; auto.
  Qed.

  Lemma mfor_app {A} (l1 l2 : list A) (body : A -> M S unit) s :
    mfor (l1 ++ l2) body s = (mfor l1 body ;; mfor l2 body) s.
  Proof.
    revert s; induction l1 as [|x t IH]; intros s; [reflexivity|].
    cbn [mfor app]. unfold mbind. destruct (body x s) as [[u|e] s1]; [|reflexivity].
    rewrite IH. reflexivity.
  Qed.

  Lemma mfor_ext {A} (l : list A) (f g : A -> M S unit) s :
    (forall x s, In x l -> f x s = g x s) -> mfor l f s = mfor l g s.
  Proof.
    revert s; induction l as [|x t IH]; intros s H; [reflexivity|].
    cbn [mfor]. unfold mbind. rewrite H by (now left). destruct (g x s) as [[u|e] s1]; [|reflexivity].
    apply IH. intros; apply H; now right.
  Qed.

  Lemma mfor_map {A B} (h : A -> B) (l : list A) (f : B -> M S unit) s :
    mfor (map h l) f s = mfor l (fun x => f (h x)) s.
  Proof.
    revert s; induction l as [|x t IH]; intros s; [reflexivity|].
    cbn [mfor map]. unfold mbind. destruct (f (h x) s) as [[u|e] s1]; [apply IH|reflexivity].
  Qed.

  Lemma mfor_flat_map {A B} (h : A -> list B) (l : list A) (f : B -> M S unit) s :
    mfor (flat_map h l) f s = mfor l (fun x => mfor (h x) f) s.
  Proof.
    revert s; induction l as [|x t IH]; intros s; [reflexivity|].
    cbn [mfor flat_map]. rewrite mfor_app. unfold mbind.
    destruct (mfor (h x) f s) as [[u|e] s1]; [apply IH|reflexivity].
  Qed.
End Post.
