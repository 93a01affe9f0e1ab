(** Shared vocabulary of the models: exceptions as values, a state-and-exception monad, and a few
    list helpers with the meaning of the Python built-ins used all over /repo. *)
From Coq Require Export List ZArith Bool Lia.
Export ListNotations.
#[global] Open Scope Z_scope.

(** The exception classes of pepclibs/helperlibs/Exceptions.py (only the distinctions that some
    caller makes), plus the Python built-in exceptions that the modelled code can raise. *)
Inductive exc :=
| EError          (* Error *)
| ENotFound       (* ErrorNotFound *)
| ENotSupported   (* ErrorNotSupported *)
| ETryAnother     (* ErrorTryAnotherMechanism *)
| EVerify         (* ErrorVerifyFailed *)
| EBadFormat      (* ErrorBadFormat *)
| EFreqOrder      (* PStates.ErrorFreqOrder *)
| EFreqRange      (* PStates.ErrorFreqRange *)
| EUsePerCPU      (* _PropsClassBase.ErrorUsePerCPU *)
| ENoTarget       (* _OpTarget.ErrorNoTarget *)
| ENoCPUTarget    (* _OpTarget.ErrorNoCPUTarget *)
| EOverflow       (* OverflowError of int.to_bytes() *)
| EKey            (* KeyError *)
| EValue          (* ValueError *)
| EIndex          (* IndexError *)
| EUnbound.       (* UnboundLocalError *)

(** Result of a Python call: a value or a raised exception. *)
Inductive res (A : Type) :=
| Ok (a : A)
| Exn (e : exc).
Arguments Ok {A} a.
Arguments Exn {A} e.

Definition rbind {A B} (r : res A) (f : A -> res B) : res B :=
  match r with Ok a => f a | Exn e => Exn e end.

Notation "'let?' x := r 'in' f" := (rbind r (fun x => f))
  (at level 200, x pattern, r at level 100, f at level 200).

(** Stateful code: the state survives an exception, as in Python. *)
Definition M (S A : Type) := S -> res A * S.

Definition ret {S A} (a : A) : M S A := fun s => (Ok a, s).
Definition throw {S A} (e : exc) : M S A := fun s => (Exn e, s).
Definition mbind {S A B} (m : M S A) (f : A -> M S B) : M S B :=
  fun s => match m s with
           | (Ok a, s') => f a s'
           | (Exn e, s') => (Exn e, s')
           end.
Definition lift {S A} (r : res A) : M S A := fun s => (r, s).
Definition modify {S} (f : S -> S) : M S unit := fun s => (Ok tt, f s).
Definition gets {S A} (f : S -> A) : M S A := fun s => (Ok (f s), s).

Notation "'let!' x := m 'in' f" := (mbind m (fun x => f))
  (at level 200, x pattern, m at level 100, f at level 200).
Notation "m ;; f" := (mbind m (fun _ => f)) (at level 100, f at level 200, right associativity).

(** "for x in l: body(x)", stopping at the first exception. *)
Fixpoint mfor {S A} (l : list A) (body : A -> M S unit) : M S unit :=
  match l with
  | [] => ret tt
  | x :: t => body x ;; mfor t body
  end.

(** "[body(x) for x in l]", stopping at the first exception. *)
Fixpoint mmap {S A B} (l : list A) (body : A -> M S B) : M S (list B) :=
  match l with
  | [] => ret []
  | x :: t => let! y := body x in let! ys := mmap t body in ret (y :: ys)
  end.

Fixpoint rmap {A B} (l : list A) (body : A -> res B) : res (list B) :=
  match l with
  | [] => Ok []
  | x :: t => let? y := body x in let? ys := rmap t body in Ok (y :: ys)
  end.

(** "x in l" for integers. *)
Definition inb (x : Z) (l : list Z) : bool := existsb (Z.eqb x) l.

(** pepclibs/helperlibs/Trivial.py:282-293 'list_dedup()': list(dict.fromkeys(elts)), i.e. every
    element once, at its first position. *)
Fixpoint list_dedup {A} (eqb : A -> A -> bool) (l : list A) : list A :=
  match l with
  | [] => []
  | x :: t => x :: filter (fun y => negb (eqb x y)) (list_dedup eqb t)
  end.

Definition dedup (l : list Z) : list Z := list_dedup Z.eqb l.

(** Python's sorted(): stable insertion sort by a boolean "less or equal". *)
Fixpoint insert_by {A} (le : A -> A -> bool) (x : A) (l : list A) : list A :=
  match l with
  | [] => [x]
  | y :: t => if le x y then x :: y :: t else y :: insert_by le x t
  end.

Definition sort_by {A} (le : A -> A -> bool) (l : list A) : list A :=
  fold_right (insert_by le) [] l.

(** sorted() of integers. *)
Definition zsort (l : list Z) : list Z := sort_by Z.leb l.

(** Comparison of tuples of integers, as Python compares tuples. *)
Fixpoint lexleb (a b : list Z) : bool :=
  match a, b with
  | [], _ => true
  | _ :: _, [] => false
  | x :: a', y :: b' => if x <? y then true else if x =? y then lexleb a' b' else false
  end.

(** "set(l) <= set(m)". *)
Definition subsetb (l m : list Z) : bool := forallb (fun x => inb x m) l.

(** "[x for x in l if x not in m]" / "set(l) - set(m)". *)
Definition minus (l m : list Z) : list Z := filter (fun x => negb (inb x m)) l.

(** Insertion-ordered dictionaries: lookup and assignment ("d[k] = v" keeps the position of an
    existing key and appends a new one). *)
Section Dict.
  Context {K V : Type} (eqb : K -> K -> bool).
  Fixpoint dget (d : list (K * V)) (k : K) : option V :=
    match d with
    | [] => None
    | (k', v) :: t => if eqb k k' then Some v else dget t k
    end.
  Fixpoint dset (d : list (K * V)) (k : K) (v : V) : list (K * V) :=
    match d with
    | [] => [(k, v)]
    | (k', v') :: t => if eqb k k' then (k', v) :: t else (k', v') :: dset t k v
    end.
  Definition ddel (d : list (K * V)) (k : K) : list (K * V) :=
    filter (fun kv => negb (eqb k (fst kv))) d.
End Dict.

(** The scope (level) names of pepclibs/_CPUInfoBase.py:25 plus "global". *)
Inductive scope := SCPU | SCore | SModule | SDie | SNode | SPackage | SGlobal.

Definition scope_eqb (a b : scope) : bool :=
  match a, b with
  | SCPU, SCPU | SCore, SCore | SModule, SModule | SDie, SDie | SNode, SNode
  | SPackage, SPackage | SGlobal, SGlobal => true
  | _, _ => false
  end.
