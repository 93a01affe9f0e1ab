(** The properties cache returns the last value given, for every CPU that shares the scope (C77). *)
From Coq Require Import Ascii String.
From Verif Require Import Base M_Text M_PCache S_PCache L_PCache X_PCache.
Open Scope list_scope.
Open Scope Z_scope.

Theorem C77_get (V : Type) (h : history V) p x m r c' : pc_get true p x m (pc_run true h) = (r, c') ->
  c' = pc_run true h /\ ((exists v, r = Ok v /\ current h m p x v) \/ (r = Exn ENotFound /\ forall v, ~ current h m p x v)).
Proof. exact (get_current h p x m r c'). Qed.

Theorem C77_is_cached (V : Type) (h : history V) p x m : exists b, pc_is_cached true p x m (pc_run true h) = (Ok b, pc_run true h) /\
  (b = true <-> exists v, current h m p x v).
Proof. exact (is_cached_current h p x m). Qed.

(** The first mechanism of the list that has a value. *)
Theorem C77_find (V : Type) (h : history V) l p x r c' : pc_find true p x (Some l) (pc_run true h) = (r, c') ->
  c' = pc_run true h /\
  ((exists pre m post v, l = pre ++ m :: post /\ r = Ok (v, m) /\ current h m p x v /\ forall m' v', In m' pre -> ~ current h m' p x v') \/
   (r = Exn ENotFound /\ forall m v, In m l -> ~ current h m p x v)).
Proof. exact (find_given h l p x r c'). Qed.

Theorem C77_find_any (V : Type) (h : history V) p x r c' : pc_find true p x None (pc_run true h) = (r, c') ->
  c' = pc_run true h /\
  ((exists m v, r = Ok (v, m) /\ current h m p x v) \/ (r = Exn ENotFound /\ forall m v, ~ current h m p x v)).
Proof. exact (find_any h p x r c'). Qed.

(** add() returns the value; only an unknown CPU or scope makes it fail, and then it changes nothing. *)
Theorem C77_add (V : Type) (en : bool) sib p cpu (v : V) m s c r c' : pc_add en sib p cpu v m s c = (r, c') ->
  r = Ok v \/ (en = true /\ (exists e, sib cpu s = Exn e /\ r = Exn e) /\ c' = c).
Proof. exact (add_result en sib p cpu v m s c r c'). Qed.

Theorem C77_remove (V : Type) sib p cpu m s (c : cache V) r c' : s <> SGlobal -> pc_remove true sib p cpu m s c = (r, c') ->
  r = Ok tt \/ (exists e, sib cpu s = Exn e /\ r = Exn e) /\ c' = c.
Proof. exact (remove_result sib p cpu m s c r c'). Qed.

Theorem C77_remove_global (V : Type) (h : history V) sib p cpu m x v : current h m p x v ->
  exists c', pc_remove true sib p cpu m SGlobal (pc_run true h) = (Ok tt, c').
Proof. exact (remove_global_ok h sib p cpu m x v). Qed.

(** A disabled cache holds nothing. *)
Theorem C77_disabled (V : Type) (h : history V) : (forall p x m, pc_get false p x m (pc_run false h) = (Exn ENotFound, pc_run false h)) /\
  (forall p x l, pc_find false p x l (pc_run false h) = (Exn ENotFound, pc_run false h)) /\
  (forall p x m, pc_is_cached false p x m (pc_run false h) = (Ok false, pc_run false h)) /\
  (forall sib p cpu m s, pc_remove false sib p cpu m s (pc_run false h) = (Ok tt, pc_run false h)) /\ pc_run false h = [].
Proof. exact (off h). Qed.

Theorem C77_offline_refuted :
  exists (before off : Z -> scope -> res (list Z)) (v v' : Z),
    before 0 SPackage = Ok [0; 1] /\ off 0 SPackage = Ok [0] /\ v <> v' /\
    let h := [(CAdd epp 0 v msr SPackage, before); (CAdd epp 0 v' msr SPackage, off)] in
    fst (pc_get true epp 0 msr (pc_run true h)) = Ok v' /\ fst (pc_get true epp 1 msr (pc_run true h)) = Ok v.
Proof. exact stale. Qed.

Theorem C77_remove_global_refuted : exists (sib : Z -> scope -> res (list Z)) (p m : str) (cpu : Z),
  (forall s, s <> SGlobal -> sib cpu s = Ok [cpu]) /\
  (forall s, s <> SGlobal -> fst (pc_remove (V := Z) true sib p cpu m s []) = Ok tt) /\ fst (pc_remove (V := Z) true sib p cpu m SGlobal []) = Exn EKey.
Proof. exact global_key. Qed.

Print Assumptions C77_get.
Print Assumptions C77_is_cached.
Print Assumptions C77_find.
Print Assumptions C77_find_any.
Print Assumptions C77_add.
Print Assumptions C77_remove.
Print Assumptions C77_remove_global.
Print Assumptions C77_disabled.
Print Assumptions C77_offline_refuted.
Print Assumptions C77_remove_global_refuted.
