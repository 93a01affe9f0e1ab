(** Model of the properties cache: pepclibs/_PropsCache.py. *)
From Coq Require Import Ascii String.
From Verif Require Import Base M_Text M_CFreq.
Open Scope list_scope.
Open Scope Z_scope.

Section Cache.
  Context {V : Type}.

  (** self._cache: mechanism name -> property name -> CPU number -> value *)
  Definition cache := list (str * list (str * list (Z * V))).

  (** "self._cache[mname][pname][cpu]", a KeyError if not there *)
  Definition look (c : cache) (mname pname : str) (cpu : Z) : res V :=
    match dget str_eqb c mname with
    | None => Exn EKey
    | Some ps =>
        match dget str_eqb ps pname with
        | None => Exn EKey
        | Some vs => match dget Z.eqb vs cpu with None => Exn EKey | Some v => Ok v end
        end
    end.

  Variable enabled : bool.

  (** _PropsCache.py:67-84 get() *)
  Definition pc_get (pname : str) (cpu : Z) (mname : str) : M cache V :=
    if enabled then
      let! c := gets (fun c => c) in
      match look c mname pname cpu with Exn EKey => throw ENotFound | r => lift r end
    else throw ENotFound.

  (** _PropsCache.py:26-36 is_cached() *)
  Definition pc_is_cached (pname : str) (cpu : Z) (mname : str) : M cache bool :=
    fun c => match pc_get pname cpu mname c with
             | (Ok _, c') => (Ok true, c')
             | (Exn e, c') => if catches_error e then (Ok false, c') else (Exn e, c')
             end.

  (** _PropsCache.py:57-65 *)
  Fixpoint find_in (c : cache) (mnames : list str) (pname : str) (cpu : Z) : res (V * str) :=
    match mnames with
    | [] => Exn ENotFound
    | m :: t => match look c m pname cpu with Ok v => Ok (v, m) | Exn EKey => find_in c t pname cpu | Exn e => Exn e end
    end.

  (** _PropsCache.py:38-65 find() *)
  Definition pc_find (pname : str) (cpu : Z) (mnames : option (list str)) : M cache (V * str) :=
    if enabled then
      let! c := gets (fun c => c) in
      lift (find_in c (match mnames with None => map fst c | Some l => l end) pname cpu)
    else throw ENotFound.

  (** CPUInfo.get_cpu_siblings() at the time of the call: see M_CPUInfo. *)
  Variable siblings : Z -> scope -> res (list Z).

  (** "del self._cache[mname][pname][cpu]" with the KeyError ignored: _PropsCache.py:105-108 *)
  Definition del_item (c : cache) (mname pname : str) (cpu : Z) : cache :=
    match dget str_eqb c mname with
    | None => c
    | Some ps =>
        match dget str_eqb ps pname with
        | None => c
        | Some vs => dset str_eqb c mname (dset str_eqb ps pname (ddel Z.eqb vs cpu))
        end
    end.

  (** _PropsCache.py:86-108 remove() *)
  Definition pc_remove (pname : str) (cpu : Z) (mname : str) (sname : scope) : M cache unit :=
    if negb enabled then ret tt
    else if scope_eqb sname SGlobal then
      let! c := gets (fun c => c) in
      match dget str_eqb c mname with
      | None => throw EKey
      | Some ps =>
          match dget str_eqb ps pname with
          | None => throw EKey
          | Some _ => modify (fun c => dset str_eqb c mname (ddel str_eqb ps pname))
          end
      end
    else
      let! cpus := lift (siblings cpu sname) in
      modify (fun c => fold_left (fun c cpu => del_item c mname pname cpu) cpus c).

  (** "self._cache[mname][pname][cpu] = val", both dictionaries exist: _PropsCache.py:133 *)
  Definition set_item (c : cache) (mname pname : str) (cpu : Z) (val : V) : cache :=
    match dget str_eqb c mname with
    | None => c
    | Some ps =>
        match dget str_eqb ps pname with
        | None => c
        | Some vs => dset str_eqb c mname (dset str_eqb ps pname (dset Z.eqb vs cpu val))
        end
    end.

  (** _PropsCache.py:128-131 *)
  Definition prepare (c : cache) (mname pname : str) : cache :=
    let c := match dget str_eqb c mname with None => dset str_eqb c mname [] | Some _ => c end in
    match dget str_eqb c mname with
    | None => c
    | Some ps => match dget str_eqb ps pname with None => dset str_eqb c mname (dset str_eqb ps pname []) | Some _ => c end
    end.

  (** _PropsCache.py:110-135 add() *)
  Definition pc_add (pname : str) (cpu : Z) (val : V) (mname : str) (sname : scope) : M cache V :=
    if negb enabled then ret val
    else
      let! cpus := lift (siblings cpu sname) in
      modify (fun c => fold_left (fun c cpu => set_item c mname pname cpu val) cpus (prepare c mname pname)) ;;
      ret val.
End Cache.
Arguments cache : clear implicits.

(** A call of add() or remove(), and the CPU siblings at that time. *)
Inductive pcall (V : Type) :=
| CAdd (pname : str) (cpu : Z) (val : V) (mname : str) (sname : scope)
| CRemove (pname : str) (cpu : Z) (mname : str) (sname : scope).
Arguments CAdd {V}.
Arguments CRemove {V}.

Definition pc_call {V} (enabled : bool) (o : pcall V * (Z -> scope -> res (list Z))) (c : cache V) : cache V :=
  match fst o with
  | CAdd p cpu v m s => snd (pc_add enabled (snd o) p cpu v m s c)
  | CRemove p cpu m s => snd (pc_remove enabled (snd o) p cpu m s c)
  end.

(** The cache after calls; exceptions are ignored by the caller. _PropsCache.py:137-157: it is empty at first. *)
Definition pc_run {V} (enabled : bool) (h : list (pcall V * (Z -> scope -> res (list Z)))) : cache V :=
  fold_left (fun c o => pc_call enabled o c) h [].
