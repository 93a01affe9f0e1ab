(** Model of the package C-state limit: pepclibs/msr/PCStateConfigCtl.py. *)
From Coq Require Import Ascii String.
From Verif Require Import Base M_CPUInfo M_Text M_MSR M_FMSR.

(** pepclibs/msr/PCStateConfigCtl.py:129, 144 *)
Definition n_limit : str := s2l "pkg_cstate_limit".
Definition n_lock : str := s2l "pkg_cstate_limit_lock".
Definition n_unlimited : str := s2l "unlimited".

(** PCStateConfigCtl.py:207-223: the name of the limit with number [code]; the codes are walked from
    the highest to the lowest. The warning is not modelled. *)
Definition limit_name (vals : list (fval * Z)) (code : Z) : fval :=
  let rv := rvals vals in
  match dget Z.eqb rv code with
  | Some n => n
  | None =>
    match find (fun cde => (cde <=? code) &&
                 negb (match dget Z.eqb rv cde with Some n => fval_eqb n (VStr n_unlimited) | None => true end))
               (rev (zsort (map fst rv))) with
    | Some cde => match dget Z.eqb rv cde with Some n => n | None => VInt cde end
    | None => VStr (dec code)
    end
  end.

(** The dictionary yielded (PCStateConfigCtl.py:225-228) *)
Record limit_info := LI { li_limit : fval; li_limits : list fval; li_aliases : list (str * str) }.

Section PCState.
  Variable env : menv.
  Variable fr : freg.
  Let ci := me_ci env.

  (** PCStateConfigCtl.py:188-229 _get_pkg_cstate_limit() *)
  Definition get_limit (fe : feature) (cpus : nums_t) : M mstate (list (Z * limit_info)) :=
    let! l := read_bits_ios env (fr_addr fr) (fe_bits fe) cpus (fe_ios fe) in
    let vals := match fe_vals fe with Some v => v | None => [] end in
    let aliases := match fe_aliases fe with Some a => a | None => [] end in
    ret (map (fun cc => (fst cc, LI (limit_name vals (snd cc)) (map fst vals) aliases)) l).

  (** _FeaturedMSR.py:193-211 read_feature() for the limit *)
  Definition read_limit (cpus : nums_t) : M mstate (list (Z * limit_info)) :=
    let! _ := lift (validate_feature_supported env fr n_limit cpus) in
    let! fe := lift (get_feature fr n_limit) in
    get_limit fe cpus.

  (** PCStateConfigCtl.py:237-249: the loop that reads the registers, with the I/O scope given *)
  Fixpoint group_locked (a : Z) (lockb b : bits_t) (code : Z) (sname : scope) (cpus : list Z)
      (acc : list (Z * list Z)) : M mstate (list (Z * list Z)) :=
    match cpus with
    | [] => ret acc
    | c :: rest =>
        let! (_, old) := read_one env a sname c in
        let! locked := lift (get_bits old lockb) in
        if negb (locked =? 0) then throw EError
        else
          let! new := lift (set_bits old b (Some code)) in
          if old =? new then group_locked a lockb b code sname rest acc
          else
            let l := match dget Z.eqb acc new with Some l => l | None => [] end in
            group_locked a lockb b code sname rest (dset Z.eqb acc new (l ++ [c]))
    end.

  (** PCStateConfigCtl.py:231-252 _set_pkg_cstate_limit(); the I/O scope is never None for this
      register (290-300) *)
  Definition set_limit (fe lock : feature) (code : Z) (cpus : nums_t) : M mstate unit :=
    match fe_ios fe with
    | None => throw EError
    | Some sname =>
      let! l := lift (normalize_cpus ci cpus false) in
      let! groups := group_locked (fr_addr fr) (fe_bits lock) (fe_bits fe) code sname l [] in
      mfor groups (fun g => write env (fr_addr fr) (fst g) (Some (snd g)) sname false)
    end.

  (** _FeaturedMSR.py:280-308 write_feature() for the limit; the lock feature is looked up in the
      same dictionary (238) *)
  Definition write_limit (v : fval) (cpus : nums_t) : M mstate unit :=
    let! _ := lift (validate_feature_supported env fr n_limit cpus) in
    let! fe := lift (get_feature fr n_limit) in
    let! w := lift (normalize_feature_value fe v) in
    if negb (fe_writable fe) then throw EError
    else
      let! lock := lift (match dget str_eqb (fr_feats fr) n_lock with Some f => Ok f | None => Exn EKey end) in
      match w with
      | VInt code => set_limit fe lock code cpus
      | _ => throw EError
      end.
End PCState.
