(** Model of EPP and EPB: pepclibs/_EPBase.py, pepclibs/EPP.py and pepclibs/EPB.py. *)
From Coq Require Import Ascii String QArith.
From Verif Require Import Base M_CPUInfo M_Text M_Human M_MSR M_FMSR M_HWP.

Inductive epkind := EPP | EPB.

(** A value: a text (EPP in sysfs), or a number. *)
Inductive epval := EText (t : str) | ENum (n : Z).

(** The kernel: does CPU [c] have the sysfs file (EPP.py:182-183, EPB.py:138)? What does the file show when the
    registers are [h] (None: reading fails)? What are the registers after text [v] was written to it (None: the
    write fails)? The kernel keeps the values in the registers. *)
Record kern := KN {
  kn_exists : Z -> bool;
  kn_show : (Z -> Z -> Z) -> Z -> option str;
  kn_store : (Z -> Z -> Z) -> Z -> str -> option (Z -> Z -> Z) }.

(** The MSR object with the registers; the cache of the values read from sysfs, None is the value None
    (_EPBase.py:269, _PropsCache.py; EPP.py:118, 126 and EPB.py:84, 92 use the mechanism "sysfs" and the scope
    "CPU" only); EPP._aliases (EPP.py:180); EPB._epb_policies without the None values (EPB.py:137). *)
Record epstate := EPS {
  es_m : mstate;
  es_cache : list (Z * option epval);
  es_alias : list (str * str);
  es_pol : list (str * Z) }.

Definition es_set_m m s := EPS m (es_cache s) (es_alias s) (es_pol s).
Definition es_set_cache c s := EPS (es_m s) c (es_alias s) (es_pol s).
Definition es_set_alias a s := EPS (es_m s) (es_cache s) a (es_pol s).
Definition es_set_pol p s := EPS (es_m s) (es_cache s) (es_alias s) p.

(** EPP.py:167-187, EPB.py:117-138, _EPBase.py:237-270 *)
Definition ep_init (hw : Z -> Z -> Z) (faults : list bool) : epstate := EPS (msr_init hw faults) [] [] [].

(** A call of the MSR object *)
Definition on_msr {A} (m : M mstate A) : M epstate A :=
  fun s => let (r, m') := m (es_m s) in (r, es_set_m m' s).

(** EPB.py:24 _EPB_POLICIES *)
Definition epb_names : list str :=
  map s2l ["performance"; "balance-performance"; "normal"; "balance-power"; "power"]%string.

(** _EPBase.py:20 _MNAMES *)
Definition m_sysfs : str := s2l "sysfs"%string.
Definition m_msr : str := s2l "msr"%string.
Definition ep_mnames : list str := [m_sysfs; m_msr].

Section EP.
  (** The environment of the MSR object, which has the same 'enable_cache' argument; EPP or EPB; the kernel; the HWP
      registers (EPP) and the EPB register; the available EPP policies according to sysfs (EPP.py:52-64; they do
      not change, so they are a constant; none if they cannot be read). *)
  Variable env : menv.
  Variable kind : epkind.
  Variable kn : kern.
  Variable x : hwp.
  Variable epb : res freg.
  Variable epp_names : list str.
  Notation ci := (me_ci env).

  (** EPP.py:22, EPB.py:27 *)
  Definition ep_max : Z := match kind with EPP => 255 | EPB => 15 end.
  Definition ep_names : list str := match kind with EPP => epp_names | EPB => epb_names end.

  (** EPP.py:66-84 and EPB.py:46-60 _validate_value(); str(val) is given. Hexadecimal text is an integer for
      is_int(), but not for int(). *)
  Definition ep_validate (val : str) (policy_ok : bool) : res unit :=
    if is_int val then
      match py_int val with
      | None => Exn EValue
      | Some n => if (n <? 0) || (ep_max <? n) then Exn EError else Ok tt
      end
    else if negb policy_ok then Exn ENotSupported
    else if existsb (str_eqb val) ep_names then Ok tt
    else Exn ENotSupported.

  (** ** The cache (_PropsCache.py) *)
  Definition ep_cached (c : Z) : M epstate (option (option epval)) :=
    gets (fun s => if me_cache env then dget Z.eqb (es_cache s) c else None).
  Definition ep_cache_add (c : Z) (v : option epval) : M epstate unit :=
    if me_cache env then
      lift (get_cpu_siblings ci c SCPU) ;; modify (fun s => es_set_cache (dset Z.eqb (es_cache s) c v) s)
    else ret tt.
  Definition ep_cache_remove (c : Z) : M epstate unit :=
    if me_cache env then
      lift (get_cpu_siblings ci c SCPU) ;; modify (fun s => es_set_cache (ddel Z.eqb (es_cache s) c) s)
    else ret tt.

  (** ** sysfs *)

  (** The value that the text in the file stands for: EPP.py:122, EPB.py:88 *)
  Definition ep_parse (t : str) : res epval :=
    match kind with
    | EPP => Ok (EText (strip t))
    | EPB => match py_int (strip t) with Some n => Ok (ENum n) | None => Exn EValue end
    end.

  (** Reading the file, which exists *)
  Definition ep_show (c : Z) : M epstate str :=
    let! h := gets (fun s => ms_hw (es_m s)) in
    match kn_show kn h c with Some t => ret t | None => throw EError end.

  (** EPP.py:114-126 and EPB.py:80-92 _read_from_sysfs() *)
  Definition ep_read_sysfs (c : Z) : M epstate (option epval) :=
    let! o := ep_cached c in
    match o with
    | Some v => ret v
    | None =>
        let! v := (if kn_exists kn c then
                     let! t := ep_show c in
                     let! v := lift (ep_parse t) in ret (Some v)
                   else ret None) in
        ep_cache_add c v ;; ret v
    end.

  (** Storing new register values: the kernel does it behind the back of the MSR object. *)
  Definition ep_kernel (h : Z -> Z -> Z) : M epstate unit := modify (fun s => es_set_m (set_hw h (es_m s)) s).

  (** EPP.py:128-165 _write_to_sysfs() *)
  Definition epp_write_sysfs (val : str) (c : Z) : M epstate unit :=
    ep_cache_remove c ;;
    (if negb (kn_exists kn c) then throw ENotSupported
     else
       let! h := gets (fun s => ms_hw (es_m s)) in
       let! val1 :=
         (match kn_store kn h c val with
          | None =>
              let! t := ep_show c in
              if negb (str_eqb val (strip t)) then throw EError
              else modify (fun s => es_set_alias (dset str_eqb (es_alias s) val (strip t)) s) ;; ret (strip t)
          | Some h' =>
              ep_kernel h' ;;
              let! o := gets (fun s => dget str_eqb (es_alias s) val) in
              match o with
              | Some v1 => ret v1
              | None =>
                  let! t := ep_show c in
                  modify (fun s => es_set_alias (dset str_eqb (es_alias s) val (strip t)) s) ;; ret (strip t)
              end
          end) in
       ep_cache_add c (Some (EText val1))).

  (** EPB.py:94-115 _write_to_sysfs(); a policy with the value 0 is looked up again (line 110) *)
  Definition epb_write_sysfs (val : str) (c : Z) : M epstate unit :=
    ep_cache_remove c ;;
    (if negb (kn_exists kn c) then throw ENotSupported
     else
       let! h := gets (fun s => ms_hw (es_m s)) in
       match kn_store kn h c val with
       | None => throw EError
       | Some h' => ep_kernel h'
       end) ;;
    (if negb (is_int val) then
       let! o := gets (fun s => dget str_eqb (es_pol s) val) in
       let! n := (match o with
                  | None | Some 0 =>
                      let! v := ep_read_sysfs c in
                      match v with
                      | Some (ENum n) => modify (fun s => es_set_pol (dset str_eqb (es_pol s) val n) s) ;; ret n
                      | _ => throw EValue
                      end
                  | Some n => ret n
                  end) in
       ep_cache_add c (Some (ENum n))
     else match py_int val with
          | Some n => ep_cache_add c (Some (ENum n))
          | None => throw EValue
          end).

  Definition ep_write_sysfs (val : str) (c : Z) : M epstate unit :=
    match kind with EPP => epp_write_sysfs val c | EPB => epb_write_sysfs val c end.

  (** ** MSR *)

  (** EPB.py:62-68 _read_from_msr() *)
  Definition epb_read_msr (c : Z) : M mstate (option Z) :=
    fun s => match (let! fr := lift epb in read_num env fr (s2l "epb"%string) c) s with
             | (Ok n, s1) => (Ok (Some n), s1)
             | (Exn ENotSupported, s1) => (Ok None, s1)
             | (Exn e, s1) => (Exn e, s1)
             end.

  (** EPB.py:70-78 _write_to_msr(), with a text of decimal digits *)
  Definition epb_write_msr (n c : Z) : M mstate unit :=
    let! fr := lift epb in
    write_feature env fr (s2l "epb"%string) (VInt n) (Some [c]).

  Definition ep_read_msr (c : Z) : M epstate (option epval) :=
    let! o := on_msr (match kind with EPP => epp_read_msr env x c | EPB => epb_read_msr c end) in
    ret (option_map ENum o).

  (** The text was validated before; it is converted by MSR.set_bits(). *)
  Definition ep_write_msr (val : str) (c : Z) : M epstate unit :=
    match py_int val with
    | None => throw EValue
    | Some n => on_msr (match kind with EPP => epp_write_msr env x n c | EPB => epb_write_msr n c end)
    end.

  (** ** Both mechanisms *)

  (** _EPBase.py:42-54 _normalize_mnames() *)
  Definition ep_normalize_mnames (mnames : option (list str)) : res (list str) :=
    match mnames with
    | None => Ok ep_mnames
    | Some l =>
        if forallb (fun m => existsb (str_eqb m) ep_mnames) l then Ok (list_dedup str_eqb l) else Exn EError
    end.

  Definition ep_read (m : str) (c : Z) : M epstate (option epval) :=
    if str_eqb m m_sysfs then ep_read_sysfs c else ep_read_msr c.
  Definition ep_write (m : str) (val : str) (c : Z) : M epstate unit :=
    if str_eqb m m_sysfs then ep_write_sysfs val c else ep_write_msr val c.

  (** _EPBase.py:121-125: the values up to the first CPU without a value. The flag tells whether there was one. *)
  Fixpoint ep_get_cpus (m : str) (cpus : list Z) : M epstate (list (Z * epval * str) * bool) :=
    match cpus with
    | [] => ret ([], false)
    | c :: t =>
        let! o := ep_read m c in
        match o with
        | None => ret ([], true)
        | Some v => let! (l, b) := ep_get_cpus m t in ret ((c, v, m) :: l, b)
        end
    end.

  (** _EPBase.py:115-133: the loop over the mechanisms. All what the generator yields. *)
  Fixpoint ep_get_loop (mnames : list str) (cpus : list Z) : M epstate (list (Z * epval * str)) :=
    match mnames with
    | [] => throw ENotSupported
    | m :: t =>
        let! (l, none) := ep_get_cpus m cpus in
        match cpus with
        | [] => throw EUnbound
        | _ => if none : bool then let! l2 := ep_get_loop t cpus in ret (l ++ l2) else ret l
        end
    end.

  (** _EPBase.py:109-133 _get_epp_or_epb(), 176-187 get_vals(). Simplification: what is yielded before an exception
      is lost. *)
  Definition ep_get_vals (cpus : nums_t) (mnames : option (list str)) : M epstate (list (Z * epval * str)) :=
    let! ms := lift (ep_normalize_mnames mnames) in
    let! l := lift (normalize_cpus ci cpus false) in
    ep_get_loop ms l.

  (** _EPBase.py:163-164: the loop over the CPUs, which also gives the last value of the variable 'cpu' *)
  Fixpoint ep_set_cpus (m val : str) (cpus : list Z) (cur : Z) (s : epstate) : res unit * Z * epstate :=
    match cpus with
    | [] => (Ok tt, cur, s)
    | c :: t =>
        match ep_write m val c s with
        | (Ok _, s1) => ep_set_cpus m val t c s1
        | (Exn e, s1) => (Exn e, c, s1)
        end
    end.

  (** _EPBase.py:152-174: the loop over the mechanisms *)
  Fixpoint ep_set_loop (mnames : list str) (val : str) (cpus : list Z) (s : epstate) : res str * epstate :=
    match mnames with
    | [] => (Exn ENotSupported, s)
    | m :: t =>
        let '(r, cur, s1) :=
          match ep_validate val (str_eqb m m_sysfs) with
          | Exn e => (Exn e, 0, s)
          | Ok _ => ep_set_cpus m val cpus 0 s
          end in
        match r with
        | Ok _ => (Ok m, s1)
        | Exn ENotSupported =>
            match cpus with
            | [] => (Exn EIndex, s1)
            | c0 :: _ => if cur =? c0 then ep_set_loop t val cpus s1 else (Exn ENotSupported, s1)
            end
        | Exn e => (Exn e, s1)
        end
    end.

  (** _EPBase.py:135-174 _set_epb_or_epb(), 202-218 set_vals(). The value that is returned is the mechanism. *)
  Definition ep_set_vals (val : str) (cpus : nums_t) (mnames : option (list str)) : M epstate str :=
    let! ms := lift (ep_normalize_mnames mnames) in
    let! l := lift (normalize_cpus ci cpus false) in
    ep_set_loop ms val l.

  (** ** Histories of calls: reading and setting, and other calls of the MSR object; the caller goes on after
      exceptions *)
  Inductive eop :=
  | EGet (cpus : nums_t) (mnames : option (list str))
  | ESet (val : str) (cpus : nums_t) (mnames : option (list str))
  | EMsr (o : mop).

  Definition estep (s : epstate) (o : eop) : epstate :=
    match o with
    | EGet cpus mnames => snd (ep_get_vals cpus mnames s)
    | ESet val cpus mnames => snd (ep_set_vals val cpus mnames s)
    | EMsr o => snd (on_msr (mstep env o) s)
    end.
  Definition erun (ops : list eop) (s : epstate) : epstate := fold_left estep ops s.
End EP.
