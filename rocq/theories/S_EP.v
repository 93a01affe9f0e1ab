(** Specification of EPP and EPB. *)
From Coq Require Import Ascii String.
From Verif Require Import Base M_CPUInfo S_CPUInfo M_Text M_Human M_MSR S_MSR M_FMSR S_FMSR M_HWP S_HWP M_EP.
From Verif Require S_Human.

(** Where the hardware keeps the value: bits 31:24 of the CPU's HWP request, bits 3:0 of register 0x1b0 (432). *)
Definition ep_addr (kind : epkind) : Z := match kind with EPP => REQ | EPB => 432 end.
Definition ep_bits (kind : epkind) : bits_t := match kind with EPP => (31, 24) | EPB => (3, 0) end.

(** The number in the register of CPU [c] when the registers are [h]. *)
Definition ep_value (env : menv) (kind : epkind) (h : Z -> Z -> Z) (c n : Z) : Prop :=
  is_field (ep_bits kind) (h (ep_addr kind) (me_dom env (ep_addr kind) c)) n.

(** Registers [h'] are [h] with the value of CPU [c] set to [n]. *)
Definition ep_only (env : menv) (kind : epkind) (c n : Z) (h h' : Z -> Z -> Z) : Prop :=
  is_set (ep_bits kind) n (h (ep_addr kind) (me_dom env (ep_addr kind) c)) (h' (ep_addr kind) (me_dom env (ep_addr kind) c)) /\
  forall a d, a <> ep_addr kind \/ d <> me_dom env (ep_addr kind) c -> h' a d = h a d.

(** The kernel: the file of a CPU shows its value, [shown n] for [n]. Writing text [v] sets the value [knows c v] of
    this CPU and nothing else. Decimal numbers are known for what they are, and so is what the file shows. CPUs that
    share a register know the same texts. EPB shows numbers. *)
Record kernel_ok (env : menv) (kind : epkind) (kn : kern) (shown : Z -> str) (knows : Z -> str -> Z) : Prop := {
  ko_show : forall h c t, kn_show kn h c = Some t -> exists n, ep_value env kind h c n /\ strip t = shown n;
  ko_store : forall h c v h', kn_store kn h c v = Some h' ->
    fits (ep_bits kind) (knows c v) /\ ep_only env kind c (knows c v) h h';
  ko_num : forall c n, 0 <= n -> knows c (dec n) = n;
  ko_shown : forall c n, 0 <= n -> knows c (shown n) = n;
  ko_shared : forall c c' v, me_dom env (ep_addr kind) c = me_dom env (ep_addr kind) c' -> knows c v = knows c' v;
  ko_epb : kind = EPB -> forall n, 0 <= n -> shown n = dec n }.

(** The registers of the code. *)
Record ep_ok (env : menv) (sc : Z -> scope) (x : hwp) (epb : res freg) : Prop := {
  eo_hwp : hwp_ok env sc x;
  eo_epb : forall fr, epb = Ok fr -> fr_addr fr = 432 /\ fr_feats fr = epb_feats (Some (sc 432)) }.

(** What reading gives for value [n]. *)
Definition reading (kind : epkind) (shown : Z -> str) (m : str) (n : Z) : epval :=
  match kind with
  | EPP => if str_eqb m (s2l "sysfs"%string) then EText (shown n) else ENum n
  | EPB => ENum n
  end.

(** The call sets through the mechanism [m] only. *)
Definition only_through (m : str) (o : eop) : Prop :=
  match o with ESet _ _ (Some l) => forall m', In m' l -> m' = m | ESet _ _ None => False | _ => True end.

(** MSR calls have the right scopes, there are no transactions. *)
Definition ep_disciplined (sc : Z -> scope) (ops : list eop) : Prop :=
  forall o, In (EMsr o) ops -> op_scoped sc o /\ o <> OStart.

(** A call that may write the register that holds the value of CPU [c]. *)
Definition ep_touches (env : menv) (kind : epkind) (c : Z) (o : eop) : Prop :=
  match o with
  | EGet _ _ => False
  | ESet _ cpus _ => targeted env (ep_addr kind) cpus (me_dom env (ep_addr kind) c)
  | EMsr o => op_touches env o (ep_addr kind) (me_dom env (ep_addr kind) c)
  end.

(** The value of CPU [c] is not left to its package, which only EPP can be. *)
Definition own_value (env : menv) (kind : epkind) (x : hwp) (h : Z -> Z -> Z) (c : Z) : Prop :=
  kind = EPP -> pkg_decides env x h HEpp c = false.

(** Histories in which the MSR object, if it has a cache, is the only one to write the registers. *)
Definition ep_history (env : menv) (sc : Z -> scope) (ops : list eop) : Prop :=
  ep_disciplined sc ops /\ (me_cache env = false \/ forall o, In o ops -> only_through (s2l "msr"%string) o).

(** The text [val], when set through [m], stands for the number [n]: it is the number, or a name that the kernel knows. *)
Definition stands_for (knows : Z -> str -> Z) (val m : str) (c n : Z) : Prop :=
  (0 <= n /\ val = dec n) \/ (m = s2l "sysfs"%string /\ n = knows c val).

(** Histories in which the registers are written through the sysfs files of the CPUs only. Every CPU has its own
    register, all CPUs know the same names, and numbers are written as plain decimals. *)
Definition ep_sysfs_history (env : menv) (kind : epkind) (knows : Z -> str -> Z) (ops : list eop) : Prop :=
  (forall c c', In c (ci_online (me_ci env)) -> In c' (ci_online (me_ci env)) ->
     me_dom env (ep_addr kind) c = me_dom env (ep_addr kind) c' -> c = c') /\
  (forall c c' v, In c (ci_online (me_ci env)) -> In c' (ci_online (me_ci env)) -> knows c v = knows c' v) /\
  forall o, In o ops -> only_through (s2l "sysfs"%string) o /\
    match o with
    | EMsr (ORead _ _ _) | EGet _ _ => True
    | EMsr _ => False
    | ESet val _ _ => is_int val = true -> exists n, 0 <= n /\ val = dec n
    end.

(** Values that may be set: numbers in the range of the field, and the names that are known. *)
Definition ep_acceptable (kind : epkind) (names : list str) (val : str) : Prop :=
  (exists n, fits (ep_bits kind) n /\ val = dec n) \/
  (is_int val = false /\
   In val (match kind with
           | EPP => names
           | EPB => map s2l ["performance"; "balance-performance"; "normal"; "balance-power"; "power"]%string
           end)).

(** Values that make no sense: integers, in any spelling, outside the range of the field, and unknown names. *)
Definition ep_impossible (kind : epkind) (names : list str) (val : str) : Prop :=
  (exists n, S_Human.integer_text val n /\ ~ fits (ep_bits kind) n) \/
  (is_int val = false /\
   ~ In val (match kind with
             | EPP => names
             | EPB => map s2l ["performance"; "balance-performance"; "normal"; "balance-power"; "power"]%string
             end)).

(** The sysfs file of the CPU is there and works, and takes the value. *)
Definition ep_file_works (kn : kern) (c : Z) : Prop := kn_exists kn c = true /\ forall h, kn_show kn h c <> None.
Definition ep_file_takes (kn : kern) (val : str) (c : Z) : Prop := forall h, kn_store kn h c val <> None.

(** One mechanism. *)
Definition by_sysfs : option (list str) := Some [s2l "sysfs"%string].
Definition by_msr : option (list str) := Some [s2l "msr"%string].

(** A system as it should be. *)
Definition ep_system (env : menv) (sc : Z -> scope) (kind : epkind) (x : hwp) (epb : res freg) (kn : kern)
  (shown : Z -> str) (knows : Z -> str -> Z) : Prop :=
  wf_ci (me_ci env) /\ (forall a, scope_right env a (sc a)) /\ faithful env /\ ep_ok env sc x epb /\
  kernel_ok env kind kn shown knows.

(** Mechanisms of which sysfs is the first. *)
Definition sysfs_first (mnames : option (list str)) : Prop :=
  mnames = None \/ exists t, mnames = Some (s2l "sysfs"%string :: t) /\ forall m, In m t -> m = s2l "sysfs"%string \/ m = s2l "msr"%string.
