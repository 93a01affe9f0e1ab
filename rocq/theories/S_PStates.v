(** Specification of setting frequencies: what the settings are, which requests are acceptable, and what a
    mechanism is relied on for. *)
From Coq Require Import QArith.
From Verif Require Import Base M_Text M_Human M_Sysfs S_Sysfs S_SysView M_CPUFreq M_Uncore S_Uncore M_PStates.

(** The frequencies of a key (a CPU or a die): its limits, its current minimum (true) and maximum (false)
    frequency, and what the special values stand for. *)
Record fview (W K : Type) := FV {
  v_limit : W -> bool -> K -> res Z;
  v_cur : W -> bool -> K -> res Z;
  v_special : W -> special -> K -> res Z }.
Arguments FV {W K}.
Arguments v_limit {W K} _ _ _ _.
Arguments v_cur {W K} _ _ _ _.
Arguments v_special {W K} _ _ _ _.

Section Spec.
  Context {W K : Type}.
  Variable v : fview W K.

  (** What 'val' means for key 'key', if the request is for 'keys': "eff" means "min" if the first key has no
      most efficient frequency. *)
  Definition means (w : W) (val : fval) (keys : list K) (key : K) : res Z :=
    match val with
    | VNum f => Ok f
    | VMin => v_limit v w true key
    | VMax => v_limit v w false key
    | VSpecial SEff =>
        match keys with
        | k0 :: _ => match v_special v w SEff k0 with
                     | Exn ENotSupported => v_limit v w true key
                     | _ => v_special v w SEff key
                     end
        | [] => v_special v w SEff key
        end
    | VSpecial sp => v_special v w sp key
    end.

  (** Setting the minimum (maximum) of the key to 'f' is within limits. *)
  Definition in_limits (w : W) (key : K) (f : Z) : Prop :=
    exists lo hi, v_limit v w true key = Ok lo /\ v_limit v w false key = Ok hi /\ lo <= f <= hi.

  (** It does not cross the current maximum (minimum). *)
  Definition in_order (w : W) (is_min : bool) (key : K) (f : Z) : Prop :=
    exists cur, v_cur v w (negb is_min) key = Ok cur /\ if is_min then f <= cur else cur <= f.

  (** The request is acceptable: for every key. *)
  Definition acceptable (w : W) (is_min : bool) (val : fval) (keys : list K) : Prop :=
    forall key, In key keys -> exists f, means w val keys key = Ok f /\ in_limits w key f /\ in_order w is_min key f.

  (** All that the request depends on can be read. *)
  Definition readable (w : W) (is_min : bool) (val : fval) (keys : list K) : Prop :=
    forall key, In key keys -> (exists f, means w val keys key = Ok f) /\
      (exists lo, v_limit v w true key = Ok lo) /\ (exists hi, v_limit v w false key = Ok hi) /\
      exists cur, v_cur v w (negb is_min) key = Ok cur.

  (** Minimum and maximum in order, and within the limits. *)
  Definition ordered (w : W) (key : K) : Prop :=
    exists mn mx, v_cur v w true key = Ok mn /\ v_cur v w false key = Ok mx /\ mn <= mx.
  Definition limited (w : W) (key : K) : Prop :=
    exists lo hi mn mx, v_limit v w true key = Ok lo /\ v_limit v w false key = Ok hi /\
      v_cur v w true key = Ok mn /\ v_cur v w false key = Ok mx /\ lo <= mn /\ mn <= mx /\ mx <= hi.

  (** The keys of [keys] have [rnd key f] as the minimum (maximum), where 'f' is what 'val' meant before, and
      everything else is as it was, for all the keys that exist. *)
  Definition exactly_set (dom : K -> Prop) (rnd : K -> Z -> Z) (is_min : bool) (val : fval) (keys : list K)
    (w w' : W) : Prop :=
    (forall key, In key keys -> exists f, means w val keys key = Ok f /\ v_cur v w' is_min key = Ok (rnd key f)) /\
    (forall b key, dom key -> ~ (b = is_min /\ In key keys) -> v_cur v w' b key = v_cur v w b key) /\
    (forall b key, dom key -> v_limit v w' b key = v_limit v w b key).

  (** ** What a mechanism is relied on for

      [quiet w w']: nothing changed between the two states, as far as can be seen. [good w]: the states that
      occur. [dom key]: the key exists. [rnd key f]: the frequency in effect after 'f' was set. [live w is_min f
      key]: setting it is not refused. *)
  Record relied (io : freq_io W K) (quiet : W -> W -> Prop) (good : W -> Prop) (dom : K -> Prop)
    (rnd : K -> Z -> Z) (live : W -> bool -> Z -> K -> Prop) : Prop := Relied {
    r_refl : forall w, quiet w w;
    r_trans : forall a b c, quiet a b -> quiet b c -> quiet a c;
    r_views : forall w w', quiet w w' -> forall b key sp,
      v_limit v w' b key = v_limit v w b key /\ v_cur v w' b key = v_cur v w b key /\
      v_special v w' sp key = v_special v w sp key;
    r_live : forall w w', quiet w w' -> forall b f key, live w b f key -> live w' b f key;
    (* reading gives what is there, and changes nothing *)
    r_limit : forall w b key, good w -> dom key ->
      exists w', f_limit io b key w = (v_limit v w b key, w') /\ quiet w w' /\ good w';
    r_cur : forall w b key, good w -> dom key ->
      exists w', f_cur io b key w = (v_cur v w b key, w') /\ quiet w w' /\ good w';
    r_special : forall w sp key, good w -> dom key ->
      exists w', f_special io sp key w = (v_special v w sp key, w') /\ quiet w w' /\ good w';
    (* setting that succeeds *)
    r_set : forall w w' b f keys, good w -> Forall dom keys -> f_set io b f keys w = (Ok tt, w') ->
      good w' /\
      (forall key, In key keys -> v_cur v w' b key = Ok (rnd key f)) /\
      (forall b' key, dom key -> ~ (b' = b /\ In key keys) -> v_cur v w' b' key = v_cur v w b' key) /\
      (forall b' key, dom key -> v_limit v w' b' key = v_limit v w b' key) /\
      (forall sp key, dom key -> v_special v w' sp key = v_special v w sp key) /\
      (forall b' f' key, dom key -> live w b' f' key -> live w' b' f' key);
    r_accept : forall w b f keys, good w -> Forall dom keys -> keys <> [] -> (forall key, In key keys -> live w b f key) ->
      exists w', f_set io b f keys w = (Ok tt, w') }.

  (** Setting that fails leaves the frequencies of a key as they were or as requested. *)
  Definition fails_cleanly (io : freq_io W K) (good : W -> Prop) (dom : K -> Prop) (rnd : K -> Z -> Z) : Prop :=
    forall w w' b f keys x, good w -> Forall dom keys -> (forall key, dom key -> ordered w key) ->
      f_set io b f keys w = (Exn x, w') ->
      good w' /\
      (forall b' key, dom key -> v_cur v w' b' key = v_cur v w b' key \/
         (b' = b /\ In key keys /\ v_cur v w' b' key = Ok (rnd key f))) /\
      (forall b' key, dom key -> v_limit v w' b' key = v_limit v w b' key).

  (** Rounding keeps the order, and keeps the values that can be read. *)
  Definition rounds (good : W -> Prop) (dom : K -> Prop) (rnd : K -> Z -> Z) : Prop :=
    (forall key x y, dom key -> x <= y -> rnd key x <= rnd key y) /\
    (forall w b key x, good w -> dom key -> v_cur v w b key = Ok x -> rnd key x = x).
  Definition rounds_limits (good : W -> Prop) (dom : K -> Prop) (rnd : K -> Z -> Z) : Prop :=
    forall w b key x, good w -> dom key -> v_limit v w b key = Ok x -> rnd key x = x.
End Spec.

(** ** Histories: any sequence of attempts, the caller goes on after exceptions *)
Fixpoint freq_history {W K} (io : freq_io W K) (ops : list (bool * fval * list K)) (w : W) : W :=
  match ops with
  | [] => w
  | (b, val, keys) :: rest => freq_history io rest (snd (set_freq io b val keys w))
  end.

(** ** CPU frequencies in sysfs *)

(** The frequency in a file, in Hz. *)
Definition file_freq (k : senv) (w : sstate) (p : str) : res Z :=
  match seen_int k w p with Ok n => Ok (n * 1000) | Exn x => Exn x end.

Definition cpu_view (k : senv) (spec : sstate -> special -> Z -> res Z) : fview sstate Z :=
  FV (fun w b cpu => file_freq k w (cpufreq_path b cpu true))
     (fun w b cpu => file_freq k w (cpufreq_path b cpu false))
     spec.

(** The files that are written. *)
Definition scaling_file (p : str) : Prop := exists b cpu, 0 <= cpu /\ p = cpufreq_path b cpu false.

(** The special values are read somewhere else. *)
Definition special_ok (k : senv) (rd : special -> Z -> M sstate Z) (spec : sstate -> special -> Z -> res Z) : Prop :=
  (forall w sp cpu, exists w', rd sp cpu w = (spec w sp cpu, w') /\
     (forall p, seen k w' p = seen k w p) /\ ss_fs w' = ss_fs w /\ ss_buf w' = ss_buf w /\
     ss_intr w' = ss_intr w /\ ss_log w' = ss_log w) /\
  (forall w w', (forall p, ~ scaling_file p -> seen k w' p = seen k w p) ->
     forall sp cpu, spec w' sp cpu = spec w sp cpu).

(** Nothing changed that can be seen: no file, nothing to be written, no write. *)
Definition no_change (k : senv) (w w' : sstate) : Prop :=
  (forall p, seen k w' p = seen k w p) /\ ss_fs w' = ss_fs w /\ ss_buf w' = ss_buf w /\
  ss_intr w' = ss_intr w /\ ss_log w' = ss_log w.

(** Frequencies are in kHz in the files. *)
Definition khz (cpu f : Z) : Z := f / 1000 * 1000.

(** A pending write of a frequency: a number, with the retries and the pause of the verification. *)
Definition write_kind (hwp : Z -> bool) (is_min : bool) (cpu : Z) (ti : stinfo) : Prop :=
  exists n, ti = STI (dec n) (Some (cpufreq_what is_min)) true (if hwp cpu then 2 else 0) (if hwp cpu then 1 else 0).

(** The states of the sysfs object that occur: in a transaction ([tr]) or not. Files without pending writes
    are read as they are, the others are read as they will be written. *)
Definition files_ok (k : senv) (hwp : Z -> bool) (tr : bool) (w : sstate) : Prop :=
  ss_intr w = tr /\
  (tr = true -> se_cache k = true /\ NoDup (map fst (ss_buf w)) /\
     forall p ti, In (p, ti) (ss_buf w) -> exists b cpu, 0 <= cpu /\ p = cpufreq_path b cpu false /\
       write_kind hwp b cpu ti /\ seen k w p = Ok (st_val ti)) /\
  (forall p, scaling_file p -> tr = false \/ ~ In p (map fst (ss_buf w)) -> seen k w p = on_disk k w p).

(** The kernel takes the frequency. *)
Definition freq_taken (k : senv) (w : sstate) (is_min : bool) (f cpu : Z) : Prop :=
  takes k w (cpufreq_path is_min cpu false) (dec (f / 1000)).

(** A kernel that stores what is written or refuses it. *)
Definition honest (k : senv) : Prop := forall p, scaling_file p ->
  k_unreadable k p = false /\ (forall old val c, k_write k p old val = Some c -> strip c = val) /\
  (forall c, k_settle k p c = c).

(** ** Setting both frequencies, restoring *)
Section Both.
  Context {W K : Type}.
  Variable v : fview W K.

  (** 'f' can be set exactly. *)
  Definition exact (rnd : K -> Z -> Z) (keys : list K) (f : Z) : Prop := forall key, In key keys -> rnd key f = f.

  (** The keys have the minimum and the maximum, the others are as they were, and so are the limits. *)
  Definition both_set (dom : K -> Prop) (keys : list K) (mn mx : Z) (w w' : W) : Prop :=
    (forall key, In key keys -> v_cur v w' true key = Ok mn /\ v_cur v w' false key = Ok mx) /\
    (forall b key, dom key -> ~ In key keys -> v_cur v w' b key = v_cur v w b key) /\
    (forall b key, dom key -> v_limit v w' b key = v_limit v w b key).

  (** Saved frequencies: [sav true key] is the minimum and [sav false key] is the maximum. The groups of keys
      with the same value, as they are in the file. *)
  Definition groups_of (sav : bool -> K -> Z) (is_min : bool) (keys : list K) (groups : list (fval * list K)) : Prop :=
    (forall val nums, In (val, nums) groups -> exists f, val = VNum f /\ forall key, In key nums -> In key keys /\ f = sav is_min key) /\
    (forall key, In key keys -> exists val nums, In (val, nums) groups /\ In key nums).

  (** The saved values are good for the keys: within the limits, in order, and can be set. *)
  Definition saved_ok (rnd : K -> Z -> Z) (live : W -> bool -> Z -> K -> Prop) (sav : bool -> K -> Z) (keys : list K) (w : W) : Prop :=
    forall key, In key keys ->
      (forall b, in_limits v w key (sav b key) /\ rnd key (sav b key) = sav b key /\ live w b (sav b key) key) /\
      sav true key <= sav false key /\
      (forall b f, v_limit v w b key = Ok f -> live w b f key).
End Both.

(** The frequency properties are set with the mechanisms, and the first of them can be relied on. *)
Definition set_with {W K} (mechs : list (Z * freq_io W K)) (keys : list K) (u : bool) (setp : pname -> fval -> M W Z) : Prop :=
  forall b val, setp (PFreq u b) val = set_freq_mechs mechs b val keys.

Definition restored_with {W K} (mechs : list (Z * freq_io W K)) (u : bool) (setn : pname -> fval -> list K -> M W unit) : Prop :=
  forall b val keys w, setn (PFreq u b) val keys w =
    match set_freq_mechs mechs b val keys w with (Ok _, w') => (Ok tt, w') | (Exn e, w') => (Exn e, w') end.

(** Restoring property 'pn' works and has nothing to do with these frequencies. *)
Definition unrelated {W K} (v : fview W K) (good : W -> Prop) (dom : K -> Prop) (live : W -> bool -> Z -> K -> Prop)
  (setn : pname -> fval -> list K -> M W unit) (pn : pname) : Prop :=
  forall w val nums, good w -> exists w', setn pn val nums w = (Ok tt, w') /\ good w' /\
    forall b key, dom key -> v_cur v w' b key = v_cur v w b key /\ v_limit v w' b key = v_limit v w b key /\
      forall f, live w b f key -> live w' b f key.

(** ** Uncore frequencies *)
Section UncoreSpec.
  Context {W : Type}.
  Variable io : uio W.
  Variable view : W -> str -> res Z.
  Variable fresh : W -> str -> Prop.
  Variable e : uenv.
  (** The directory of a die. *)
  Variable dirof : Z * Z -> str.

  Definition has_dir (pd : Z * Z) : Prop := shows e (dirof pd) (fst pd) (snd pd).

  Definition die_freq (limit : bool) (s : ust W) (is_min : bool) (pd : Z * Z) : res Z :=
    match view (us_w s) (uncore_path (dirof pd) (ukey_of is_min) limit) with Ok n => Ok (n * 1000) | Exn x => Exn x end.

  (** "mdl": the middle of the limits, rounded to 100 MHz. *)
  Definition uncore_view : fview (ust W) (Z * Z) :=
    FV (die_freq true) (die_freq false)
       (fun s sp pd => match sp with
          | SMdl => match die_freq true s true pd, die_freq true s false pd with
                    | Ok lo, Ok hi => Ok (100000000 * qround ((inject_Z lo + inject_Z hi) / inject_Z 2 / inject_Z 100000000)%Q)
                    | Exn x, _ => Exn x
                    | _, Exn x => Exn x
                    end
          | _ => Exn EError
          end).

  Definition uncore_same (s s' : ust W) : Prop :=
    (forall f, view (us_w s') f = view (us_w s) f) /\ us_unlocked s' = us_unlocked s.

  (** Unlocking will not fail: it was done, or is not necessary, or the files can be read and written. *)
  Definition unlockable (J : W -> Prop) (s : ust W) : Prop :=
    use_new_api e = true -> us_unlocked s = false -> J (us_w s).

  Definition die_taken (J : W -> Prop) (s : ust W) (_ : bool) (_ : Z) (_ : Z * Z) : Prop := J (us_w s).

  Definition die_khz (pd : Z * Z) (f : Z) : Z := f / 1000 * 1000.

  (** A write that fails changes nothing. *)
  Definition unchanged_on_failure : Prop := forall p v w w' x, u_wr io p v w = (Exn x, w') ->
    forall q, view w' q = view w q /\ (fresh w q -> fresh w' q).
End UncoreSpec.

(** A request to set both frequencies of the CPUs: a pair that is valid for them. *)
Definition cpu_pair (k : senv) (hwp : Z -> bool) (spec : sstate -> special -> Z -> res Z) (cpus : list Z) (mn mx : Z) (w : sstate) : Prop :=
  se_cache k = true /\ mn <= mx /\ (mn / 1000 * 1000 = mn /\ mx / 1000 * 1000 = mx) /\
  Forall (fun c => 0 <= c) cpus /\ files_ok k hwp false w /\ ss_buf w = [] /\
  (forall c, In c cpus -> limited (cpu_view k spec) w c /\ in_limits (cpu_view k spec) w c mn /\ in_limits (cpu_view k spec) w c mx) /\
  (forall c, In c cpus -> freq_taken k w true mn c /\ freq_taken k w false mx c).

(** The same for dies. *)
Definition die_pair {W} view fresh e dirof (J : W -> Prop) (dies : list (Z * Z)) (mn mx : Z) (s : ust W) : Prop :=
  mn <= mx /\ (mn / 1000 * 1000 = mn /\ mx / 1000 * 1000 = mx) /\
  Forall (has_dir e dirof) dies /\ start_ok fresh e s /\
  (forall c, In c dies -> limited (uncore_view view dirof) s c /\ in_limits (uncore_view view dirof) s c mn /\
     in_limits (uncore_view view dirof) s c mx) /\ J (us_w s).

(** The driver and the kernel. *)
Definition uncore_ok {W} (io : uio W) (view : W -> str -> res Z) (fresh : W -> str -> Prop) (e : uenv) : Prop :=
  well_shown e /\ behaves io view fresh (tpmi_related e).
