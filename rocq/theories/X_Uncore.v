(** Concrete cases for uncore frequency access. *)
From Verif Require Import Base L_Base M_Text M_Kver M_Sysfs S_Sysfs S_SysView M_Uncore S_Uncore L_Text L_Uncore.

(** Two dies, shown by the new interface, and the package directory of the legacy interface. *)
Definition xe : uenv :=
  UE [s2l "package_00_die_00"; s2l "uncore00"; s2l "uncore01"]
     (fun _ => Ok (s2l "0"))
     (fun dir => if str_eqb dir (s2l "uncore00") then Ok (s2l "0") else Ok (s2l "1")).

(** Four dies in two packages, shown by the legacy interface. *)
Definition xl : uenv :=
  UE [s2l "package_00_die_00"; s2l "package_00_die_01"; s2l "package_12_die_00"; s2l "package_12_die_105"]
     (fun _ => Exn ENotFound) (fun _ => Exn ENotFound).

Lemma xe_shows dir p d : shows xe dir p d <->
  (dir = s2l "uncore00" /\ p = 0 /\ d = 0) \/ (dir = s2l "uncore01" /\ p = 0 /\ d = 1).
Proof.
  unfold shows. change (use_new_api xe) with true. cbv iota. split.
  - intros (Hi & Hn & a & b & E1 & E2 & E3 & E4). destruct Hi as [<-|[<-|[<-|[]]]].
    + discriminate Hn.
    + left. injection E1 as <-. cbn in E3. injection E3 as <-. cbn in E2, E4. injection E2 as <-. injection E4 as <-. auto.
    + right. injection E1 as <-. cbn in E3. injection E3 as <-. cbn in E2, E4. injection E2 as <-. injection E4 as <-. auto.
  - intros [(-> & -> & ->)|(-> & -> & ->)].
    + split; [cbn; auto|]. split; [reflexivity|]. exists (s2l "0"), (s2l "0"). repeat split.
    + split; [cbn; auto|]. split; [reflexivity|]. exists (s2l "0"), (s2l "1"). repeat split.
Qed.

Lemma xe_ok : well_shown xe.
Proof.
  split; [|split; [|split]].
  - repeat (constructor; [cbn; intuition discriminate|]). constructor.
  - change (use_new_api xe) with true. cbv iota. intros dir Hi Hn. destruct Hi as [<-|[<-|[<-|[]]]].
    + discriminate Hn.
    + exists 0, 0. apply xe_shows. auto.
    + exists 0, 1. apply xe_shows. auto.
  - intros dir p d H. apply xe_shows in H as [(_ & -> & ->)|(_ & -> & ->)]; lia.
  - intros dir dir' p d H H'. apply xe_shows in H. apply xe_shows in H'.
    destruct H as [(-> & -> & ->)|(-> & -> & ->)], H' as [(-> & H1 & H2)|(-> & H1 & H2)]; congruence.
Qed.

Lemma xl_ok : well_shown xl.
Proof.
  assert (P : forall dir p d, shows xl dir p d -> In dir (ue_ls xl) /\ dir = legacy_dir p d /\ 0 <= p /\ 0 <= d)
    by (intros dir p d H; exact H).
  assert (Q : forall dir p d, In dir (ue_ls xl) -> dir = legacy_dir p d -> 0 <= p -> 0 <= d -> shows xl dir p d)
    by (intros dir p d H1 H2 H3 H4; repeat split; assumption).
  split; [|split; [|split]].
  - repeat (constructor; [cbn; intuition discriminate|]). constructor.
  - intros dir Hi _. destruct Hi as [<-|[<-|[<-|[<-|[]]]]].
    + exists 0, 0. apply Q; [cbn; auto|reflexivity|lia|lia].
    + exists 0, 1. apply Q; [cbn; auto|reflexivity|lia|lia].
    + exists 12, 0. apply Q; [cbn; auto|reflexivity|lia|lia].
    + exists 12, 105. apply Q; [cbn; auto|reflexivity|lia|lia].
  - intros dir p d H. now apply P in H.
  - intros dir dir' p d H H'. apply P in H as (_ & -> & _). apply P in H' as (_ & -> & _). reflexivity.
Qed.

(** What is found on the two machines. *)
Lemma found_case :
  fst (get_dies_info xe (US tt false None)) = Ok [(0, [0; 1])] /\
  fst (get_dies_info xl (US tt false None)) = Ok [(0, [0; 1]); (12, [0; 105])] /\
  fst (die_path xe KMax 0 1 true (US tt false None)) =
    Ok (s2l "/sys/devices/system/cpu/intel_uncore_frequency/uncore01/initial_max_freq_khz") /\
  fst (die_path xl KMin 12 105 false (US tt false None)) =
    Ok (s2l "/sys/devices/system/cpu/intel_uncore_frequency/package_12_die_105/min_freq_khz").
Proof. repeat split. Qed.

(** A kernel where writing the package file sets both dies; [ok p] tells which writes succeed. *)
Definition xeff (ok : str -> bool) (p : str) (v : Z) (f : str -> option Z) : option (str -> option Z) :=
  if negb (ok p) then None
  else Some (fun q =>
    if str_eqb p q then Some v
    else if (str_eqb p (legacy_path KMax 0 0 false) &&
             (str_eqb q (uncore_path (s2l "uncore00") KMax false) ||
              str_eqb q (uncore_path (s2l "uncore01") KMax false)))%bool then Some v
    else f q).

Lemma xeff_ok ok : kernel_ok (xeff ok) (tpmi_related xe).
Proof.
  intros p v f f' E. unfold xeff in E. destruct (ok p); cbn [negb] in E; [|discriminate].
  apply (f_equal (fun o => match o with Some g => g | None => f' end)) in E. cbv beta iota in E. subst f'.
  split; [now rewrite (proj2 (str_eqb_eq p p) eq_refl)|].
  intros q Hq Hr. destruct (str_eqb p q) eqn:E1; [apply str_eqb_eq in E1; congruence|].
  destruct (str_eqb p (legacy_path KMax 0 0 false)) eqn:E2; cbn [andb]; [|reflexivity].
  apply str_eqb_eq in E2. subst p.
  destruct (str_eqb q (uncore_path (s2l "uncore00") KMax false)) eqn:E3; cbn [orb].
  { exfalso. apply Hr. apply str_eqb_eq in E3. subst q. split; [reflexivity|]. exists 0, 0, KMax. left.
    split; [reflexivity|]. exists (s2l "uncore00"). split; [apply xe_shows; auto|reflexivity]. }
  destruct (str_eqb q (uncore_path (s2l "uncore01") KMax false)) eqn:E4; [|reflexivity].
  exfalso. apply Hr. apply str_eqb_eq in E4. subst q. split; [reflexivity|]. exists 0, 1, KMax. left.
  split; [reflexivity|]. exists (s2l "uncore01"). split; [apply xe_shows; auto|reflexivity].
Qed.

(** Running code on concrete data. *)
Lemma run_ok {S A} (m : M S A) s r : fst (m s) = r -> m s = (r, snd (m s)).
Proof. intros <-. apply surjective_pairing. Qed.

(** The maximum was limited to 1.5 GHz by the legacy interface. *)
Definition xfiles : str -> option Z := fun q =>
  if str_eqb q (legacy_path KMax 0 0 true) then Some 2000000
  else if str_eqb q (legacy_path KMax 0 0 false) then Some 1500000
  else if str_eqb q (uncore_path (s2l "uncore00") KMax false) then Some 1500000
  else if str_eqb q (uncore_path (s2l "uncore01") KMax false) then Some 1200000
  else Some 800000.

Definition xs : ust kstate := US (KS xfiles []) false None.

Lemma unlock_case : exists s', unlock_new_api (kernel_uio (xeff (fun _ => true))) xe xs = (Ok tt, s') /\
  kview (us_w s') (legacy_path KMax 0 0 false) = Ok 2000000 /\
  kview (us_w s') (uncore_path (s2l "uncore00") KMax false) = Ok 1500000 /\
  kview (us_w s') (uncore_path (s2l "uncore01") KMax false) = Ok 1200000.
Proof.
  eexists. split; [apply run_ok; vm_compute; reflexivity|].
  split; [vm_compute; reflexivity|]. split; vm_compute; reflexivity.
Qed.

Lemma set_case : exists s', set_freq_dies (kernel_uio (xeff (fun _ => true))) xe 1800000999 KMax [(0, [1])] xs = (Ok tt, s') /\
  kview (us_w s') (uncore_path (s2l "uncore00") KMax false) = Ok 1500000 /\
  kview (us_w s') (uncore_path (s2l "uncore01") KMax false) = Ok 1800000 /\
  fst (get_freq_dies (kernel_uio (xeff (fun _ => true))) xe KMax [(0, [0; 1])] false s') =
    Ok [(0, 0, 1500000000); (0, 1, 1800000000)].
Proof.
  eexists. split; [apply run_ok; vm_compute; reflexivity|].
  split; [vm_compute; reflexivity|]. split; vm_compute; reflexivity.
Qed.

Lemma xs_start : start_ok kfresh xe xs.
Proof. split; [now left|]. split; [intros; exact I|intros _ f _; exact I]. Qed.

(** All files are there, and no write is refused. *)
Definition xthere (w : kstate) : Prop := forall f, ks_files w f <> None.

Lemma xthere_works : always_works (kernel_uio (xeff (fun _ => true))) xe xthere.
Proof.
  intros f _ w Hj. split.
  - cbn. destruct (dget str_eqb (ks_cache w) f) as [n|]; [now exists n, w|].
    destruct (ks_files w f) as [n|] eqn:E; [|now apply Hj in E]. eexists. eexists. split; [reflexivity|exact Hj].
  - intros n. cbn. destruct (ks_files w f) eqn:E; [|now apply Hj in E]. eexists. split; [reflexivity|].
    intros q. cbn. destruct (str_eqb f q); [discriminate|]. destruct (_ && _); [discriminate|]. apply Hj.
Qed.

Lemma xthere_start : xthere (us_w xs).
Proof. intros f. cbn. unfold xfiles. repeat (destruct (str_eqb _ _); [discriminate|]). discriminate. Qed.

(** A failure in the middle leaves dies with the package limit. *)
Lemma unlock_failure_refuted_l :
  exists e eff s s' x, well_shown e /\ kernel_ok eff (tpmi_related e) /\ start_ok kfresh e s /\
    use_new_api e = true /\ unlock_new_api (kernel_uio eff) e s = (Exn x, s') /\
    exists p d key f, die_file e p d key false f /\ kview (us_w s') f <> kview (us_w s) f.
Proof.
  exists xe, (xeff (fun p => negb (str_eqb p (uncore_path (s2l "uncore01") KMax false)))), xs.
  eexists. exists EError. split; [apply xe_ok|]. split; [apply xeff_ok|]. split; [apply xs_start|].
  split; [reflexivity|]. split; [apply run_ok; vm_compute; reflexivity|].
  exists 0, 1, KMax, (uncore_path (s2l "uncore01") KMax false).
  split; [exists (s2l "uncore01"); split; [apply xe_shows; auto|reflexivity]|]. vm_compute. discriminate.
Qed.

(** Two directories for the same die: the die is listed twice, the first directory is never used. *)
Lemma duplicates_refuted_l :
  exists e dir p d, use_new_api e = true /\ shows e dir p d /\
    (exists s', get_dies_info e (US tt false None) = (Ok [(p, [d; d])], s')) /\
    forall key lim, fst (die_path e key p d lim (US tt false None)) <> Ok (uncore_path dir key lim).
Proof.
  exists (UE [s2l "uncore00"; s2l "uncore01"] (fun _ => Ok (s2l "0")) (fun _ => Ok (s2l "0"))), (s2l "uncore00"), 0, 0.
  split; [reflexivity|]. split; [|split].
  - split; [now left|]. split; [reflexivity|]. exists (s2l "0"), (s2l "0"). repeat split.
  - eexists. reflexivity.
  - intros key lim. destruct key, lim; discriminate.
Qed.

(** Only the beginning of the name is matched. *)
Lemma suffix_refuted_l : exists name p d, name <> legacy_dir p d /\ parse_legacy name = Some (p, d).
Proof. exists (s2l "package_00_die_00_old"), 0, 0. split; [discriminate|reflexivity]. Qed.

(** Setting per CPU does not unlock: a package limit set by the legacy interface stays in the way. *)
Definition xclamp (p : str) (v : Z) (f : str -> option Z) : option (str -> option Z) :=
  match f (legacy_path KMax 0 0 false) with
  | Some top => if negb (str_eqb p (legacy_path KMax 0 0 false)) && (top <? v) then None
                else Some (fun q => if str_eqb p q then Some v else f q)
  | None => None
  end.

Lemma set_cpus_refuted_l : exists s1 s2,
  set_freq_cpus (kernel_uio xclamp) xe (fun _ => Ok (0, 1)) 1800000000 KMax [5] xs = (Exn EError, s1) /\
  set_freq_dies (kernel_uio xclamp) xe 1800000000 KMax [(0, [1])] xs = (Ok tt, s2) /\
  kview (us_w s2) (uncore_path (s2l "uncore01") KMax false) = Ok 1800000.
Proof.
  eexists. eexists. split; [apply run_ok; vm_compute; reflexivity|].
  split; [apply run_ok; vm_compute; reflexivity|]. vm_compute. reflexivity.
Qed.

Lemma set_cpus_case : exists s',
  set_freq_cpus (kernel_uio (xeff (fun _ => true))) xe (fun c => Ok (0, c mod 2)) 1800000999 KMax [3; 5] xs = (Ok tt, s') /\
  kview (us_w s') (uncore_path (s2l "uncore00") KMax false) = Ok 1500000 /\
  kview (us_w s') (uncore_path (s2l "uncore01") KMax false) = Ok 1800000 /\
  fst (get_freq_cpus (kernel_uio (xeff (fun _ => true))) xe (fun c => Ok (0, c mod 2)) KMax [2; 3] false s') =
    Ok [(2, 1500000000); (3, 1800000000)].
Proof.
  eexists. split; [apply run_ok; vm_compute; reflexivity|].
  split; [vm_compute; reflexivity|]. split; vm_compute; reflexivity.
Qed.

Lemma uncore_files dir p d : let dirp := s2l "/sys/devices/system/cpu/intel_uncore_frequency/" ++ dir in
  uncore_path dir KMin false = dirp ++ s2l "/min_freq_khz" /\
  uncore_path dir KMax false = dirp ++ s2l "/max_freq_khz" /\
  uncore_path dir KCur false = dirp ++ s2l "/current_freq_khz" /\
  uncore_path dir KMin true = dirp ++ s2l "/initial_min_freq_khz" /\
  uncore_path dir KMax true = dirp ++ s2l "/initial_max_freq_khz" /\
  (forall key lim, legacy_path key p d lim = uncore_path (legacy_dir p d) key lim) /\
  (0 <= p < 10 -> 0 <= d < 10 -> legacy_dir p d = s2l "package_0" ++ dec p ++ s2l "_die_0" ++ dec d) /\
  (10 <= p -> 10 <= d -> legacy_dir p d = s2l "package_" ++ dec p ++ s2l "_die_" ++ dec d).
Proof.
  unfold uncore_path, uncore_base, uncore_fname, key_text, legacy_dir, fmt02.
  do 5 (split; [rewrite <- !app_assoc; reflexivity|]).
  split; [reflexivity|]. split; intros H1 H2.
  - rewrite !(proj2 (Z.leb_le 0 _)), !(proj2 (Z.ltb_lt _ 10)) by lia. reflexivity.
  - rewrite !(proj2 (Z.ltb_ge _ 10)), !Bool.andb_false_r by lia. reflexivity.
Qed.
