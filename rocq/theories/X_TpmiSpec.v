(** Examples and counterexamples for C70. *)
From Coq Require Import Permutation ZifyBool.
From Verif Require Import Base L_Base M_Text L_Text M_Tpmi M_TpmiSpec S_TpmiSpec L_TpmiSpec L_TpmiSpec2 L_TpmiSpec3 L_TpmiSpec4 L_TpmiSpec5.

Definition x_file (n d t : string) (l : list (Z * rspec)) : content :=
  CMap [(s2l "name", YScalar (s2l n)); (s2l "desc", YScalar (s2l d)); (s2l "feature-id", YScalar (s2l t)); (s2l "registers", YRegs l)].
Definition x_bus : list (Z * rspec) := [(1, RS 8 64 [(2, s2l "3:0")])].
Definition x_reg (o : Z) : list (Z * rspec) := [(1, RS o 32 [])].

Definition x_std : specdir :=
  [(s2l "README", CBad); (s2l "uncore.yml", x_file "uncore" "Uncore frequency" "0x2" (x_reg 8));
   (s2l "tpmi_info.yml", x_file "tpmi_info" "TPMI information" "0x81" x_bus)].
Definition x_user : specdir :=
  [(s2l "mine.yml", x_file "mine" "My feature" "0x10" (x_reg 4)); (s2l "bad.yml", CMap [(s2l "title", YScalar (s2l "x"))])].
Definition x_dirs : list specdir := [x_user; x_std].
Definition x_paths : list (Z * list Z) := [(1, [2; 129; 5]); (2, [129; 2; 16])].
Definition x_package (fd : list (Z * rdict)) (a : Z) : res Z := Ok (a - 1).

Lemma x_file_says n d t l i : str_to_int (s2l t) = Ok i -> describes (x_file n d t l) (s2l n) (s2l d) i.
Proof.
  intros E. exists [(s2l "name", YScalar (s2l n)); (s2l "desc", YScalar (s2l d)); (s2l "feature-id", YScalar (s2l t))], [(s2l "registers", YRegs l)], (s2l t).
  split; [reflexivity|]. split; [reflexivity|exact E].
Qed.

Lemma x_err : erroneous (CMap [(s2l "title", YScalar (s2l "x"))]).
Proof.
  apply (E_key [] (s2l "title")); [split; [constructor|]; split; [cbn; lia|constructor]|]. intros [H|[H|[H|[]]]]; discriminate H.
Qed.
Lemma yml b : spec_name (b ++ s2l ".yml").
Proof. exists b. left. reflexivity. Qed.

Lemma x_acceptable : Forall acceptable x_dirs.
Proof.
  constructor; [|constructor; [|constructor]].
  - exists 0, 1, 1. split; [|lia].
    apply (Ce_spec _ _ _ (s2l "mine") (s2l "My feature") 16 0 1 0); [apply (yml (s2l "mine"))|apply x_file_says; reflexivity|].
    apply (Ce_error _ _ _ 0 0 0); [apply (yml (s2l "bad"))|exact x_err|constructor].
  - exists 1, 0, 2. split; [|lia]. apply (Ce_other _ _ _ 0 0 2).
    + intros H. apply is_yaml_iff in H. discriminate H.
    + apply (Ce_spec _ _ _ (s2l "uncore") (s2l "Uncore frequency") 2 0 0 1); [apply (yml (s2l "uncore"))|apply x_file_says; reflexivity|].
      apply (Ce_spec _ _ _ (s2l "tpmi_info") (s2l "TPMI information") 129 0 0 0); [apply (yml (s2l "tpmi_info"))|apply x_file_says; reflexivity|constructor].
Qed.

Definition x_sd : list (str * sdict) :=
  [(s2l "mine", SD (s2l "mine") (s2l "My feature") 16 (0, s2l "mine.yml"));
   (s2l "uncore", SD (s2l "uncore") (s2l "Uncore frequency") 2 (1, s2l "uncore.yml"));
   (s2l "tpmi_info", SD (s2l "tpmi_info") (s2l "TPMI information") 129 (1, s2l "tpmi_info.yml"))].
Lemma x_build : build_sdicts x_dirs = Ok x_sd.
Proof. vm_compute. reflexivity. Qed.

Lemma x_distinct : distinct_ids x_dirs.
Proof.
  split.
  - intros n n' x x' H H' E. apply (in_defined _ _ _ _ x_build) in H, H'.
    destruct H as [H|[H|[H|[]]]]; destruct H' as [H'|[H'|[H'|[]]]]; injection H as <- <-; injection H' as <- <-; try reflexivity; discriminate E.
  - intros x H. apply (in_defined _ _ _ _ x_build) in H. destruct H as [H|[H|[H|[]]]]; discriminate H.
Qed.

Definition x_found : found :=
  FD x_sd [(s2l "tpmi_info", [1; 2]); (s2l "uncore", [1; 2]); (s2l "mine", [2])] [5].
Lemma x_discover : discover x_dirs x_paths x_package = Ok x_found.
Proof. vm_compute. reflexivity. Qed.

Lemma x_says_all k j fn n d i : says x_dirs k j fn n d i ->
  (k = 0%nat /\ j = 0%nat /\ fn = s2l "mine.yml" /\ n = s2l "mine") \/ (k = 1%nat /\ j = 1%nat /\ fn = s2l "uncore.yml" /\ n = s2l "uncore") \/
  (k = 1%nat /\ j = 2%nat /\ fn = s2l "tpmi_info.yml" /\ n = s2l "tpmi_info").
Proof.
  intros (files & c & A & B & Y & D). destruct k as [|[|[|k]]]; cbn in A; try discriminate A.
  - injection A as <-. destruct j as [|[|[|j]]]; cbn in B; try discriminate B.
    + injection B as <- <-. left. pose proof (x_file_says "mine" "My feature" "0x10" (x_reg 4) 16 eq_refl) as D'.
      destruct (describes_fun _ _ _ _ _ _ _ D D') as (-> & _). auto.
    + injection B as <- <-. pose proof (describes_run _ _ _ _ (0, []) D) as X. discriminate X.
  - injection A as <-. destruct j as [|[|[|[|j]]]]; cbn in B; try discriminate B.
    + injection B as <- <-. pose proof (describes_run _ _ _ _ (0, []) D) as X. discriminate X.
    + injection B as <- <-. right. left. pose proof (x_file_says "uncore" "Uncore frequency" "0x2" (x_reg 8) 2 eq_refl) as D'.
      destruct (describes_fun _ _ _ _ _ _ _ D D') as (-> & _). auto.
    + injection B as <- <-. right. right. pose proof (x_file_says "tpmi_info" "TPMI information" "0x81" x_bus 129 eq_refl) as D'.
      destruct (describes_fun _ _ _ _ _ _ _ D D') as (-> & _). auto.
Qed.

Lemma x_no_twins : no_twins x_dirs.
Proof.
  intros k j j' fn fn' n d d' i i' H H'. apply x_says_all in H, H'.
  destruct H as [(-> & -> & _ & ->)|[(-> & -> & _ & ->)|(-> & -> & _ & ->)]]; destruct H' as [(E & -> & _ & E')|[(E & -> & _ & E')|(E & -> & _ & E')]]; try reflexivity; try discriminate E; discriminate E'.
Qed.

Lemma x_tidy : tidy x_dirs.
Proof.
  split.
  - intros k j fn n d i H. apply x_says_all in H. destruct H as [(_ & _ & -> & ->)|[(_ & _ & -> & ->)|(_ & _ & -> & ->)]]; reflexivity.
  - intros k k' j j' f f' fn c c' A A' B B'.
    destruct k as [|[|[|k]]]; cbn in A; try discriminate A; injection A as <-;
    destruct k' as [|[|[|k']]]; cbn in A'; try discriminate A'; injection A' as <-;
    destruct j as [|[|[|[|j]]]]; cbn in B; try discriminate B; injection B as <- <-;
    destruct j' as [|[|[|[|j']]]]; cbn in B'; try discriminate B'; try (split; reflexivity); try discriminate B'.
Qed.

(** ** What goes wrong *)

(** A spec file named "*.yaml": the feature is found, but it has no registers. *)
Definition x_ext : list specdir := [[(s2l "uncore.yaml", x_file "uncore" "Uncore frequency" "0x2" (x_reg 8));
   (s2l "tpmi_info.yml", x_file "tpmi_info" "TPMI information" "0x81" x_bus)]].
Lemma extension_l : exists dirs paths package f l n d i,
  discover dirs paths package = Ok f /\ get_known_features f = Ok l /\ In n (map sd_name l) /\ says dirs 0 0 (n ++ s2l ".yaml") n d i /\
  get_fdict dirs n = Exn ENotSupported.
Proof.
  exists x_ext, x_paths, x_package. eexists. eexists. exists (s2l "uncore"), (s2l "Uncore frequency"), 2.
  split; [vm_compute; reflexivity|]. split; [vm_compute; reflexivity|]. split; [cbn; auto|]. split; [|vm_compute; reflexivity].
  eexists. eexists. split; [reflexivity|]. split; [reflexivity|]. split; [exists (s2l "uncore"); right; reflexivity|]. apply x_file_says. reflexivity.
Qed.

(** The user has a spec file for a feature that has a standard one: the registers are the user's, the ID and the description are not. *)
Definition x_mine : specdir := [(s2l "uncore.yml", x_file "uncore" "My uncore" "0x10" (x_reg 64))].
Lemma override_l : exists user standard n sd x,
  says [user] 0 0 (n ++ s2l ".yml") n (s2l "My uncore") 16 /\ build_sdicts (find_spec_dirs (Some user) standard) = Ok sd /\
  dget str_eqb sd n = Some x /\ sd_fid x = 2 /\ sd_desc x = s2l "Uncore frequency" /\
  get_fdict (find_spec_dirs (Some user) standard) n = get_fdict [user] n /\ get_fdict [user] n <> get_fdict [standard] n.
Proof.
  exists x_mine, x_std, (s2l "uncore"). eexists. eexists. split.
  - eexists. eexists. split; [reflexivity|]. split; [reflexivity|]. split; [apply (yml (s2l "uncore"))|]. apply x_file_says. reflexivity.
  - split; [vm_compute; reflexivity|]. split; [vm_compute; reflexivity|]. split; [reflexivity|]. split; [reflexivity|]. split; [vm_compute; reflexivity|].
    vm_compute. discriminate.
Qed.

(** Two features with one ID: the first one is nowhere. *)
Definition x_same : specdir := [(s2l "a.yml", x_file "a" "A" "2" (x_reg 8)); (s2l "b.yml", x_file "b" "B" "0x2" (x_reg 8));
   (s2l "tpmi_info.yml", x_file "tpmi_info" "TPMI information" "0x81" x_bus)].
Lemma same_id_l : exists dirs paths package f l n x a, discover dirs paths package = Ok f /\ get_known_features f = Ok l /\
  defined dirs n x /\ has_id paths a (sd_fid x) /\ ~ In n (map sd_name l) /\ ~ In (sd_fid x) (get_unknown_features f).
Proof.
  exists [x_same], x_paths, x_package. eexists. eexists. exists (s2l "a"), (SD (s2l "a") (s2l "A") 2 (0, s2l "a.yml")), 1.
  split; [vm_compute; reflexivity|]. split; [vm_compute; reflexivity|]. split.
  - eapply scan_l; [vm_compute; reflexivity|]. vm_compute. reflexivity.
  - split; [exists [2; 129; 5]; cbn; auto|]. split; [intros [H|[H|[]]]; discriminate H|cbn; intuition discriminate].
Qed.

(** A file with two of the three keys, or one which is not YAML: no feature is found at all. *)
Lemma truncated_file_l : forall dirs k j files fn, nth_error dirs k = Some files -> spec_name fn ->
  nth_error files j = Some (fn, CMap [(s2l "name", YScalar (s2l "a")); (s2l "desc", YScalar (s2l "A"))]) \/ nth_error files j = Some (fn, CBroken) ->
  forall paths package f, discover dirs paths package <> Ok f.
Proof.
  intros dirs k j files fn A Y B paths package f E. apply discover_split in E. destruct E as (sd & _ & _ & _ & _ & _ & E & _).
  assert (G : exists sd, build_sdicts dirs = Ok sd) by (exists sd; exact E). apply succeeds_l in G. destruct G as (F & _).
  rewrite Forall_forall in F. destruct (F files (nth_error_In _ _ A)) as (a & b & e & C & _).
  assert (X : forall c, fatal c -> nth_error files j = Some (fn, c) -> False).
  { clear -C Y. intros c Fc. revert j. induction C as [|fn1 c1 t a b e N C IH|fn1 c1 t a b e Y1 X1 C IH|fn1 c1 t n d i a b e Y1 X1 C IH]; intros j B.
    - destruct j; discriminate B.
    - destruct j as [|j]; [|exact (IH j B)]. cbn in B. injection B as <- <-. contradiction.
    - destruct j as [|j]; [|exact (IH j B)]. cbn in B. injection B as <- <-. destruct (erroneous_run _ (0, []) X1) as (e1 & E1 & Z1).
      destruct (fatal_run _ (0, []) Fc) as (e2 & E2 & Z2). congruence.
    - destruct j as [|j]; [|exact (IH j B)]. cbn in B. injection B as <- <-. pose proof (describes_run _ _ _ _ (0, []) X1) as E1.
      destruct (fatal_run _ (0, []) Fc) as (e2 & E2 & Z2). congruence. }
  destruct B as [B|B].
  - refine (X _ _ B). apply F_short; [discriminate|]. split; [cbn; repeat constructor; cbn; intuition discriminate|]. split; [cbn; lia|].
    constructor; [|constructor; [|constructor]].
    + split; [left; reflexivity|]. eexists. split; [reflexivity|discriminate].
    + split; [right; left; reflexivity|]. eexists. split; [reflexivity|discriminate].
  - refine (X _ _ B). constructor.
Qed.

(** The same unknown ID is listed for every device. *)
Lemma repeated_l : exists dirs paths package f, discover dirs paths package = Ok f /\ distinct_ids dirs /\ ~ NoDup (get_unknown_features f).
Proof.
  exists x_dirs, [(1, [129; 5]); (2, [129; 5])], x_package. eexists. split; [vm_compute; reflexivity|]. split; [exact x_distinct|].
  cbn. intros H. inversion H as [|? ? N _]; subst. apply N. left. reflexivity.
Qed.

(** The devices of one package are not lined up. *)
Lemma nested_l : exists its, ls_long dec (s2l "   ") its =
  map s2l ["   - PCI address: 1"; "       Package: 0"; "       Instances: 0,1"; "     - PCI address: 2"; "         Package: 0"; "         Instances: 0"]%string.
Proof. exists [(1, 0, 0); (1, 0, 1); (2, 0, 0)]. vm_compute. reflexivity. Qed.
