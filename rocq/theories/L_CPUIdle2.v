(** Reading the C-state files: from the files to the dictionaries. *)
From Coq Require Import Ascii String ZifyBool Permutation Sorted.
From Verif Require Import Base L_Base M_CPUInfo S_CPUInfo M_Text S_Text L_Text M_Human L_Human M_CPUIdle S_CPUIdle L_CPUIdle.

Lemma NoDup_flat_map' {A B} (f : A -> list B) l : NoDup l -> (forall x, In x l -> NoDup (f x)) ->
  (forall x y b, In x l -> In y l -> In b (f x) -> In b (f y) -> x = y) -> NoDup (flat_map f l).
Proof.
  induction l as [|x l IH]; intros Hn H1 H2; [constructor|]. inversion Hn as [|? ? Hx Hn']; subst. cbn [flat_map].
  apply NoDup_app_disj; [apply H1; now left| |].
  - apply IH; [assumption|intros; apply H1; now right|]. intros a b c Ha Hb. apply H2; now right.
  - intros b Hb' Hb. apply in_flat_map in Hb' as (y & Hy & Hb'). assert (x = y) as -> by (eapply H2; try eassumption; [now left|now right]). contradiction.
Qed.

(** ** Lines *)

Lemma lines_one x l : ~ In "010"%char x -> lines ((x ++ ["010"%char]) ++ l) = (x ++ ["010"%char]) :: lines l.
Proof.
  induction x as [|c x IH]; intros Hx; [reflexivity|]. cbn [app lines].
  destruct (Ascii.eqb_spec c newline) as [->|]; [contradiction Hx; now left|]. rewrite IH; [reflexivity|]. intros H. apply Hx. now right.
Qed.

Lemma lines_concat (l : list str) : Forall one_line l -> lines (concat l) = l.
Proof.
  induction 1 as [|t l (x & -> & Hx) _ IH]; [reflexivity|]. cbn [concat]. rewrite lines_one by exact Hx. now rewrite IH.
Qed.

Lemma flag_line off : one_line (flag_text off).
Proof. destruct off; [exists ["1"%char]|exists ["0"%char]]; (split; [reflexivity|]); intros [H|[]]; discriminate. Qed.

Lemma flag_says off : says (flag_text off) = CInt (if off then 1 else 0).
Proof. destruct off; reflexivity. Qed.

Lemma flag_parse off : parse_val (strip (flag_text off)) = Ok (says (flag_text off)).
Proof. destruct off; reflexivity. Qed.

Lemma parse_says t : (is_int (strip t) = true -> py_int (strip t) <> None) -> parse_val (strip t) = Ok (says t).
Proof.
  intros H. unfold parse_val, says. unfold is_int in *. destruct (py_int0 (strip t)).
  - destruct (py_int (strip t)); [reflexivity|]. now contradiction (H eq_refl).
  - destruct (py_int (strip t)); reflexivity.
Qed.

(** ** Groups *)

Section Groups.
  (** The contents of the files. *)
  Variable K : Z -> Z -> str -> str.

  Definition grp (c i : Z) (fs : list str) : list (str * str) := map (fun f => (line_of (c, i, f), K c i f)) fs.

  Definition put (c i : Z) (cs : cstate) (f : str) : cstate :=
    dset str_eqb (dset str_eqb cs (s2l "index"%string) (CInt i)) f (says (K c i f)).

  Definition good (c i : Z) : Prop :=
    0 <= c /\ 0 <= i /\ forall f, In f fnames_sorted -> parse_val (strip (K c i f)) = Ok (says (K c i f)).

  Lemma fnames_plain f : In f fnames_sorted -> f <> [] /\ Forall (fun x => is_space x = false) f /\ ~ In "/"%char f.
  Proof.
    intros H. unfold fnames_sorted in H. cbn [map In] in H.
    repeat (destruct H as [<-|H]; [split; [discriminate|]; split; [apply nospaceb; reflexivity|]; apply has_char_false; reflexivity|]). contradiction.
  Qed.

  Lemma parse_line c i f : 0 <= c -> 0 <= i -> In f fnames_sorted -> parse_fpath (strip (line_of (c, i, f))) = Some (c, i, f).
  Proof.
    intros Hc Hi Hf. destruct (fnames_plain f Hf) as (H1 & H2 & _). unfold line_of. rewrite strip_nl; [|now apply path_nospace]. now apply parse_path.
  Qed.

  Lemma grp_tail c i fs : good c i -> incl fs fnames_sorted -> forall rest info cs,
    read_loop (grp c i fs ++ rest) info cs (Some (c, i)) = read_loop rest info (fold_left (put c i) fs cs) (Some (c, i)).
  Proof.
    intros (Hc & Hi & Hg). induction fs as [|f fs IH]; intros Hfs rest info cs; [reflexivity|].
    cbn [grp map app read_loop]. rewrite parse_line; [|assumption..|apply Hfs; now left]. rewrite Hg by (apply Hfs; now left).
    rewrite !Z.eqb_refl. cbn [negb]. fold (grp c i fs). fold (put c i cs f).
    rewrite IH; [|intros x Hx; apply Hfs; now right]. cbn [fold_left]. destruct (read_loop rest info _ _) as (r, e). reflexivity.
  Qed.

  Definition full (c i : Z) : cstate := fold_left (put c i) fnames_sorted [].

  Definition entry (c i : Z) : cstate :=
    (s2l "index"%string, CInt i) :: map (fun f => (f, says (K c i f))) cst_fnames.

  Definition named (c i : Z) : Prop := py_int (strip (K c i (s2l "name"%string))) = None.

  Definition name_of (c i : Z) : str := normalize_csname (strip (K c i (s2l "name"%string))).

  Definition adds (info : csinfo) (c i : Z) : csinfo := dset str_eqb info (name_of c i) (entry c i).

  Lemma full_eq c i : full c i =
    (s2l "index"%string, CInt i) :: map (fun f => (f, says (K c i f))) fnames_sorted.
  Proof. unfold full, put, fnames_sorted, entry, cst_fnames. reflexivity. Qed.

  Lemma add_full info c i : named c i -> add_cstate info (full c i) = Ok (adds info c i).
  Proof.
    intros Hn. rewrite full_eq. unfold add_cstate.
    assert (E : says (K c i (s2l "name"%string)) = CStr (strip (K c i (s2l "name"%string)))).
    { unfold says. unfold named in Hn. now rewrite Hn. }
    replace (dget str_eqb _ (s2l "name"%string)) with (Some (says (K c i (s2l "name"%string)))) by reflexivity.
    rewrite E. replace (dget str_eqb _ (s2l "index"%string)) with (Some (CInt i)) by reflexivity.
    replace (rmap _ _) with (Ok (map (fun f => (f, says (K c i f))) cst_fnames)) by reflexivity.
    reflexivity.
  Qed.

  (** A whole group after another one. *)
  Lemma grp_next c i pc pi : good c i -> i <> pi -> named pc pi -> forall rest info,
    read_loop (grp c i fnames_sorted ++ rest) info (full pc pi) (Some (pc, pi)) =
    let info1 := adds info pc pi in
    let (r, e) := read_loop rest (if c =? pc then info1 else []) (full c i) (Some (c, i)) in
    ((if c =? pc then [] else [(pc, info1)]) ++ r, e).
  Proof.
    intros Hg Hi Hn rest info. assert (Hg' := Hg). destruct Hg' as (Hc & Hi0 & Hv).
    assert (E : fnames_sorted = s2l "desc"%string :: tl fnames_sorted) by reflexivity. rewrite E at 1. cbn [grp map app read_loop].
    assert (Hd : In (s2l "desc"%string) fnames_sorted) by (now left). rewrite parse_line by assumption. rewrite Hv by exact Hd.
    destruct (Z.eqb_spec i pi) as [|_]; [contradiction|]. cbn [negb]. rewrite add_full by exact Hn. cbn [rbind].
    fold (grp c i (tl fnames_sorted)). fold (put c i [] (s2l "desc"%string)). cbn zeta.
    destruct (c =? pc); cbn [negb]; (rewrite grp_tail; [|exact Hg|intros x Hx; now right]); reflexivity.
  Qed.

  Lemma grp_first c i : good c i -> forall rest,
    read_loop (grp c i fnames_sorted ++ rest) [] [] None = read_loop rest [] (full c i) (Some (c, i)).
  Proof.
    intros Hg rest. assert (Hg' := Hg). destruct Hg' as (Hc & Hi0 & Hv).
    assert (E : fnames_sorted = s2l "desc"%string :: tl fnames_sorted) by reflexivity. rewrite E at 1. cbn [grp map app read_loop].
    assert (Hd : In (s2l "desc"%string) fnames_sorted) by (now left). rewrite parse_line by assumption. rewrite Hv by exact Hd.
    fold (grp c i (tl fnames_sorted)). fold (put c i [] (s2l "desc"%string)).
    rewrite grp_tail; [|exact Hg|intros x Hx; now right]. reflexivity.
  Qed.

  (** All the C-states of one CPU but the first one. *)
  Lemma cpu_states c : forall l i info rest, good c i -> named c i ->
    (forall j, In j l -> good c j /\ named c j) -> NoDup (i :: l) ->
    read_loop (flat_map (fun j => grp c j fnames_sorted) l ++ rest) info (full c i) (Some (c, i)) =
    read_loop rest (fold_left (fun d j => adds d c j) (removelast (i :: l)) info) (full c (last l i)) (Some (c, last l i)).
  Proof.
    induction l as [|j l IH]; intros i info rest Hg Hn Hl Hnd; [reflexivity|].
    cbn [flat_map]. rewrite <- app_assoc. destruct (Hl j (or_introl eq_refl)) as (Hgj & Hnj).
    rewrite grp_next; [|exact Hgj| |exact Hn].
    - rewrite Z.eqb_refl. cbn [app]. cbn zeta. rewrite IH; [|assumption|assumption|intros k Hk; apply Hl; now right|now inversion Hnd].
      assert (EL : forall d, last (j :: l) d = last l j).
      { clear. revert j. induction l as [|x l IH]; intros j d; [reflexivity|]. change (last (j :: x :: l) d) with (last (x :: l) d). rewrite IH. now rewrite IH. }
      rewrite EL. change (removelast (i :: j :: l)) with (i :: removelast (j :: l)). cbn [fold_left].
      now destruct (read_loop rest _ _ _).
    - intros ->. inversion Hnd as [|? ? H _]. apply H. now left.
  Qed.

  Definition info_of (l : list Z) (c : Z) : csinfo := fold_left (fun d j => adds d c j) l [].

  Variable nst : Z -> Z.
  Definition cpu_ok (c : Z) : Prop := 2 <= nst c /\ forall i, 0 <= i < nst c -> good c i /\ named c i.

  (** The CPUs after the first one: [pc] is the CPU before, all of whose C-states but the last one are in [info]. *)
  Lemma cpus_rest : forall cpus pc pi info, (forall c, In c cpus -> cpu_ok c) -> NoDup (pc :: cpus) -> good pc pi -> named pc pi -> pi <> 0 ->
    read_loop (flat_map (fun c => flat_map (fun i => grp c i fnames_sorted) (states (nst c))) cpus) info (full pc pi) (Some (pc, pi)) =
    ((pc, adds info pc pi) :: map (fun c => (c, info_of (states (nst c)) c)) cpus, None).
  Proof.
    induction cpus as [|c cpus IH]; intros pc pi info Hok Hnd Hg Hn Hpi.
    - cbn [flat_map read_loop map]. now rewrite add_full.
    - destruct (Hok c (or_introl eq_refl)) as (H2 & Hc). cbn [flat_map].
      destruct (states_ends (nst c) H2) as (mid & l & Es & Hl).
      assert (Hin : forall j, In j (0 :: mid ++ [l]) -> good c j /\ named c j).
      { intros j Hj. apply Hc. apply states_In. now rewrite Es. }
      assert (Hnd2 : NoDup (0 :: mid ++ [l])) by (rewrite <- Es; apply states_NoDup).
      rewrite Es at 1. cbn [flat_map]. rewrite <- app_assoc.
      assert (Hcp : c <> pc) by (intros ->; inversion Hnd as [|? ? H _]; apply H; now left).
      rewrite grp_next; [|apply Hin; now left|congruence|exact Hn]. cbn zeta.
      destruct (Z.eqb_spec c pc) as [|_]; [contradiction|].
      rewrite cpu_states; [|apply Hin; now left|apply Hin; now left|intros j Hj; apply Hin; now right|exact Hnd2].
      rewrite last_last. rewrite IH.
      + cbn [app map]. f_equal. f_equal. f_equal. f_equal. rewrite Es. unfold info_of.
        rewrite app_comm_cons, removelast_last, fold_left_app. reflexivity.
      + intros d Hd. apply Hok. now right.
      + inversion Hnd as [|? ? H H']; subst. exact H'.
      + apply Hin. right. apply in_or_app. right. now left.
      + apply Hin. right. apply in_or_app. right. now left.
      + exact Hl.
  Qed.

  Lemma read_groups cpus : cpus <> [] -> NoDup cpus -> (forall c, In c cpus -> cpu_ok c) ->
    read_loop (flat_map (fun c => flat_map (fun i => grp c i fnames_sorted) (states (nst c))) cpus) [] [] None =
    (map (fun c => (c, info_of (states (nst c)) c)) cpus, None).
  Proof.
    destruct cpus as [|c cpus]; intros Hne Hnd Hok; [congruence|]. clear Hne.
    destruct (Hok c (or_introl eq_refl)) as (H2 & Hc). cbn [flat_map].
    destruct (states_ends (nst c) H2) as (mid & l & Es & Hl).
    assert (Hin : forall j, In j (0 :: mid ++ [l]) -> good c j /\ named c j).
    { intros j Hj. apply Hc. apply states_In. now rewrite Es. }
    assert (Hnd2 : NoDup (0 :: mid ++ [l])) by (rewrite <- Es; apply states_NoDup).
    rewrite Es at 1. cbn [flat_map]. rewrite <- app_assoc.
    rewrite grp_first; [|apply Hin; now left].
    rewrite cpu_states; [|apply Hin; now left|apply Hin; now left|intros j Hj; apply Hin; now right|exact Hnd2].
    rewrite last_last. rewrite cpus_rest.
    - cbn [map]. f_equal. f_equal. f_equal. rewrite Es. unfold info_of. rewrite app_comm_cons, removelast_last, fold_left_app. reflexivity.
    - intros d Hd. apply Hok. now right.
    - exact Hnd.
    - apply Hin. right. apply in_or_app. right. now left.
    - apply Hin. right. apply in_or_app. right. now left.
    - exact Hl.
  Qed.

  (** The dictionary of a CPU: each C-state once. *)
  Lemma info_of_gen c : forall l d, (forall i j, In i l -> In j l -> name_of c i = name_of c j -> i = j) -> NoDup l ->
    NoDup (map fst d) -> (forall i, In i l -> ~ In (name_of c i) (map fst d)) ->
    let r := fold_left (fun d j => adds d c j) l d in
    NoDup (map fst r) /\
    forall n cs, In (n, cs) r <-> In (n, cs) d \/ exists i, In i l /\ n = name_of c i /\ cs = entry c i.
  Proof.
    induction l as [|i l IH]; intros d Hinj Hnd Hd Hnew; cbn zeta.
    - split; [exact Hd|]. intros n cs. split; [now left|]. intros [H|(i & [] & _)]. exact H.
    - cbn [fold_left]. inversion Hnd as [|? ? Hi Hnd']; subst.
      assert (Ea : adds d c i = d ++ [(name_of c i, entry c i)]).
      { unfold adds. assert (Hn : ~ In (name_of c i) (map fst d)) by (apply Hnew; now left). clear -Hn.
        induction d as [|(k, v) d IH]; [reflexivity|]. cbn [dset map fst app] in *.
        destruct (str_eqb (name_of c i) k) eqn:E; [apply str_eqb_eq in E; contradiction Hn; now left|]. f_equal. apply IH. intros H. apply Hn. now right. }
      specialize (IH (adds d c i)). cbn zeta in IH. destruct IH as (H1 & H2).
      + intros a b Ha Hb. apply Hinj; now right.
      + exact Hnd'.
      + unfold adds. apply dset_NoDup; [apply str_eqb_spec|exact Hd].
      + intros j Hj. rewrite Ea, map_app, in_app_iff. intros [H|[H|[]]].
        * apply (Hnew j); [now right|exact H].
        * cbn [fst] in H. apply Hinj in H; [|now left|now right]. subst j. contradiction.
      + split; [exact H1|]. intros n cs. rewrite H2, Ea, in_app_iff. cbn [In]. split.
        * intros [[H|[H|[]]]|(j & Hj & En & Ec)]; [now left| |].
          -- right. exists i. split; [now left|]. apply pair_equal_spec in H as (<- & <-). now split.
          -- right. exists j. split; [now right|]. now split.
        * intros [H|(j & [<-|Hj] & -> & ->)]; [now left; left|left; right; now left|]. right. exists j. now repeat split.
  Qed.

  Lemma info_of_In c : cpu_ok c -> (forall i j, 0 <= i < nst c -> 0 <= j < nst c -> name_of c i = name_of c j -> i = j) ->
    NoDup (map fst (info_of (states (nst c)) c)) /\
    forall n cs, In (n, cs) (info_of (states (nst c)) c) <-> exists i, 0 <= i < nst c /\ n = name_of c i /\ cs = entry c i.
  Proof.
    intros Hok Hinj. destruct (info_of_gen c (states (nst c)) []) as (H1 & H2).
    - intros i j Hi Hj. apply states_In in Hi, Hj. now apply Hinj.
    - apply states_NoDup.
    - constructor.
    - intros i _ [].
    - split; [exact H1|]. intros n cs. fold (info_of (states (nst c)) c) in H2. rewrite H2. split.
      + intros [[]|(i & Hi & H)]. apply states_In in Hi. now exists i.
      + intros (i & Hi & H). right. exists i. now rewrite states_In.
  Qed.

  Lemma entry_get c i : dget str_eqb (entry c i) (s2l "index"%string) = Some (CInt i) /\
    forall f, In f cst_fnames -> dget str_eqb (entry c i) f = Some (says (K c i f)).
  Proof.
    split; [reflexivity|]. intros f Hf. unfold cst_fnames in Hf. cbn [map In] in Hf.
    repeat (destruct Hf as [<-|Hf]; [reflexivity|]). contradiction.
  Qed.
End Groups.
