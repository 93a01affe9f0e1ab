(** Concrete cases for C80. *)
From Coq Require Import Ascii String ZifyBool Lia.
From Verif Require Import Base M_Text S_Text M_Human S_Human M_Topo S_Topo M_Kver S_Kver S_Systemd S_Prelude M_CFreq M_Ident S_Ident L_Base L_Text L_Human L_Ident L_Ident2 L_Ident3 L_Ident4.
Open Scope list_scope.
Open Scope Z_scope.

Definition xlines : list str :=
  map s2l ["Architecture:          x86_64"; "CPU family: 6"; "  Model:  143"; "Model name: Genuine Intel(R) CPU @ 2.10GHz"; "Stepping: 8"; "Flags: fpu vme"]%string.

Definition xinfo : info :=
  [("arch", IText (s2l "x86_64")); ("family", IInt 6); ("model", IInt 143); ("modelname", IText (s2l "Genuine Intel(R) CPU @ 2.10GHz"));
   ("basefreq", IText (s2l "2.10")); ("stepping", IInt 8); ("flags", IFlags [(0, [s2l "fpu"; s2l "vme"]); (1, [s2l "fpu"; s2l "vme"])]); ("hybrid", IBool false)]%string.

Example x_info : get_cpu_info (Ok xlines) (Ok [0; 1]) (Ok false) = Ok xinfo.
Proof. vm_compute. reflexivity. Qed.

Example x_descr : get_cpu_description [(106, s2l "Ice Lake"); (143, s2l "Sapphire Rapids")] xinfo = Ok (s2l "Intel processor model 0x8f (codename: Sapphire Rapids)").
Proof. vm_compute. reflexivity. Qed.

Lemma x_genuine : genuine (s2l "Genuine Intel(R) CPU @ 2.10GHz").
Proof. apply genuine_iff. vm_compute. reflexivity. Qed.

Lemma x_not_genuine : ~ genuine (s2l "Intel(R) Xeon(R)").
Proof. intros H. apply genuine_iff in H. vm_compute in H. discriminate H. Qed.

(** The lines say what the specification asks. *)
Example x_says : line_says "Model:" (s2l "  Model:  143") (s2l "143") /\ freq_says (s2l "Model name: Genuine Intel(R) CPU @ 2.10GHz") (s2l "2.10").
Proof. split; [apply label_match; [discriminate|apply (labels_ok "model" "Model:"); cbn; tauto|]|apply freq_match]; vm_compute; reflexivity. Qed.

Lemma digits_text s : s <> [] -> Forall is_digit s -> exists z, integer_text s z.
Proof.
  intros H1 H2. exists (1 * spelled s). replace s with ([] ++ [] ++ s ++ []) at 1 by (cbn [app]; apply app_nil_r).
  apply (Integer [] [] 1 s []); try constructor; assumption.
Qed.

Ltac num := match goal with |- exists x, stands_for ?v x => let H := fresh in
  assert (H : exists z, integer_text v z); [apply digits_text; [discriminate|repeat apply Forall_cons; try apply Forall_nil; unfold is_digit; vm_compute; lia]|];
  destruct H as (z & H); exists (IInt z); apply SF_num; exact H end.
Ltac wrd := eexists; apply SF_word; unfold letter; vm_compute; lia.

Lemma x_odd : Exists odd_char (s2l "2.10").
Proof.
  apply Exists_cons_tl. apply Exists_cons_hd. split; [|split; discriminate]. split; [vm_compute; lia|]. split.
  - intros d H. inversion H; subst; match goal with H : (_ <= _ <= _)%nat |- _ => vm_compute in H; lia end.
  - cbn [In]. intuition discriminate.
Qed.

Example x_plain : plain xlines.
Proof.
  split; [|split].
  - intros line key label v Hl Hlab Hs. apply (label_iff _ _ Hlab) in Hs. unfold pat_says in Hs.
    unfold xlines in Hl. cbn [map In] in Hl. cbn [labels In] in Hlab.
    repeat (destruct Hl as [<-|Hl]; [repeat (destruct Hlab as [[= <- <-]|Hlab]; [vm_compute in Hs; first [discriminate Hs|injection Hs as <-; first [num|wrd]]|]); destruct Hlab|]).
    destruct Hl.
  - intros line v Hl Hs. apply freq_iff in Hs. unfold pat_says in Hs. unfold xlines in Hl. cbn [map In] in Hl.
    repeat (destruct Hl as [<-|Hl]; [vm_compute in Hs; first [discriminate Hs|injection Hs as <-; eexists; apply SF_foreign; exact x_odd]|]). destruct Hl.
  - intros line v Hl Hs. assert (Hlab : In ("flags", "Flags:")%string labels) by (cbn; tauto). apply (label_iff _ _ Hlab) in Hs. unfold pat_says in Hs.
    unfold xlines in Hl. cbn [map In] in Hl.
    repeat (destruct Hl as [<-|Hl]; [vm_compute in Hs; first [discriminate Hs|injection Hs as <-; apply SF_word; unfold letter; vm_compute; lia]|]). destruct Hl.
Qed.

(** A stepping of "0x1" makes the whole identification fail. *)
Lemma parse_app l1 l2 : forall d, parse_lines (l1 ++ l2) d = (let? d' := parse_lines l1 d in parse_lines l2 d').
Proof. induction l1 as [|l l1 IH]; intros d; cbn [app parse_lines]; [reflexivity|]. destruct (match_pats patterns l d); cbn [rbind]; [apply IH|reflexivity]. Qed.

Lemma plain_parse lines d : plain lines -> exists d', parse_lines lines d = Ok d'.
Proof.
  intros (P1 & P2 & _). apply parse_ok. intros line p key v Hl Hp Hs. destruct (pattern_label _ _ Hp) as [[-> ->]|(label & -> & Hlab)].
  - apply (P2 line v Hl). now apply freq_iff.
  - apply (P1 line key label v Hl Hlab). now apply (label_iff _ _ Hlab).
Qed.

Lemma hex_refuted_l : exists line v n, line_says "Stepping:" line v /\ S_TpmiCmd.typed_value v n /\
  forall l1 l2 cpus h, plain l1 -> plain l2 -> get_cpu_info (Ok (l1 ++ line :: l2)) (Ok cpus) (Ok h) = Exn EValue.
Proof.
  exists (s2l "Stepping: 0x1"), (s2l "0x1"), 1. split; [apply label_match; [discriminate|apply (labels_ok "stepping" "Stepping:"); cbn; tauto|vm_compute; reflexivity]|].
  split; [refine (S_TpmiCmd.V_hex (s2l "1") _ _); [discriminate|constructor; [|constructor]; unfold S_Tpmi.is_hex; vm_compute; lia]|].
  intros l1 l2 cpus h P1 P2. unfold get_cpu_info. cbn [rbind]. rewrite parse_app. destruct (plain_parse l1 [] P1) as (d & ->). cbn [rbind parse_lines].
  assert (E : forall d, match_pats patterns (s2l "Stepping: 0x1") d = Exn EValue) by (intros d'; vm_compute; reflexivity).
  now rewrite E.
Qed.

(** The warning is for hybrid processors without E-cores; it is not given when there are P-cores. *)
Definition xhyb : info := [("hybrid"%string, IBool true)].
Definition xmoment : moment := Moment (Ok (s2l "" ++ [newline])) (Ok (s2l "0-7" ++ [newline])) (Ok (s2l "6.1.0")) (Ok []).

Lemma x_old : old_kernel (s2l "6.1.0").
Proof. exists (KV 6 1 0 None []). split; [vm_compute; reflexivity|]. apply B_minor. lia. Qed.

Lemma warning_refuted_l : exists d m v, hybrid d /\ no_cpus (m_atom m) /\ read_range (m_core m) = Ok [0; 1; 2; 3; 4; 5; 6; 7] /\
  m_uname m = Ok v /\ old_kernel v /\ m_offline m = Ok [] /\ forall n, f_warn (after_all d (repeat m n)) = [].
Proof.
  exists xhyb, xmoment, (s2l "6.1.0"). split; [reflexivity|]. split; [vm_compute; reflexivity|]. split; [vm_compute; reflexivity|].
  split; [reflexivity|]. split; [exact x_old|]. split; [reflexivity|].
  assert (E : at_moment xhyb xmoment f_init = f_init) by (vm_compute; reflexivity).
  assert (En : forall n, fold_left (fun s m => at_moment xhyb m s) (repeat xmoment n) f_init = f_init).
  { induction n as [|n IH]; [reflexivity|]. cbn [repeat fold_left]. now rewrite E. }
  intros n. unfold after_all. now rewrite En.
Qed.

(** Two CPUs without either kind: the warning, once. *)
Example x_warned : f_warn (after_all xhyb (repeat (Moment (Ok []) (Ok []) (Ok (s2l "6.1.0")) (Ok [])) 3)) = [WBug (s2l "6.1.0")].
Proof. vm_compute. reflexivity. Qed.

Example x_lists : list_file (s2l "8-9" ++ [newline]) [8; 9] -> list_file (s2l "0-3" ++ [newline]) [0; 1; 2; 3] ->
  get_hybrid_cpus xhyb (Ok (s2l "8-9" ++ [newline])) (Ok (s2l "0-3" ++ [newline])) = Ok ([8; 9], [0; 1; 2; 3]).
Proof. intros _ _. vm_compute. reflexivity. Qed.

(** Caches. *)
Definition xl1 : jcache := [(s2l "name", JStr (s2l "L1d")); (s2l "one-size", JStr (s2l "49152")); (s2l "ways", JInt 12); (s2l "alloc-policy", JNull)].
Definition xl2 : jcache := [(s2l "name", JStr (s2l "L2")); (s2l "one-size", JStr (s2l "2097152"))].
Example x_caches : get_cache_info (Ok (Some [xl1; xl2])) [] =
  let cs := [(JStr (s2l "L1d"), [(s2l "name", JStr (s2l "L1d")); (s2l "one-size", JInt 49152); (s2l "ways", JInt 12); (s2l "alloc-policy", JNull)]);
             (JStr (s2l "L2"), [(s2l "name", JStr (s2l "L2")); (s2l "one-size", JInt 2097152)])] in (Ok cs, cs).
Proof. vm_compute. reflexivity. Qed.

Example x_cache_reads : cache_reads xl2 (JStr (s2l "L2"), [(s2l "name", JStr (s2l "L2")); (s2l "one-size", JInt (1 * spelled (s2l "2097152")))]).
Proof.
  split; [cbn; tauto|]. split; [cbn; constructor; [cbn; intuition discriminate|constructor; [intros []|constructor]]|].
  constructor; [split; [reflexivity|apply JR_word; unfold letter; vm_compute; lia]|].
  constructor; [split; [reflexivity|]|constructor]. apply JR_num.
  replace (s2l "2097152") with ([] ++ [] ++ s2l "2097152" ++ []) at 1 by reflexivity.
  apply (Integer [] [] 1 (s2l "2097152") []); [constructor|constructor|constructor|discriminate|]. repeat constructor; vm_compute; lia.
Qed.

(** After a failure the next call succeeds with what had been read by then. *)
Lemma caches_refuted_l : exists l part, fst (get_cache_info (Ok (Some l)) []) = Exn EError /\
  (forall out, fst (get_cache_info out (snd (get_cache_info (Ok (Some l)) []))) = Ok part) /\
  (length part < length l)%nat.
Proof.
  exists [xl1; xl1; xl2]. eexists. split; [vm_compute; reflexivity|]. split; [intros out; vm_compute; reflexivity|]. cbn. lia.
Qed.

(** Dies. *)
Example x_dies : dies_to_str [(0, [0; 1; 2]); (1, [4]); (2, [1; 3])] = Ok (s2l "package 0 dies 0-2, package 1 die 4, and package 2 dies 1,3").
Proof. vm_compute. reflexivity. Qed.
