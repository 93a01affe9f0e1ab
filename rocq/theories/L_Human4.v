(** Lemmas about parse_human(). *)
From Coq Require Import QArith Qabs Qpower Qround ZifyBool Lqa.
From Verif Require Import Base L_Base M_Text S_Text L_Text M_Human S_Human L_Human L_Human2 L_Human3.

Lemma spaces_b t : spaces t <-> Forall (fun c => is_space c = true) t.
Proof. unfold spaces. rewrite !Forall_forall. unfold is_space. split; intros H c Hc; specialize (H c Hc); lia. Qed.
Lemma strip_nil t : strip t = [] <-> Forall (fun c => is_space c = true) t.
Proof.
  split.
  - intros E. destruct (strip_inv is_space t) as (b1 & b2 & Et & H1 & H2).
    change (strip_by is_space t) with (strip t) in Et. rewrite E in Et. cbn in Et. rewrite Et.
    rewrite forallb_forall in H1, H2. apply Forall_forall. intros c Hc. apply in_app_or in Hc as [Hc|Hc]; auto.
  - intros H. unfold strip, strip_by.
    assert (E : lstrip_by is_space t = []).
    { induction H as [|c t Hc H IH]; [reflexivity|]. cbn. now rewrite Hc. }
    rewrite E. reflexivity.
Qed.

(** *** Rounding *)
Lemma qround_near q : (Qabs (inject_Z (qround q) - q) <= 1 # 2)%Q.
Proof.
  apply Qabs_Qle_condition. unfold qround. destruct q as (n & d). cbn [Qnum Qden].
  pose proof (Z.div_mod n (Zpos d)) as H. pose proof (Z.mod_pos_bound n (Zpos d)) as H'.
  set (f := n / Zpos d) in *. set (r := n mod Zpos d) in *.
  assert (Hd : 0 < Zpos d) by lia. specialize (H ltac:(lia)). specialize (H' Hd).
  assert (K : forall z, (2 * (Zpos d * z - n) <= Zpos d /\ - Zpos d <= 2 * (Zpos d * z - n)) ->
    (- (1 # 2) <= inject_Z z - (n # d) /\ inject_Z z - (n # d) <= 1 # 2)%Q).
  { intros z Hz. unfold Qle, Qminus, Qplus, Qopp, inject_Z; cbn [Qnum Qden].
    change (Zpos (1 * d)) with (Zpos d). split; nia. }
  apply K. destruct (Z.compare_spec (2 * r) (Zpos d)) as [E|E|E].
  - destruct (Z.even f); split; nia.
  - split; nia.
  - split; nia.
Qed.

(** *** Units *)
Lemma separate_unit unit base f : si_unit unit base f ->
  exists sp, separate_si_prefix unit = (sp, base) /\
    match sp with None => unit = base /\ (f == 1)%Q | Some (c, g) => unit = c :: base /\ (g == f)%Q end.
Proof.
  intros (Hb & p & k & Hp & -> & ->). pose proof Hb as Hb'. cbn in Hb.
  destruct Hb as [<-|[<-|[<-|[<-|[]]]]]; cbn in Hp;
    destruct Hp as [Hp|[Hp|[Hp|[Hp|[Hp|[Hp|[Hp|[Hp|[Hp|[Hp|[]]]]]]]]]]]; injection Hp as <- <-;
    eexists; (split; [vm_compute; reflexivity|]); cbv beta iota; (split; [reflexivity|vm_compute; reflexivity]).
Qed.
Lemma si_unit_base unit base f : si_unit unit base f -> base_unit base.
Proof. intros H. apply H. Qed.

Definition tscale (target : option str) (base : str) : res (option Q) :=
  match target with
  | None => Ok None
  | Some tu => let (tp, tb) := separate_si_prefix tu in
               if str_eqb tb base then Ok (option_map snd tp) else Exn EError
  end.
Lemma tscale_ok target base tf : base_unit base -> target_unit target base tf ->
  exists ts, tscale target base = Ok ts /\
    forall r, (match ts with Some f => r / f | None => r end == r / tf)%Q.
Proof.
  intros Hb H. destruct target as [tu|].
  - cbn in H. destruct (separate_unit _ _ _ H) as (sp & E & Hs). cbn [tscale]. rewrite E.
    rewrite (proj2 (str_eqb_spec base base) eq_refl). eexists. split; [reflexivity|]. intros r.
    destruct sp as [(c & g)|]; cbn [option_map snd].
    + destruct Hs as (_ & ->). reflexivity.
    + destruct Hs as (_ & ->). field.
  - cbn in H. subst tf. exists None. split; [reflexivity|]. intros r. field.
Qed.

(** *** Amounts *)
Lemma number_unique v q q' : number v q -> number v q' -> (q == q')%Q.
Proof.
  intros H H'. apply py_float_number in H as (a & Ea & Ha). apply py_float_number in H' as (b & Eb & Hb).
  rewrite Ea in Eb. injection Eb as ->. now rewrite <- Ha.
Qed.
Definition tok_of (p : part) (k : str * Q) : Prop := fst k = p_unit p /\ (snd k == p_amount p)%Q.

Lemma amounts_last p : number (p_text p) (p_amount p) -> exists k, amounts [pair_of p] = Ok [k] /\ tok_of p k.
Proof.
  intros H. cbn [amounts pair_of]. pose proof (py_float_number _ _ H) as (q & E & Hq). rewrite E.
  destruct (is_int (p_text p)) eqn:Ei.
  - destruct (is_int_number _ _ H Ei) as (z & Ez & Hz). rewrite Ez. eexists. split; [reflexivity|]. now split.
  - eexists. split; [reflexivity|]. now split.
Qed.
Lemma amounts_cons sp v e l : amounts ((sp, v) :: e :: l) =
  match py_int v with None => Exn EError | Some z => let? r := amounts (e :: l) in Ok ((sp, inject_Z z) :: r) end.
Proof. reflexivity. Qed.
Lemma amounts_ok ps : Forall (fun p => number (p_text p) (p_amount p)) ps -> Forall whole (removelast ps) ->
  exists toks, amounts (map pair_of ps) = Ok toks /\ Forall2 tok_of ps toks.
Proof.
  induction ps as [|p ps IH]; intros Hn Hw.
  - exists []. split; [reflexivity|constructor].
  - inversion Hn as [|p' l' Hp Hn']; subst. destruct ps as [|p2 ps].
    + destruct (amounts_last p Hp) as (k & E & Hk). exists [k]. split; [exact E|]. constructor; [exact Hk|constructor].
    + change (removelast (p :: p2 :: ps)) with (p :: removelast (p2 :: ps)) in Hw.
      inversion Hw as [|p' l' (z & Hz) Hw']; subst. destruct (IH Hn' Hw') as (toks & E & HF).
      cbn [map] in *. unfold pair_of at 1. rewrite amounts_cons, (py_int_text _ _ Hz), E. cbn [rbind].
      eexists. split; [reflexivity|]. constructor; [|exact HF]. split; [reflexivity|]. cbn.
      apply integer_number in Hz as (q & H1 & H2). rewrite <- H2. eapply number_unique; eauto.
Qed.
Lemma amounts_sound (l : list (str * str)) toks : Forall (fun e : str * str => ~ In "_"%char (snd e)) l -> amounts l = Ok toks ->
  exists ps, map pair_of ps = l /\ Forall (fun p => number (p_text p) (p_amount p)) ps /\ Forall whole (removelast ps) /\
    Forall2 tok_of ps toks /\ map p_factor ps = map (fun _ => 1%Q) l.
Proof.
  revert toks. induction l as [|(sp & v) l IH]; intros toks Hu E.
  - injection E as <-. exists []. cbn. repeat split; constructor.
  - inversion Hu as [|e' l' H1 Hu']; subst. destruct l as [|e2 l].
    + cbn [amounts] in E. destruct (py_float v) as [q|] eqn:Ef; [|discriminate].
      destruct (py_float_sound _ _ Ef) as (q' & Hq & Eq).
      exists [Part v sp q' 1%Q]. cbn [map pair_of p_unit p_text removelast p_factor]. split; [reflexivity|].
      split; [constructor; [exact Hq|constructor]|]. split; [constructor|]. split; [|reflexivity].
      destruct (is_int v) eqn:Ei.
      * destruct (is_int_number _ _ Hq Ei) as (z & Ez & Hz). rewrite Ez in E. injection E as <-.
        constructor; [|constructor]. now split.
      * injection E as <-. constructor; [|constructor]. now split.
    + rewrite amounts_cons in E. destruct (py_int v) as [z|] eqn:Ez; [|discriminate].
      destruct (amounts (e2 :: l)) as [r|] eqn:Er; [|cbn in E; discriminate E]. cbn [rbind] in E. injection E as <-.
      destruct (IH r Hu' eq_refl) as (ps & E1 & E2 & E3 & E4 & E5).
      apply py_int_sound in Ez as Hz; [|exact H1]. destruct (integer_number _ _ Hz) as (q & Hq & Eq).
      exists (Part v sp q 1%Q :: ps). split; [cbn [map]; now rewrite E1|].
      split; [constructor; [exact Hq|exact E2]|]. split.
      * destruct ps as [|p2 ps]; [discriminate|]. change (Forall whole (Part v sp q 1 :: removelast (p2 :: ps))).
        constructor; [|exact E3]. now exists z.
      * split; [|cbn [map p_factor]; now rewrite E5]. constructor; [|exact E4]. split; [reflexivity|]. cbn. now rewrite Eq.
Qed.

(** *** Adding up *)
Lemma add_up_gen base ps toks : base_unit base -> Forall2 tok_of ps toks ->
  Forall (fun p => factor base (p_unit p) (p_factor p)) ps ->
  forall a, exists r, fold_left (fun acc e => let? a := acc in
                          match dget str_eqb (scalers base) (fst e) with
                          | Some f => Ok (a + snd e * f)%Q
                          | None => Exn EKey
                          end) toks (Ok a) = Ok r /\ (r == a + parts_total ps)%Q.
Proof.
  intros Hb HF. induction HF as [|p k ps toks (Hk1 & Hk2) HF IH]; intros Hf a.
  - exists a. split; [reflexivity|]. cbn. ring.
  - inversion Hf as [|p' l' Hp Hf']; subst. cbn [fold_left rbind].
    destruct (factor_scaler _ _ _ Hb Hp) as (_ & g & Eg & Hg). unfold scaler_of in Eg. rewrite Hk1, Eg.
    destruct (IH Hf' (a + snd k * g)%Q) as (r & E & Hr). exists r. split; [exact E|].
    rewrite Hr, Hk2, Hg. cbn [parts_total fold_right]. fold (parts_total ps). ring.
Qed.
Lemma add_up_ok base ps toks : base_unit base -> Forall2 tok_of ps toks ->
  Forall (fun p => factor base (p_unit p) (p_factor p)) ps ->
  exists r, add_up (scalers base) toks = Ok r /\ (r == parts_total ps)%Q.
Proof.
  intros Hb HF Hf. destruct (add_up_gen base ps toks Hb HF Hf 0%Q) as (r & E & Hr). exists r. split; [exact E|].
  rewrite Hr. ring.
Qed.

(** *** What is not a number *)
Lemma is_num_sound s : ~ In "_"%char s -> is_num s = true -> exists q, number s q.
Proof.
  intros Hu. unfold is_num. destruct (py_int s) as [z|] eqn:E.
  - intros _. destruct (py_int_float _ _ Hu E) as (q & Eq & _). apply py_float_sound in Eq as (q' & H & _). eauto.
  - destruct (py_float s) as [q|] eqn:Ef; [|discriminate]. intros _. apply py_float_sound in Ef as (q' & H & _). eauto.
Qed.
Lemma number_is_num s q : number s q -> is_num s = true.
Proof.
  intros H. unfold is_num. destruct (py_int s); [reflexivity|]. destruct (py_float_number _ _ H) as (q' & E & _).
  now rewrite E.
Qed.
Lemma spec_last x : spec_ok x -> exists c, In c x /\ ~ number_char c.
Proof.
  assert (K : forall c, first_char c -> c <> "E"%char -> ~ number_char c).
  { intros c Hc Hn Hk. refine (number_char_no c c Hk _ eq_refl). unfold first_char in Hc.
    destruct Hc as [Hc|Hc]; [congruence|].
    repeat (destruct Hc as [<-|Hc]; [cbn; tauto|]). destruct Hc. }
  assert (K2 : forall c, later_char c -> ~ number_char c).
  { intros c Hc Hk. refine (number_char_no c c Hk _ eq_refl). unfold later_char in Hc.
    repeat (destruct Hc as [<-|Hc]; [cbn; tauto|]). destruct Hc. }
  destruct x as [|c t]; [intros []|]. intros (Hc & Ht & HE). destruct (ascii_dec c "E") as [->|N].
  - specialize (HE eq_refl). destruct t as [|d t]; [congruence|]. inversion Ht; subst. exists d. split; [right; now left|auto].
  - exists c. split; [now left|auto].
Qed.
Lemma spec_no_us x : spec_ok x -> ~ In "_"%char x.
Proof.
  destruct x as [|c t]; [intros []|]. intros (Hc & Ht & _) [->|H].
  - revert Hc. now apply in_b.
  - rewrite Forall_forall in Ht. specialize (Ht _ H). revert Ht. now apply in_b.
Qed.
Lemma spaces_no_us t : Forall (fun c => is_space c = true) t -> ~ In "_"%char t.
Proof. intros H Hi. rewrite Forall_forall in H. specialize (H _ Hi). discriminate. Qed.

Definition good_parts base ps : Prop :=
  parts_ok base ps /\ subseq (map p_unit ps) (map fst (scalers base)) /\ ((length ps <= 1)%nat \/ base = s2l "s").

Lemma parts_no_us ps : Forall (fun p => exists q, number (p_text p) q) ps -> Forall (fun p => spec_ok (p_unit p)) ps ->
  ~ In "_"%char (parts_text ps).
Proof.
  induction ps as [|p ps IH]; intros Hn Hs; [intros []|].
  inversion Hn as [|p' l' (q & Hq) Hn']; inversion Hs as [|p'' l'' Hp Hs']; subst.
  unfold parts_text. cbn [map concat]. rewrite !in_app_iff. intros [[H|H]|H].
  - eapply number_no_us; eauto.
  - eapply spec_no_us; eauto.
  - now apply IH.
Qed.
Lemma good_nums base ps : good_parts base ps -> Forall (fun p => exists q, number (p_text p) q) ps.
Proof. intros ((H & _) & _). revert H. apply Forall_impl. intros p (H & _). eauto. Qed.
Lemma good_specs base ps : base_unit base -> good_parts base ps -> Forall (fun p => spec_ok (p_unit p)) ps.
Proof.
  intros Hb (_ & Hs & _). apply subseq_incl in Hs. destruct (base_specs base Hb) as (H & _).
  rewrite Forall_forall in H |- *. intros p Hp. apply H, Hs. now apply in_map.
Qed.
Lemma good_not_num base ps t : base_unit base -> good_parts base ps -> ps <> [] -> spaces t ->
  is_num (parts_text ps ++ t) = false.
Proof.
  intros Hb Hg Hn Ht. apply spaces_b in Ht. destruct (is_num (parts_text ps ++ t)) eqn:E; [|reflexivity]. exfalso.
  apply is_num_sound in E as (q & Hq).
  - apply number_chars in Hq. rewrite Forall_forall in Hq. pose proof (good_specs _ _ Hb Hg) as Hs.
    destruct ps as [|p ps]; [congruence|]. inversion Hs as [|p' l' Hp _]; subst.
    destruct (spec_last _ Hp) as (c & Hc & Hc'). apply Hc', Hq. unfold parts_text. cbn [map concat].
    rewrite !in_app_iff. auto.
  - rewrite in_app_iff. intros [H|H].
    + revert H. apply parts_no_us; [eapply good_nums; eauto|eapply good_specs; eauto].
    + now apply spaces_no_us in H.
Qed.

(** The rest of parse_human(), from the text with a unit on. *)
Definition finish (text base : str) (ts : option Q) (integer : bool) : res hnum :=
  let? tokens := tokenize text (map fst (scalers base)) (multiple base) in
  let? r := add_up (scalers base) tokens in
  let r := match ts with Some f => (r / f)%Q | None => r end in
  Ok (if integer then HInt (qround r) else HFloat r).
Lemma parse_human_eq hval unit target integer sp base ts :
  separate_si_prefix unit = (sp, base) -> tscale target base = Ok ts ->
  parse_human hval unit target integer =
  finish (if is_num hval then hval ++ match sp with Some (c, _) => [c] | None => [] end ++ base else hval) base ts integer.
Proof. intros E1 E2. unfold parse_human, finish. rewrite E1. fold (tscale target base). rewrite E2. reflexivity. Qed.

Lemma answer_ok integer r q q' : (r == q')%Q -> (q' == q)%Q ->
  answer integer (if integer then HInt (qround r) else HFloat r) q.
Proof.
  intros H1 H2. assert (H : (r == q)%Q) by now rewrite H1. destruct integer; cbn [answer]; (split; [reflexivity|]).
  - setoid_replace (inject_Z (qround r) - q)%Q with (inject_Z (qround r) - r)%Q by now rewrite <- H. apply qround_near.
  - exact H.
Qed.

Lemma tokenize_good base ps t : base_unit base -> good_parts base ps -> spaces t ->
  exists toks, tokenize (parts_text ps ++ t) (map fst (scalers base)) (multiple base) = Ok toks /\ Forall2 tok_of ps toks.
Proof.
  intros Hb Hg Ht. apply spaces_b in Ht. pose proof (good_nums _ _ Hg) as Hn.
  destruct Hg as ((Hp & Hw) & Hs & Hm). unfold tokenize.
  rewrite (find_specs_parts _ (base_specs base Hb) ps t Hs Hn Ht).
  rewrite (proj2 (strip_nil t) Ht).
  assert (E : (negb (multiple base) && Nat.ltb 1 (length (map pair_of ps)))%bool = false).
  { rewrite map_length. destruct Hm as [Hm| ->]; [|reflexivity].
    apply andb_false_iff. right. apply Nat.ltb_ge. exact Hm. }
  rewrite E. apply amounts_ok; [|exact Hw]. revert Hp. apply Forall_impl. now intros p (H & _).
Qed.
Lemma finish_good base ps t ts tf integer : base_unit base -> good_parts base ps -> spaces t ->
  (forall r, (match ts with Some f => r / f | None => r end == r / tf)%Q) ->
  exists r, finish (parts_text ps ++ t) base ts integer = Ok r /\ answer integer r (parts_total ps / tf).
Proof.
  intros Hb Hg Ht Hts. destruct (tokenize_good base ps t Hb Hg Ht) as (toks & E & HF).
  unfold finish. rewrite E. cbn [rbind].
  assert (Hf : Forall (fun p => factor base (p_unit p) (p_factor p)) ps).
  { destruct Hg as ((Hp & _) & _). revert Hp. apply Forall_impl. now intros p (_ & H). }
  destruct (add_up_ok base ps toks Hb HF Hf) as (r & Er & Hr). rewrite Er. cbn [rbind].
  eexists. split; [reflexivity|]. apply answer_ok with (q' := (r / tf)%Q); [apply Hts|]. now rewrite Hr.
Qed.

Lemma parse_good unit base f target tf integer ps t : si_unit unit base f -> target_unit target base tf ->
  good_parts base ps -> ps <> [] -> spaces t ->
  exists r, parse_human (parts_text ps ++ t) unit target integer = Ok r /\ answer integer r (parts_total ps / tf).
Proof.
  intros Hu Ht Hg Hne Hsp. pose proof (si_unit_base _ _ _ Hu) as Hb.
  destruct (separate_unit _ _ _ Hu) as (sp & E1 & _). destruct (tscale_ok _ _ _ Hb Ht) as (ts & E2 & Hts).
  rewrite (parse_human_eq _ _ _ _ _ _ _ E1 E2), (good_not_num base) by auto. now apply finish_good.
Qed.
Lemma single_good base v q sp g : base_unit base -> number v q -> factor base sp g -> good_parts base [Part v sp q g].
Proof.
  intros Hb Hn Hf. split; [|split].
  - split; [|constructor]. constructor; [|constructor]. now split.
  - cbn [map p_unit]. destruct (factor_scaler _ _ _ Hb Hf) as (Hi & _). clear Hf.
    induction (map fst (scalers base)) as [|x L IH]; [destruct Hi|]. destruct Hi as [<-|Hi].
    + constructor. constructor.
    + constructor. auto.
  - left. cbn. lia.
Qed.
Lemma answer_eq integer r q q' : (q == q')%Q -> answer integer r q -> answer integer r q'.
Proof. intros E. destruct r; cbn [answer]; now rewrite E. Qed.
Lemma parse_single_l unit base f target tf integer v q sp g t : si_unit unit base f -> target_unit target base tf ->
  number v q -> factor base sp g -> spaces t ->
  exists r, parse_human (v ++ sp ++ t) unit target integer = Ok r /\ answer integer r (q * g / tf).
Proof.
  intros Hu Ht Hn Hf Hsp.
  destruct (parse_good unit base f target tf integer [Part v sp q g] t) as (r & E & Ha); auto.
  - apply single_good; auto. eapply si_unit_base; eauto.
  - discriminate.
  - exists r. split; [rewrite <- E; unfold parts_text; cbn; now rewrite !app_nil_r, <- app_assoc|].
    revert Ha. apply answer_eq. cbn [parts_total fold_right p_amount p_factor]. now rewrite Qplus_0_r.
Qed.
Lemma parse_bare_l unit base f target tf integer v q : si_unit unit base f -> target_unit target base tf ->
  number v q ->
  exists r, parse_human v unit target integer = Ok r /\ answer integer r (q * f / tf).
Proof.
  intros Hu Ht Hn. pose proof (si_unit_base _ _ _ Hu) as Hb.
  destruct (separate_unit _ _ _ Hu) as (sp & E1 & Hs). destruct (tscale_ok _ _ _ Hb Ht) as (ts & E2 & Hts).
  rewrite (parse_human_eq _ _ _ _ _ _ _ E1 E2), (number_is_num _ _ Hn).
  assert (Hf : factor base unit f). { destruct Hu as (_ & p & k & Hp & -> & ->). now constructor. }
  assert (Eu : match sp with Some (c, _) => [c] | None => [] end ++ base = unit).
  { destruct sp as [(c & g)|]; destruct Hs as (-> & _); reflexivity. }
  rewrite Eu. destruct (finish_good base [Part v unit q f] [] ts tf integer Hb) as (r & E & Ha).
  - now apply single_good.
  - constructor.
  - exact Hts.
  - exists r. unfold parts_text in E. cbn in E. rewrite !app_nil_r in E. split; [exact E|].
    revert Ha. apply answer_eq. cbn. rewrite Qplus_0_r. reflexivity.
Qed.

(** *** Whatever is accepted is an amount *)
Lemma parse_meaning_l hval unit base f target tf integer r : si_unit unit base f -> target_unit target base tf ->
  ~ In "_"%char hval -> parse_human hval unit target integer = Ok r ->
  (exists q, number hval q /\ answer integer r (q * f / tf)) \/
  (exists ps t, parts_ok base ps /\ spaces t /\ ((length ps <= 1)%nat \/ base = s2l "s") /\ hval = parts_text ps ++ t /\
     answer integer r (parts_total ps / tf)).
Proof.
  intros Hu Ht Hus E. pose proof (si_unit_base _ _ _ Hu) as Hb.
  destruct (separate_unit _ _ _ Hu) as (sp & E1 & Hs). destruct (tscale_ok _ _ _ Hb Ht) as (ts & E2 & Hts).
  destruct (is_num hval) eqn:En.
  - left. destruct (is_num_sound _ Hus En) as (q & Hq). exists q. split; [exact Hq|].
    destruct (parse_bare_l unit base f target tf integer hval q Hu Ht Hq) as (r' & E' & Ha). congruence.
  - right. rewrite (parse_human_eq _ _ _ _ _ _ _ E1 E2), En in E. unfold finish in E.
    destruct (tokenize hval (map fst (scalers base)) (multiple base)) as [toks|] eqn:Et; [|discriminate].
    cbn [rbind] in E. destruct (add_up (scalers base) toks) as [x|] eqn:Ea; [|discriminate]. cbn [rbind] in E.
    unfold tokenize in Et. destruct (find_specs (map fst (scalers base)) hval) as (found & rest) eqn:Ef.
    destruct (strip rest) eqn:Er; [|discriminate]. apply strip_nil in Er.
    destruct (negb (multiple base) && Nat.ltb 1 (length found))%bool eqn:Em; [discriminate|].
    apply find_specs_sound in Ef as (Eh & Hsub).
    apply amounts_sound in Et as (ps0 & P1 & P2 & P3 & P4 & _).
    2:{ apply Forall_forall. intros e He Hi. apply Hus. rewrite Eh. apply in_or_app. left. apply in_concat.
        exists (snd e ++ fst e). split; [now apply (in_map (fun e => snd e ++ fst e))|]. apply in_or_app. now left. }
    assert (X : exists ps, map pair_of ps = found /\ Forall (fun p => number (p_text p) (p_amount p)) ps /\
      Forall whole (removelast ps) /\ Forall2 tok_of ps toks /\ Forall (fun p => factor base (p_unit p) (p_factor p)) ps).
    { assert (Hin : forall e, In e found -> factorb base (fst e)).
      { intros e He. apply scaler_factor; [exact Hb|]. apply (subseq_incl _ _ Hsub). now apply in_map. }
      clear - P1 P2 P3 P4 Hin. revert found toks P1 P2 P3 P4 Hin. induction ps0 as [|p ps IH]; intros found toks P1 P2 P3 P4 Hin.
      - exists []. repeat split; try constructor; auto.
      - destruct found as [|e found]; [discriminate|]. cbn [map] in P1. injection P1 as Pe P1.
        inversion P2 as [|p' l' N2 P2']; inversion P4 as [|p'' k l'' toks' T4 P4']; subst.
        assert (P3' : Forall whole (removelast ps)).
        { destruct ps as [|p2 ps]; [constructor|]. change (Forall whole (p :: removelast (p2 :: ps))) in P3. now inversion P3. }
        destruct (IH (map pair_of ps) toks' eq_refl P2' P3' P4') as (qs & Q1 & Q2 & Q3 & Q4 & Q5).
        { intros e He. apply Hin. now right. }
        destruct (Hin (pair_of p) (or_introl eq_refl)) as (g & g' & _ & Hg & _).
        exists (Part (p_text p) (p_unit p) (p_amount p) g :: qs). split; [cbn [map]; now rewrite Q1|].
        split; [constructor; auto|]. split; [|split; constructor; auto].
        destruct qs as [|q2 qs]; [constructor|]. destruct ps as [|p2 ps]; [discriminate|].
        change (Forall whole (p :: removelast (p2 :: ps))) in P3. inversion P3 as [|p' l' W _]; subst.
        change (Forall whole (Part (p_text p) (p_unit p) (p_amount p) g :: removelast (q2 :: qs))). constructor; auto. }
    destruct X as (ps & Q1 & Q2 & Q3 & Q4 & Q5).
    exists ps, rest. split; [|split; [|split; [|split]]].
    + split; [|exact Q3]. rewrite Forall_forall in *. intros p Hp. split; auto.
    + now apply spaces_b.
    + apply andb_false_iff in Em as [Em|Em].
      * right. apply negb_false_iff in Em. unfold multiple in Em. now apply str_eqb_spec.
      * left. apply Nat.ltb_ge in Em. rewrite <- Q1, map_length in Em. exact Em.
    + rewrite Eh, <- Q1, map_map. reflexivity.
    + destruct (add_up_ok base ps toks Hb Q4 Q5) as (y & Ey & Hy). rewrite Ey in Ea. injection Ea as ->.
      injection E as <-. apply answer_ok with (q' := (x / tf)%Q); [apply Hts|]. now rewrite Hy.
Qed.
