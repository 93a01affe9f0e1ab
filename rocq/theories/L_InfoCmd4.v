(** Lemmas for C71: what the 'info' commands print about properties. *)
From Coq Require Import Ascii String ZifyBool.
From Verif Require Import Base L_Base L_Monad M_CPUInfo S_CPUInfo L_CPUInfo L_CPUInfo2 M_Text S_Text L_Text L_Remote M_Human M_Props S_Props L_Props L_Props2 L_Props3
  M_OpTarget M_Print S_Print L_Print L_Print2 L_Print3 L_Print4 L_Print5 M_InfoCmd S_InfoCmd L_InfoCmd L_InfoCmd2 L_InfoCmd3.

Section Props.
  Context {St V : Type}.
  Variable cls : pclass St V.
  Hypothesis veqb_spec : forall x y, pc_veqb cls x y = true <-> x = y.
  Variable subs : Z -> list Z.
  Variable tab : list (str * Z).
  Variable types : Z -> ptype.
  Variable global : Z -> bool.
  Variable blank : V -> bool.
  Hypothesis tab_nodup : NoDup (map fst tab).

  Lemma expand_known l : (forall p, In p l -> exists d, dget Z.eqb (pc_props cls) p = Some d) ->
    expand_subprops cls subs l = flat_map (fun p => p :: subs p) l.
  Proof.
    induction l as [|p t IH]; cbn [expand_subprops flat_map]; intros H; [reflexivity|]. destruct (H p (or_introl eq_refl)) as (d & ->).
    rewrite IH by (intros q I; apply H; now right). reflexivity.
  Qed.

  Lemma expand_In l p : In p l -> In p (expand_subprops cls subs l).
  Proof. induction l as [|q t IH]; cbn [expand_subprops]; intros I; [destruct I|]. destruct I as [<-|I]; [now left|]. right. apply in_or_app. right. now apply IH. Qed.

  Definition pnames_of (oargs : option (list Z)) : option (list Z) := match oargs with None => None | Some l => Some (expand_subprops cls subs l) end.

  Lemma norm_names pnames names : normalize_pnames (pc_props cls) pnames false = Ok names ->
    names = asked_pnames (pc_props cls) pnames /\ (forall l, pnames = Some l -> forall p, In p l -> exists d, dget Z.eqb (pc_props cls) p = Some d).
  Proof.
    unfold normalize_pnames. intros H. destruct pnames as [l|]; cbn [asked_pnames].
    - match type of H with rbind (rbind ?r _) _ = _ => destruct r as [u|] eqn:E end; cbn [rbind] in H; [|discriminate H]. injection H as <-.
      split; [reflexivity|]. intros l' [= <-] p I. revert u E. induction l as [|q t IH]; [destruct I|]. cbn [rmap]. intros u E.
      destruct (dget Z.eqb (pc_props cls) q) as [d|] eqn:Eq; cbn [rbind] in E; [|discriminate E].
      match type of E with rbind ?r _ = _ => destruct r as [ys|] eqn:E2 end; cbn [rbind] in E; [|discriminate E].
      destruct I as [<-|I]; [eauto|exact (IH I _ eq_refl)].
    - cbn [rbind] in H. injection H as <-. split; [reflexivity|discriminate].
  Qed.

  Lemma names_info oargs names : normalize_pnames (pc_props cls) (pnames_of oargs) false = Ok names -> names = info_names (pc_props cls) subs oargs.
  Proof.
    intros H. destruct (norm_names _ _ H) as (-> & H2). destruct oargs as [l|]; cbn [pnames_of asked_pnames info_names] in *; [|reflexivity].
    apply expand_known. intros p I. apply (H2 _ eq_refl). now apply expand_In.
  Qed.

  Lemma aggr_ok mnames oargs skip s a s' : one_value_per_cpu cls -> NoDup (info_names (pc_props cls) subs oargs) ->
    aggr_props (pc_veqb cls) (get_prop_sname cls mnames) (pc_props cls) (pnames_of oargs) false skip s = (Ok a, s') ->
    exists l, reading (get_prop_sname cls mnames) (pc_props cls) false (info_names (pc_props cls) subs oargs) s l s' /\ no_repeats a /\
      (forall m p v k, listed a m p v k <-> was_read l m p v k /\ shown skip v) /\
      (forall m p sn v n, entry a m p sn v n -> each_once sn n).
  Proof.
    intros Hone ND H. unfold aggr_props in H. apply lift_bind in H as [(names & Hn & H)|(e & _ & [=] & _)].
    rewrite (names_info _ _ Hn) in H.
    destruct (build_partition _ veqb_spec _ _ _ _ _ _ _ _ ND H) as (l & R & NR & L & Once). exists l.
    split; [exact R|]. split; [exact NR|].
    assert (L' : forall m p v k, listed a m p v k <-> was_read l m p v k /\ shown skip v).
    { intros m p v k. rewrite L. unfold was_read. split; [intros (it & A & B & C)|intros ((it & A & B) & C)]; eauto. }
    split; [exact L'|].
    assert (RO : forall p items, In (p, items) l -> read_once items).
    { intros p items I. destruct (reading_items _ _ _ _ _ _ _ _ _ R I) as (ov & s1 & s2 & E). exact (sname_once cls _ _ _ _ _ _ Hone E). }
    intros m p sn v n (d & vals & I1 & I2 & I3). destruct NR as (_ & NR). destruct (NR _ _ I1) as (_ & _ & NR2).
    destruct (NR2 _ _ _ I2) as (_ & _ & NR3). destruct (NR3 _ _ I3) as (k & Hk).
    assert (Lk : listed a m p v k) by (exists d, sn, vals, n; auto). apply L in Lk. destruct Lk as (items & I & _).
    exact (proj1 (Once _ _ I (RO _ _ I)) _ _ _ _ _ _ I1 I2 I3).
  Qed.

  Lemma aggr_printable mnames names l s a s' skip : one_value_per_cpu cls -> wf_ci (pc_ci cls) ->
    reading (get_prop_sname cls mnames) (pc_props cls) false names s l s' ->
    (forall m p v k, listed a m p v k <-> was_read l m p v k /\ shown skip v) ->
    (forall m p sn v n, entry a m p sn v n -> each_once sn n) -> printable (pc_ci cls) a.
  Proof.
    intros Hone W R L Once m p sn v n He. split; [exact (Once _ _ _ _ _ He)|]. intros k Hk. destruct He as (d & vals & A & B & C).
    destruct (proj1 (L m p v k)) as ((items & I & J) & _); [exists d, sn, vals, n; auto|].
    destruct (reading_items _ _ _ _ _ _ _ _ _ R I) as (ov & s1 & s2 & E). exact (sname_exist cls _ _ _ _ _ _ Hone W E _ _ _ J).
  Qed.

  Lemma no_entries (a : @aggr V) : no_repeats a -> (forall m p v k, ~ listed a m p v k) -> a = [].
  Proof.
    intros (_ & NR) H. destruct a as [|(m, d) t]; [reflexivity|]. exfalso. destruct (NR m d (or_introl eq_refl)) as (Hd & _ & NR2).
    destruct d as [|(p, (sn, vals)) d']; [contradiction|]. destruct (NR2 p sn vals (or_introl eq_refl)) as (Hv & _ & NR3).
    destruct vals as [|(v, n) vs]; [contradiction|]. destruct (NR3 v n (or_introl eq_refl)) as (k & Hk).
    apply (H m p v k). exists ((p, (sn, (v, n) :: vs)) :: d'), sn, ((v, n) :: vs), n. split; [now left|]. split; [now left|]. split; [now left|exact Hk].
  Qed.

  Lemma some_entry (a : @aggr V) : no_repeats a -> a <> [] -> exists m p sn v n k, entry a m p sn v n /\ listed a m p v k.
  Proof.
    intros (_ & NR) H. destruct a as [|(m, d) t]; [contradiction|]. destruct (NR m d (or_introl eq_refl)) as (Hd & _ & NR2).
    destruct d as [|(p, (sn, vals)) d']; [contradiction|]. destruct (NR2 p sn vals (or_introl eq_refl)) as (Hv & _ & NR3).
    destruct vals as [|(v, n) vs]; [contradiction|]. destruct (NR3 v n (or_introl eq_refl)) as (k & Hk).
    exists m, p, sn, v, n, k. split.
    - exists ((p, (sn, (v, n) :: vs)) :: d'), ((v, n) :: vs). split; [now left|]. split; now left.
    - exists ((p, (sn, (v, n) :: vs)) :: d'), sn, ((v, n) :: vs), n. split; [now left|]. split; [now left|]. split; [now left|exact Hk].
  Qed.

  Lemma count_zero (a : @aggr V) : no_repeats a -> (count_vals a = 0 <-> a = []).
  Proof.
    intros NR. split; [|intros ->; reflexivity]. intros H. destruct a as [|x t] eqn:Ea; [reflexivity|]. exfalso. rewrite <- Ea in *.
    destruct (some_entry a NR) as (m & p & sn & v & n & _ & (d & vals & A & B & C) & _); [rewrite Ea; discriminate|].
    unfold count_vals in H. apply (Nat2Z.inj _ 0) in H. apply length_zero_iff_nil in H.
    match type of H with ?l = [] => assert (I : In (v, n) l) end.
    { apply in_flat_map. exists (m, d). split; [exact A|]. apply in_flat_map. exists (p, (sn, vals)). split; [exact B|exact C]. }
    rewrite H in I. destruct I.
  Qed.

  Definition skipping (oargs : option (list Z)) : bool := match oargs with None => true | _ => false end.

  Lemma shown_to oargs (v : option V) : shown (skipping oargs) v <-> to_show oargs v.
  Proof. unfold shown, to_show. destruct oargs; cbn [skipping]; intuition congruence. Qed.

  Lemma message_l oargs l (a : @aggr V) o n : no_repeats a -> (forall m p v k, listed a m p v k <-> was_read l m p v k /\ shown (skipping oargs) v) ->
    (n = 0 <-> a = []) -> with_message oargs l o (o :: nothing n).
  Proof.
    intros NR L Hn. unfold with_message, nothing. destruct (n =? 0) eqn:En.
    - left. split; [reflexivity|]. intros m p v k Hr Hs. assert (Ha : a = []) by (apply Hn; lia).
      assert (Lk : listed a m p v k) by (apply L; split; [exact Hr|now apply shown_to]). rewrite Ha in Lk. destruct Lk as (d & sn & vals & nn & [] & _).
    - right. split; [reflexivity|]. destruct (some_entry a NR) as (m & p & sn & v & nn & k & _ & Lk).
      + intros Ha. apply Hn in Ha. lia.
      + apply L in Lk as (Hr & Hs). exists m, p, v, k. split; [exact Hr|now apply shown_to].
  Qed.

  Lemma allowed_named t ms : allowed_mechs tab t = Ok ms -> mechs_named tab t ms.
  Proof.
    unfold allowed_mechs, mechs_named. destruct t as [|c t']; [intros [= <-]; reflexivity|]. intros H.
    match type of H with rbind ?r _ = _ => destruct r as [l|] eqn:E end; cbn [rbind] in H; [|discriminate H]. injection H as <-.
    split; [discriminate|]. intros ws Ht. now apply (mechs_ok tab tab_nodup _ ws Ht).
  Qed.

  (** The command, up to the printing. *)
  Lemma info_inv args s out s' : props_info cls subs tab types global blank args s = (Ok out, s') ->
    exists ms a o n, allowed_mechs tab (ia_mechs args) = Ok ms /\
      aggr_props (pc_veqb cls) (get_prop_sname cls ms) (pc_props cls) (pnames_of (ia_oargs args)) false (skipping (ia_oargs args)) s = (Ok a, s') /\
      out = o :: nothing n /\
      (if ia_yaml args then exists y, yaml_typed types a = Ok y /\ o = OPropsYaml y /\ n = Z.of_nat (length y)
       else exists l, print_human (pc_ci cls) global blank a = Ok l /\ o = OProps (skipping (ia_oargs args)) l /\ n = count_vals a).
  Proof.
    intros H. unfold props_info in H. apply lift_bind in H as [(ms & Hms & H)|(e & _ & [=] & _)].
    assert (H' : exists o n, print_props cls types global blank (ia_yaml args) (pnames_of (ia_oargs args)) ms (skipping (ia_oargs args)) (skipping (ia_oargs args)) s = (Ok (o, n), s') /\ out = o :: nothing n).
    { unfold mbind in H. destruct (ia_oargs args) as [l|]; cbn [pnames_of skipping].
      - destruct (print_props cls types global blank (ia_yaml args) (Some (expand_subprops cls subs l)) ms false false s) as ([(o, n)|e], s1) eqn:E; [|discriminate H].
        injection H as <- <-. now exists o, n.
      - destruct (print_props cls types global blank (ia_yaml args) None ms true true s) as ([(o, n)|e], s1) eqn:E; [|discriminate H].
        injection H as <- <-. now exists o, n. }
    clear H. destruct H' as (o & n & H & ->). unfold print_props in H. unfold mbind at 1 in H.
    destruct (aggr_props _ _ _ _ _ _ s) as ([a|e], s1) eqn:Ea; [|discriminate H].
    exists ms, a, o, n. split; [exact Hms|]. destruct (ia_yaml args).
    - apply lift_bind in H as [(y & Hy & H)|(e & _ & [=] & _)]. injection H as <- <- <-. split; [exact Ea|]. split; [reflexivity|]. now exists y.
    - apply lift_bind in H as [(l & Hl & H)|(e & _ & [=] & _)]. injection H as <- <- <-. split; [exact Ea|]. split; [reflexivity|]. now exists l.
  Qed.

  Lemma props_human mechs oargs s out s' : one_value_per_cpu cls -> wf_ci (pc_ci cls) -> even_dies (pc_ci cls) -> (forall k, exists_num (pc_ci cls) k -> nonneg_num k) ->
    NoDup (info_names (pc_props cls) subs oargs) ->
    props_info cls subs tab types global blank (IA false mechs oargs) s = (Ok out, s') ->
    exists ms l lines, mechs_named tab mechs ms /\
      reading (get_prop_sname cls ms) (pc_props cls) false (info_names (pc_props cls) subs oargs) s l s' /\
      with_message oargs l (OProps (match oargs with None => true | Some _ => false end) lines) out /\
      (forall m ls p v sfx, In (m, ls) lines -> In (p, v, sfx) ls -> ~ is_blank blank v /\
         exists sn n, line_says (pc_ci cls) global p sn n sfx /\ each_once sn n /\ forall k, holds sn n k -> was_read l m p v k /\ to_show oargs v) /\
      (forall m p v k, was_read l m p v k -> to_show oargs v -> ~ is_blank blank v ->
         exists ls sfx sn n, In (m, ls) lines /\ In (p, v, sfx) ls /\ line_says (pc_ci cls) global p sn n sfx /\ holds sn n k).
  Proof.
    intros Hone W EV NN ND H. apply info_inv in H as (ms & a & o & n & Hms & Ha & -> & (lines & Hl & -> & ->)). cbn [ia_mechs ia_oargs] in *.
    destruct (aggr_ok _ _ _ _ _ _ Hone ND Ha) as (l & R & NR & L & Once).
    pose proof (aggr_printable _ _ _ _ _ _ _ Hone W R L Once) as PR.
    destruct (human_l (pc_ci cls) global blank a lines W EV NN PR Hl) as (_ & H1 & H2).
    exists ms, l, lines. split; [now apply allowed_named|]. split; [exact R|]. split; [|split].
    - apply (message_l oargs l a); [exact NR|exact L|now apply count_zero].
    - intros m ls p v sfx I J. destruct (H1 _ _ _ _ _ I J) as (Hb & sn & nn & He & Hs). split; [exact Hb|]. exists sn, nn. split; [exact Hs|].
      split; [exact (Once _ _ _ _ _ He)|]. intros k Hk. destruct He as (d & vals & A & B & C).
      destruct (proj1 (L m p v k)) as (Hr & Hsh); [exists d, sn, vals, nn; auto|]. split; [exact Hr|now apply shown_to].
    - intros m p v k Hr Hsh Hb. destruct (proj2 (L m p v k)) as (d & sn & vals & nn & A & B & C & Hk); [split; [exact Hr|now apply shown_to]|].
      destruct (H2 m p sn v nn) as (ls & sfx & I & J & K); [exists d, vals; auto|exact Hb|]. exists ls, sfx, sn, nn. auto.
  Qed.

  (** ** YAML *)

  Lemma yaml_value_ok ty (v : option V) out : yaml_value ty v = Ok out <-> written_as ty v out.
  Proof.
    destruct v as [x|], ty; cbn [yaml_value written_as]; split; try (intros [= <-]; reflexivity); try (intros ->; reflexivity); try discriminate; intros [].
  Qed.

  Lemma rmap_F2' {A B} (f : A -> res B) l r : rmap l f = Ok r -> Forall2 (fun x y => f x = Ok y) l r.
  Proof.
    revert r. induction l as [|x t IH]; cbn [rmap]; intros r H; [injection H as <-; constructor|].
    destruct (f x) as [y|] eqn:E; cbn [rbind] in H; [|discriminate H].
    match type of H with rbind ?q _ = _ => destruct q as [ys|] eqn:E2 end; cbn [rbind] in H; [|discriminate H]. injection H as <-. constructor; [exact E|now apply IH].
  Qed.

  Lemma typed_says (a : @aggr V) y : yaml_typed types a = Ok y ->
    length y = length (yaml_pinfo a) /\
    forall p out k, yaml_says y p out k <-> exists v, written_as (types p) v out /\ file_says (yaml_pinfo a) p v k.
  Proof.
    unfold yaml_typed. intros H. apply rmap_F2' in H. split; [symmetry; clear - H; induction H; cbn [length]; congruence|]. intros p out k. split.
    - intros (vs & sn & ns & n & I & J & En & Hk). destruct (F2_right _ _ _ _ H I) as ((p', ys) & I' & E). cbn [fst snd] in E.
      match type of E with rbind ?q _ = _ => destruct q as [vs'|] eqn:E2 end; cbn [rbind] in E; [|discriminate E]. injection E as -> ->.
      apply rmap_F2' in E2. destruct (F2_right _ _ _ _ E2 J) as (yv & J' & E3).
      destruct (yaml_value (types p) (y_value yv)) as [w|] eqn:Ev; cbn [rbind] in E3; [|discriminate E3]. injection E3 as -> <- <-.
      exists (y_value yv). split; [now apply yaml_value_ok|]. now exists ys, yv, n.
    - intros (v & Hw & ys & yv & n & I & J & <- & En & Hk). destruct (F2_left _ _ _ _ H I) as ((p', vs) & I' & E). cbn [fst snd] in E.
      match type of E with rbind ?q _ = _ => destruct q as [vs'|] eqn:E2 end; cbn [rbind] in E; [|discriminate E]. injection E as <- ->.
      apply rmap_F2' in E2. destruct (F2_left _ _ _ _ E2 J) as (((w, sn), ns) & J' & E3).
      destruct (yaml_value (types p) (y_value yv)) as [w'|] eqn:Ev; cbn [rbind] in E3; [|discriminate E3]. injection E3 as -> <- <-.
      apply yaml_value_ok in Hw. assert (w = out) as -> by congruence. exists vs, (y_sname yv), (y_nums yv), n. auto.
  Qed.

  Lemma typed_live (a : @aggr V) : (forall p y, (exists ys, In (p, ys) (yaml_pinfo a) /\ In y ys) -> types p = TDict -> y_value y <> None) ->
    exists y, yaml_typed types a = Ok y.
  Proof.
    intros H. unfold yaml_typed. apply rmap_total. intros (p, ys) I. cbn [fst snd].
    match goal with |- context [rmap ?l ?f] => destruct (rmap_total f l) as (r & ->) end; [|cbn; eauto].
    intros y J. assert (Hy := H p y (ex_intro _ ys (conj I J))). destruct (y_value y) as [v|]; [cbn; eauto|].
    destruct (types p); cbn; eauto. now contradiction Hy.
  Qed.

  Lemma typed_dead (a : @aggr V) p y ys : In (p, ys) (yaml_pinfo a) -> In y ys -> types p = TDict -> y_value y = None -> yaml_typed types a = Exn EValue.
  Proof.
    unfold yaml_typed. generalize (yaml_pinfo a). intros f I J Ty Hy. 
    assert (G : forall q (x : @yval V) e, (let? v := yaml_value (types q) (y_value x) in Ok (v, y_sname x, y_nums x)) = Exn e -> e = EValue).
    { intros q x e. destruct (y_value x), (types q); cbn; congruence. }
    assert (G2 : forall q l e, rmap l (fun x : @yval V => let? v := yaml_value (types q) (y_value x) in Ok (v, y_sname x, y_nums x)) = Exn e -> e = EValue).
    { intros q l. induction l as [|x t IH]; cbn [rmap]; intros e; [discriminate|].
      destruct (let? v := yaml_value (types q) (y_value x) in Ok (v, y_sname x, y_nums x)) as [u|e'] eqn:E; cbn [rbind]; [|intros [= <-]; exact (G _ _ _ E)].
      match goal with |- rbind ?r _ = _ -> _ => destruct r as [us|e'] end; cbn [rbind]; [discriminate|]. intros [= <-]. now apply IH. }
    induction f as [|(q, l) t IH]; [destruct I|]. cbn [rmap fst snd].
    destruct (rmap l (fun x => let? v := yaml_value (types q) (y_value x) in Ok (v, y_sname x, y_nums x))) as [us|e] eqn:E; cbn [rbind].
    - destruct I as [E1|I]; [|rewrite (IH I); reflexivity]. exfalso. injection E1 as -> ->. apply rmap_F2' in E.
      destruct (F2_left _ _ _ _ E J) as (u & _ & Eu). rewrite Hy, Ty in Eu. discriminate Eu.
    - f_equal. exact (G2 _ _ _ E).
  Qed.

  Lemma pinfo_empty (a : @aggr V) : no_repeats a -> (Z.of_nat (length (yaml_pinfo a)) = 0 <-> a = []).
  Proof.
    intros NR. split; [|intros ->; reflexivity]. intros H. destruct a as [|x t] eqn:Ea; [reflexivity|]. exfalso. rewrite <- Ea in *.
    destruct (some_entry a NR) as (m & p & sn & v & n & _ & He & _); [rewrite Ea; discriminate|].
    destruct (yaml_pinfo_ok a) as (_ & HY). destruct (proj2 (HY p (YV v sn (yaml_nums n)))) as (ys & I & _); [exists m, sn, v, n; auto|].
    destruct (yaml_pinfo a); [destruct I|cbn [length] in H; lia].
  Qed.

  Lemma props_yaml mechs oargs s out s' : one_value_per_cpu cls -> wf_ci (pc_ci cls) -> (forall k, exists_num (pc_ci cls) k -> nonneg_num k) ->
    NoDup (info_names (pc_props cls) subs oargs) ->
    props_info cls subs tab types global blank (IA true mechs oargs) s = (Ok out, s') ->
    exists ms l y, mechs_named tab mechs ms /\
      reading (get_prop_sname cls ms) (pc_props cls) false (info_names (pc_props cls) subs oargs) s l s' /\
      with_message oargs l (OPropsYaml y) out /\
      forall p o k, yaml_says y p o k <-> exists m v, was_read l m p v k /\ to_show oargs v /\ written_as (types p) v o.
  Proof.
    intros Hone W NN ND H. apply info_inv in H as (ms & a & o & n & Hms & Ha & -> & (y & Hy & -> & ->)). cbn [ia_mechs ia_oargs] in *.
    destruct (aggr_ok _ _ _ _ _ _ Hone ND Ha) as (l & R & NR & L & Once).
    pose proof (aggr_printable _ _ _ _ _ _ _ Hone W R L Once) as PR.
    destruct (typed_says _ _ Hy) as (Hlen & Hsay).
    destruct (file_exact a) as (_ & HF). { intros m p sn v n He. destruct (PR _ _ _ _ _ He) as (O & X). split; [exact O|]. intros k Hk. now apply NN, X. }
    exists ms, l, y. split; [now apply allowed_named|]. split; [exact R|]. split.
    - apply (message_l oargs l a); [exact NR|exact L|]. rewrite Hlen. now apply pinfo_empty.
    - intros p o k. rewrite Hsay. split.
      + intros (v & Hw & Hf). apply HF in Hf as (m & Hf). apply L in Hf as (Hr & Hs). exists m, v. split; [exact Hr|]. split; [now apply shown_to|exact Hw].
      + intros (m & v & Hr & Hs & Hw). exists v. split; [exact Hw|]. apply HF. exists m. apply L. split; [exact Hr|now apply shown_to].
  Qed.

  (** ** Success *)
  Lemma info_run yaml mechs oargs ms a s s' : allowed_mechs tab mechs = Ok ms ->
    aggr_props (pc_veqb cls) (get_prop_sname cls ms) (pc_props cls) (pnames_of oargs) false (skipping oargs) s = (Ok a, s') ->
    props_info cls subs tab types global blank (IA yaml mechs oargs) s =
      ((if yaml then let? y := yaml_typed types a in Ok (OPropsYaml y :: nothing (Z.of_nat (length y)))
        else let? l := print_human (pc_ci cls) global blank a in Ok (OProps (skipping oargs) l :: nothing (count_vals a))), s').
  Proof.
    intros Hms Ha. unfold props_info. cbn [ia_mechs ia_oargs ia_yaml]. unfold mbind, lift. rewrite Hms.
    destruct oargs as [l|]; cbn [pnames_of skipping] in *; unfold print_props, mbind, lift; rewrite Ha; destruct yaml.
    - destruct (yaml_typed types a); reflexivity.
    - destruct (print_human (pc_ci cls) global blank a); reflexivity.
    - destruct (yaml_typed types a); reflexivity.
    - destruct (print_human (pc_ci cls) global blank a); reflexivity.
  Qed.

  Lemma named_allowed t ms : (t = [] /\ ms = None) \/ (exists ws l, ms = Some l /\ typed_list t ws /\ Forall2 (fun w m => In (w, m) tab) ws l) ->
    allowed_mechs tab t = Ok ms.
  Proof.
    intros [(-> & ->)|(ws & l & -> & Ht & HF)]; [reflexivity|]. apply (mechs_ok tab tab_nodup _ ws Ht) in HF. unfold allowed_mechs.
    destruct t as [|c t']; [|rewrite HF; reflexivity]. exfalso. destruct Ht as (E & Hne & _ & Hw). destruct ws as [|w ws]; [contradiction|].
    destruct (Hw w (or_introl eq_refl)) as (Hn & _). destruct w as [|c r]; [contradiction|]. destruct ws; discriminate E.
  Qed.

  Lemma aggr_live ms oargs l s s' : (forall p, In p (info_names (pc_props cls) subs oargs) -> exists d, dget Z.eqb (pc_props cls) p = Some d) ->
    reading (get_prop_sname cls ms) (pc_props cls) false (info_names (pc_props cls) subs oargs) s l s' ->
    exists a, aggr_props (pc_veqb cls) (get_prop_sname cls ms) (pc_props cls) (pnames_of oargs) false (skipping oargs) s = (Ok a, s').
  Proof.
    intros Hk R.
    assert (Hn : asked_pnames (pc_props cls) (pnames_of oargs) = info_names (pc_props cls) subs oargs).
    { destruct oargs as [l0|]; cbn [pnames_of asked_pnames info_names] in *; [|reflexivity]. apply expand_known. intros p I. apply Hk. apply in_flat_map. exists p. split; [exact I|now left]. }
    destruct (print_live cls veqb_spec ms (pnames_of oargs) false (skipping oargs) s) as (names & Hnn & Hl); [rewrite Hn; exact Hk|].
    destruct (norm_names _ _ Hnn) as (-> & _). rewrite Hn in Hl. exact (Hl _ _ R).
  Qed.

  Lemma props_live yaml mechs oargs ms l s s' : one_value_per_cpu cls -> wf_ci (pc_ci cls) -> (forall k, exists_num (pc_ci cls) k -> nonneg_num k) -> is_pkg (ci_topo (pc_ci cls)) 0 ->
    NoDup (info_names (pc_props cls) subs oargs) ->
    (forall p, In p (info_names (pc_props cls) subs oargs) -> exists d, dget Z.eqb (pc_props cls) p = Some d) ->
    (mechs = [] /\ ms = None) \/ (exists ws l, ms = Some l /\ typed_list mechs ws /\ Forall2 (fun w m => In (w, m) tab) ws l) ->
    reading (get_prop_sname cls ms) (pc_props cls) false (info_names (pc_props cls) subs oargs) s l s' ->
    (yaml = true -> forall m p k, was_read l m p None k -> to_show oargs (None : option V) -> types p <> TDict) ->
    exists out, props_info cls subs tab types global blank (IA yaml mechs oargs) s = (Ok out, s').
  Proof.
    intros Hone W NN P0 ND Hk Hm R HD. apply named_allowed in Hm. destruct (aggr_live ms oargs l s s' Hk R) as (a & Ha).
    rewrite (info_run yaml _ _ _ _ _ _ Hm Ha). destruct (aggr_ok _ _ _ _ _ _ Hone ND Ha) as (l' & R' & NR & L & Once).
    assert (l' = l) as ->. { clear - R R'. revert l' R'. induction R as [s|p d rest s rl s' Hro _ _ _ _|p d rest s items s1 rl s' _ _ Hr _ IH|p d rest s s1 items s2 rl s' _ _ Hr1 Hr2 _ IH]; intros l' R'.
      - now inversion R'.
      - discriminate Hro.
      - inversion R' as [| |p' d' rest' sa items' sb rl' sc Hd' Hw' Hr' R2|p' d' rest' sa sb items' sc rl' sd Hd' Hw' Hr1' Hr2' R2]; subst; try discriminate.
        + rewrite Hr in Hr'. injection Hr' as <- <-. f_equal. now apply IH.
        + rewrite Hr in Hr1'. discriminate Hr1'.
      - inversion R' as [| |p' d' rest' sa items' sb rl' sc Hd' Hw' Hr' R2|p' d' rest' sa sb items' sc rl' sd Hd' Hw' Hr1' Hr2' R2]; subst; try discriminate.
        + rewrite Hr1 in Hr'. discriminate Hr'.
        + rewrite Hr1 in Hr1'. injection Hr1' as <-. rewrite Hr2 in Hr2'. injection Hr2' as <- <-. f_equal. now apply IH. }
    pose proof (aggr_printable _ _ _ _ _ _ _ Hone W R' L Once) as PR. destruct yaml.
    - destruct (typed_live a) as (y & ->); [|cbn; eauto]. intros p y Hy Ty Hv. destruct (proj1 (proj2 (yaml_pinfo_ok a) p y) Hy) as (m & sn & v & n & (d & vals & A & B & C) & ->).
      cbn [y_value] in Hv. subst v. destruct (proj2 NR m d A) as (_ & _ & NR2). destruct (NR2 p sn vals B) as (_ & _ & NR3). destruct (NR3 None n C) as (k & Hk').
      destruct (proj1 (L m p None k)) as (Hr & Hs); [exists d, sn, vals, n; auto|]. apply (HD eq_refl m p k Hr); [now apply shown_to|exact Ty].
    - destruct (human_live_l (pc_ci cls) global blank a W NN P0 PR) as (o & ->). cbn; eauto.
  Qed.

  Lemma props_yaml_dead mechs oargs ms l s s' m p k : one_value_per_cpu cls ->
    NoDup (info_names (pc_props cls) subs oargs) ->
    (forall p, In p (info_names (pc_props cls) subs oargs) -> exists d, dget Z.eqb (pc_props cls) p = Some d) ->
    (mechs = [] /\ ms = None) \/ (exists ws l, ms = Some l /\ typed_list mechs ws /\ Forall2 (fun w m => In (w, m) tab) ws l) ->
    reading (get_prop_sname cls ms) (pc_props cls) false (info_names (pc_props cls) subs oargs) s l s' ->
    was_read l m p None k -> oargs <> None -> types p = TDict ->
    props_info cls subs tab types global blank (IA true mechs oargs) s = (Exn EValue, s').
  Proof.
    intros Hone ND Hk Hm R Hr Ho Ty. apply named_allowed in Hm. destruct (aggr_live ms oargs l s s' Hk R) as (a & Ha).
    rewrite (info_run true _ _ _ _ _ _ Hm Ha). assert (Ha' := Ha). unfold aggr_props in Ha'. 
    apply lift_bind in Ha' as [(names & Hn & Hb)|(e & _ & [=] & _)]. rewrite (names_info _ _ Hn) in Hb.
    destruct (aggr_ok _ _ _ _ _ _ Hone ND Ha) as (l' & R' & NR & L & Once).
    assert (l' = l) as ->. { clear - R R'. revert l' R'. induction R as [s|p d rest s rl s' Hro _ _ _ _|p d rest s items s1 rl s' _ _ Hr _ IH|p d rest s s1 items s2 rl s' _ _ Hr1 Hr2 _ IH]; intros l' R'.
      - now inversion R'.
      - discriminate Hro.
      - inversion R' as [| |p' d' rest' sa items' sb rl' sc Hd' Hw' Hr' R2|p' d' rest' sa sb items' sc rl' sd Hd' Hw' Hr1' Hr2' R2]; subst; try discriminate.
        + rewrite Hr in Hr'. injection Hr' as <- <-. f_equal. now apply IH.
        + rewrite Hr in Hr1'. discriminate Hr1'.
      - inversion R' as [| |p' d' rest' sa items' sb rl' sc Hd' Hw' Hr' R2|p' d' rest' sa sb items' sc rl' sd Hd' Hw' Hr1' Hr2' R2]; subst; try discriminate.
        + rewrite Hr1 in Hr'. discriminate Hr'.
        + rewrite Hr1 in Hr1'. injection Hr1' as <-. rewrite Hr2 in Hr2'. injection Hr2' as <- <-. f_equal. now apply IH. }
    destruct (proj2 (L m p None k)) as (d & sn & vals & n & A & B & C & _); [split; [exact Hr|]; apply shown_to; intros E; contradiction|].
    destruct (yaml_pinfo_ok a) as (_ & HY). destruct (proj2 (HY p (YV None sn (yaml_nums n)))) as (ys & I & J); [exists m, sn, None, n; split; [exists d, vals; auto|reflexivity]|].
    rewrite (typed_dead a p (YV None sn (yaml_nums n)) ys I J Ty eq_refl). reflexivity.
  Qed.

  (** With '--mechanisms' every property asked for must have all the mechanisms. *)
  Lemma props_mechs yaml mechs ws oargs s out s' : typed_list mechs ws ->
    props_info cls subs tab types global blank (IA yaml mechs oargs) s = (Ok out, s') ->
    (forall w, In w ws -> In w (map fst tab)) /\
    forall p w m, In p (info_names (pc_props cls) subs oargs) -> In w ws -> In (w, m) tab ->
      exists d, dget Z.eqb (pc_props cls) p = Some d /\ In m (pd_mnames d).
  Proof.
    intros Ht H. apply info_inv in H as (ms & a & o & n & Hms & Ha & _). cbn [ia_mechs ia_oargs] in *.
    assert (Hl : exists l, ms = Some l /\ Forall2 (fun w m => In (w, m) tab) ws l).
    { apply allowed_named in Hms. destruct ms as [l|]; cbn [mechs_named] in Hms.
      - exists l. split; [reflexivity|]. now apply (proj2 Hms).
      - exfalso. subst mechs. destruct Ht as (E & Hne & _ & Hw). destruct ws as [|w ws]; [contradiction|].
        destruct (Hw w (or_introl eq_refl)) as (Hn & _). destruct w as [|c r]; [contradiction|]. destruct ws; discriminate E. }
    destruct Hl as (l & -> & HF). split.
    { intros w I. destruct (F2_left _ _ _ _ HF I) as (m & _ & J). apply in_map_iff. now exists (w, m). }
    unfold aggr_props in Ha. apply lift_bind in Ha as [(names & Hn & Hb)|(e & _ & [=] & _)]. rewrite (names_info _ _ Hn) in Hb. clear Hn names.
    assert (Hlne : l <> []). { intros ->. inversion HF as [E|]. destruct Ht as (_ & Hne & _). congruence. }
    assert (HB : forall a0 s0, build_loop (pc_veqb cls) (get_prop_sname cls (Some l)) (pc_props cls) (info_names (pc_props cls) subs oargs) false (skipping oargs) a0 s0 = (Ok a, s') ->
              forall p, In p (info_names (pc_props cls) subs oargs) -> exists d, dget Z.eqb (pc_props cls) p = Some d /\ forall m, In m l -> In m (pd_mnames d)).
    { generalize (info_names (pc_props cls) subs oargs). intros names. induction names as [|q t IH]; intros a0 s0 Hbl p I; [destruct I|].
      cbn [build_loop] in Hbl. destruct (dget Z.eqb (pc_props cls) q) as [d|] eqn:Eq; [|discriminate Hbl]. cbn [andb] in Hbl.
      unfold mbind at 1 in Hbl.
      match type of Hbl with context [match ?x with _ => _ end] => destruct x as ([ap|e], s1) eqn:Eb end; [|discriminate Hbl].
      destruct I as [<-|I]; [|exact (IH _ _ Hbl p I)].
      assert (G : exists ov sa items sb, get_prop_sname cls (Some l) q ov sa = (Ok items, sb)).
      { unfold build_pname, mbind in Eb. destruct (get_prop_sname cls (Some l) q false s0) as ([it|e], s2) eqn:E1; [eauto|].
        destruct e; try discriminate Eb. destruct (get_prop_sname cls (Some l) q true s2) as ([it|e], s3) eqn:E2; [eauto|]. discriminate Eb. }
      destruct G as (ov & sa & items & sb & G). exact (proj2 (sname_mech cls l q ov sa items sb Hlne G)). }
    intros p w m Ip Iw Im. destruct (HB _ _ Hb p Ip) as (d & Ed & Hd). exists d. split; [exact Ed|]. apply Hd.
    destruct (F2_left _ _ _ _ HF Iw) as (m' & J & Jm). assert (m' = m) as <-. { apply (In_dget _ str_eqb_spec _ _ _ tab_nodup) in Jm. apply (In_dget _ str_eqb_spec _ _ _ tab_nodup) in Im. congruence. }
    exact J.
  Qed.
End Props.
