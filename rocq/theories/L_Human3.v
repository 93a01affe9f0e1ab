(** Lemmas about tokenizing and parsing. *)
From Coq Require Import QArith Qabs Qpower ZifyBool.
From Verif Require Import Base L_Base M_Text S_Text L_Text M_Human S_Human L_Human L_Human2.

Inductive subseq : list str -> list str -> Prop :=
| Sub_nil L : subseq [] L
| Sub_take x l L : subseq l L -> subseq (x :: l) (x :: L)
| Sub_skip x l L : subseq l L -> subseq l (x :: L).
Lemma subseq_incl l L : subseq l L -> incl l L.
Proof.
  induction 1; intros k Hk; [destruct Hk| |right; auto]. destruct Hk as [->|Hk]; [now left|right; auto].
Qed.

Definition specs_ok (L : list str) : Prop :=
  Forall spec_ok L /\ ForallOrdPairs (fun x y => split1 x y = None) L.

Definition pair_of (p : part) : str * str := (p_unit p, p_text p).

Lemma split1_parts x ps t : spec_ok x -> Forall (fun p => split1 x (p_unit p) = None) ps ->
  Forall (fun p => exists q, number (p_text p) q) ps -> Forall (fun c => is_space c = true) t ->
  split1 x (parts_text ps ++ t) = None.
Proof.
  intros Hx Hu Hn Ht.
  assert (Hs : forall l : list part, Forall (fun p => exists q, number (p_text p) q) l -> stops (parts_text l ++ t)).
  { intros l Hl. destruct l as [|p l]; cbn.
    - destruct t as [|c t]; [exact I|]. inversion Ht; subst. now apply space_not.
    - inversion Hl as [|p' l' (q & Hq) _]; subst. unfold parts_text. cbn [map concat]. rewrite <- !app_assoc.
      exact (number_stops _ _ _ Hq). }
  induction ps as [|p ps IH].
  - cbn. apply clean_none; [exact Hx|]. apply clean_plain. revert Ht. apply Forall_impl.
    intros c Hc. now apply space_not.
  - inversion Hu as [|p' l' Hp Hu']; inversion Hn as [|p'' l'' (q & Hq) Hn']; subst.
    unfold parts_text. cbn [map concat]. rewrite <- !app_assoc.
    rewrite clean_split1 by (auto; eapply number_clean; eauto).
    rewrite spec_past by (auto; apply Hs; auto). fold (parts_text ps). rewrite IH by auto. reflexivity.
Qed.

Lemma find_specs_nil L t : Forall spec_ok L -> Forall (fun c => is_space c = true) t -> find_specs L t = ([], t).
Proof.
  intros HL Ht. induction HL as [|x L Hx HL IH]; [reflexivity|]. cbn [find_specs].
  rewrite clean_none; [exact IH|exact Hx|]. apply clean_plain. revert Ht. apply Forall_impl.
  intros c Hc. now apply space_not.
Qed.

Lemma find_specs_parts L : specs_ok L -> forall ps t, subseq (map p_unit ps) L ->
  Forall (fun p => exists q, number (p_text p) q) ps -> Forall (fun c => is_space c = true) t ->
  find_specs L (parts_text ps ++ t) = (map pair_of ps, t).
Proof.
  intros (HL & HO). induction L as [|x L IH]; intros ps t Hs Hn Ht.
  - inversion Hs as [L E| |]; subst. destruct ps; [|discriminate]. reflexivity.
  - inversion HL as [|x' L' Hx HL']; inversion HO as [|x'' L'' Hxy HO']; subst. specialize (IH HL' HO').
    inversion Hs as [L' E|y l L' Hs' E1 E2|y l L' Hs' E1 E2]; subst.
    + destruct ps; [|discriminate]. cbn [parts_text map concat app]. now apply find_specs_nil.
    + destruct ps as [|p ps]; [discriminate|]. cbn [map] in E1. injection E1 as E1 El. subst l.
      inversion Hn as [|p' l' (q & Hq) Hn']; subst.
      cbn [find_specs]. unfold parts_text. cbn [map concat]. rewrite <- !app_assoc.
      rewrite clean_split1 by (auto; eapply number_clean; eauto).
      rewrite split1_here by exact Hx. rewrite app_nil_r. fold (parts_text ps). rewrite IH by auto. reflexivity.
    + cbn [find_specs]. rewrite split1_parts; auto.
      rewrite Forall_forall in Hxy |- *. intros p Hp. apply Hxy. apply (subseq_incl _ _ Hs'). now apply in_map.
Qed.

Lemma find_specs_sound L : forall s l r, find_specs L s = (l, r) ->
  s = concat (map (fun e => snd e ++ fst e) l) ++ r /\ subseq (map fst l) L.
Proof.
  induction L as [|x L IH]; cbn [find_specs]; intros s l r E.
  - injection E as <- <-. split; [reflexivity|constructor].
  - destruct (split1 x s) as [(a & b)|] eqn:Es.
    + destruct (find_specs L b) as (l' & r') eqn:El. injection E as <- <-. apply IH in El as (-> & Hs).
      apply split1_found in Es as ->. cbn. split; [now rewrite <- !app_assoc|now constructor].
    + apply IH in E as (E & Hs). split; [exact E|now constructor].
Qed.

(** *** The tables *)
Definition is_none {A} (o : option A) : bool := match o with None => true | _ => false end.
Fixpoint ordb (L : list str) : bool :=
  match L with [] => true | x :: t => forallb (fun y => is_none (split1 x y)) t && ordb t end.
Lemma ordb_spec L : ordb L = true -> ForallOrdPairs (fun x y => split1 x y = None) L.
Proof.
  induction L as [|x t IH]; cbn; intros H; [constructor|]. apply andb_true_iff in H as (H1 & H2).
  constructor; [|auto]. rewrite forallb_forall in H1. apply Forall_forall. intros y Hy. specialize (H1 y Hy).
  now destruct (split1 x y).
Qed.
Definition first_charb (c : ascii) : bool :=
  existsb (Ascii.eqb c) ["E"; "P"; "T"; "G"; "M"; "k"; "K"; "m"; "u"; "n"; "d"; "D"; "h"; "H"; "B"; "s"; "W"]%char.
Definition later_charb (c : ascii) : bool := existsb (Ascii.eqb c) ["i"; "B"; "H"; "z"; "s"; "W"]%char.
Definition spec_okb (x : str) : bool :=
  match x with
  | [] => false
  | c :: t => first_charb c && forallb later_charb t && negb (Ascii.eqb c "E" && match t with [] => true | _ => false end)
  end.
Lemma existsb_in c l : existsb (Ascii.eqb c) l = true -> In c l.
Proof. intros H. apply existsb_exists in H as (x & Hx & E). now apply Ascii.eqb_eq in E as ->. Qed.
Lemma spec_okb_spec x : spec_okb x = true -> spec_ok x.
Proof.
  destruct x as [|c t]; [discriminate|]. cbn [spec_okb spec_ok]. rewrite !andb_true_iff. intros ((H1 & H2) & H3).
  split; [now apply existsb_in|]. split.
  - rewrite forallb_forall in H2. apply Forall_forall. intros k Hk. now apply existsb_in, H2.
  - intros -> ->. discriminate.
Qed.

Lemma base_specs base : base_unit base -> specs_ok (map fst (scalers base)).
Proof.
  intros H. split.
  - assert (X : forallb spec_okb (map fst (scalers base)) = true).
    { repeat (destruct H as [<-|H]; [vm_compute; reflexivity|]); try destruct H. }
    rewrite forallb_forall in X. apply Forall_forall. intros x Hx. now apply spec_okb_spec, X.
  - apply ordb_spec. repeat (destruct H as [<-|H]; [vm_compute; reflexivity|]); try destruct H.
Qed.

Definition scaler_of (base sp : str) : option Q := dget str_eqb (scalers base) sp.
Ltac each H := repeat (destruct H as [H|H]; [|]); [..|destruct H].
Lemma factor_scaler base sp f : base_unit base -> factor base sp f ->
  In sp (map fst (scalers base)) /\ exists g, scaler_of base sp = Some g /\ (g == f)%Q.
Proof.
  intros Hb Hf. destruct Hf as [p k Hp|p k -> Hp|sp n -> Hn].
  - cbn in Hb. repeat (destruct Hb as [<-|Hb]; [
      cbn in Hp; repeat (destruct Hp as [Hp|Hp]; [injection Hp as <- <-; split;
        [vm_compute; tauto|eexists; split; [vm_compute; reflexivity|vm_compute; reflexivity]]|]); destruct Hp|]); try destruct Hb.
  - cbn in Hp; repeat (destruct Hp as [Hp|Hp]; [injection Hp as <- <-; split;
        [vm_compute; tauto|eexists; split; [vm_compute; reflexivity|vm_compute; reflexivity]]|]); try destruct Hp.
  - cbn in Hn; repeat (destruct Hn as [Hn|Hn]; [injection Hn as <- <-; split;
        [vm_compute; tauto|eexists; split; [vm_compute; reflexivity|vm_compute; reflexivity]]|]); try destruct Hn.
Qed.

Definition factorb (base sp : str) : Prop := exists f g, scaler_of base sp = Some g /\ factor base sp f /\ (g == f)%Q.
Lemma scaler_factor base sp : base_unit base -> In sp (map fst (scalers base)) -> factorb base sp.
Proof.
  assert (SI : forall b p k g, base_unit b -> si_prefix p k -> scaler_of b (p ++ b) = Some g -> (g == (10 # 1) ^ k)%Q ->
             factorb b (p ++ b)).
  { intros b p k g Hb Hp E Eg. exists ((10 # 1) ^ k)%Q, g. split; [exact E|]. split; [|exact Eg]. now constructor. }
  assert (BI : forall p k g, binary_prefix p k -> scaler_of (s2l "B") (p ++ s2l "B") = Some g -> (g == (1024 # 1) ^ k)%Q ->
             factorb (s2l "B") (p ++ s2l "B")).
  { intros p k g Hp E Eg. exists ((1024 # 1) ^ k)%Q, g. split; [exact E|]. split; [|exact Eg]. now constructor. }
  assert (TI : forall p k g, time_unit p k -> scaler_of (s2l "s") p = Some g -> (g == inject_Z k)%Q ->
             factorb (s2l "s") p).
  { intros p k g Hp E Eg. exists (inject_Z k), g. split; [exact E|]. split; [|exact Eg]. now constructor. }
  intros Hb Hi.
  assert (Hi' : In sp (map (fun p => p ++ base) (map (fun k => [k]) (map fst sipfx_scalers))) \/
     (base = s2l "B" /\ In sp (map (fun p => p ++ base) (map fst bytesize_scalers))) \/
     (base = s2l "s" /\ In sp (map s2l ["d"; "D"; "h"; "H"; "m"; "M"]%string)) \/ sp = base).
  { unfold scalers in Hi. rewrite !map_app, !map_map in Hi. rewrite !in_app_iff in Hi.
    destruct Hi as [Hi|[Hi|Hi]].
    - left. rewrite !map_map. exact Hi.
    - right. destruct (str_eqb base (s2l "B")) eqn:E1.
      + left. split; [now apply str_eqb_spec|]. rewrite map_map in Hi. rewrite map_map. exact Hi.
      + right. left. destruct (str_eqb base (s2l "s")) eqn:E2; [|destruct Hi].
        split; [now apply str_eqb_spec|exact Hi].
    - right. right. right. cbn in Hi. destruct Hi as [<-|[]]. reflexivity. }
  destruct Hi' as [Hi'|[(-> & Hi')|[(-> & Hi')|E]]].
  - cbn [sipfx_scalers map fst In] in Hi'. pose proof Hb as Hb0.
    repeat (destruct Hb as [<-|Hb]; [
      destruct Hi' as [<-|[<-|[<-|[<-|[<-|[<-|[<-|[<-|[<-|[]]]]]]]]]];
      [eapply (SI _ _ 18)|eapply (SI _ _ 15)|eapply (SI _ _ 12)|eapply (SI _ _ 9)|eapply (SI _ _ 6)|eapply (SI _ _ 3)
      |eapply (SI _ _ (-3))|eapply (SI _ _ (-6))|eapply (SI _ _ (-9))];
      solve [exact Hb0|vm_compute; tauto|vm_compute; reflexivity]|]); try destruct Hb.
  - cbn [bytesize_scalers map fst In] in Hi'.
    destruct Hi' as [<-|[<-|[<-|[<-|[<-|[<-|[]]]]]]];
      [eapply (BI _ 6)|eapply (BI _ 5)|eapply (BI _ 4)|eapply (BI _ 3)|eapply (BI _ 2)|eapply (BI _ 1)];
      solve [vm_compute; tauto|vm_compute; reflexivity].
  - cbn [map In] in Hi'.
    destruct Hi' as [<-|[<-|[<-|[<-|[<-|[<-|[]]]]]]];
      [eapply (TI _ 86400)|eapply (TI _ 86400)|eapply (TI _ 3600)|eapply (TI _ 3600)|eapply (TI _ 60)|eapply (TI _ 60)];
      solve [vm_compute; tauto|vm_compute; reflexivity].
  - subst sp. pose proof Hb as Hb0. change base with ([] ++ base).
    repeat (destruct Hb as [<-|Hb]; [eapply (SI _ _ 0); solve [exact Hb0|vm_compute; tauto|vm_compute; reflexivity]|]); try destruct Hb.
Qed.
