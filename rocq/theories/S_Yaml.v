(** Specification for C67: what a file with settings means. *)
From Coq Require Import Ascii String Relations.
From Verif Require Import Base M_Text M_Yaml.

Definition include : ykey := KText (s2l "include"%string).

(** A key that is neither "include" nor reserved by the loader *)
Definition ordinary (k : ykey) : Prop :=
  k <> include /\ forall r, k <> KText (s2l "include_"%string ++ r).

(** A value as YAML wants it, without 'include' inside: in every mapping, every key is there once *)
Inductive proper : yval -> Prop :=
| pr_null : proper YNull
| pr_bool b : proper (YBool b)
| pr_num n : proper (YNum n)
| pr_text s : proper (YText s)
| pr_seq l : Forall proper l -> proper (YSeq l)
| pr_map l : NoDup (map fst l) -> Forall (fun x => ordinary (fst x)) l -> Forall (fun x => proper (snd x)) l ->
             proper (YMap l).

(** A document in which 'include' is at most at the top, and no other key is at the top twice *)
Definition proper_doc (v : yval) : Prop :=
  forall l, v = YMap l ->
    (forall a k v b w c, l = a ++ (k, v) :: b ++ (k, w) :: c -> k = include) /\ Forall (fun x => proper (snd x)) l.

(** A reserved key somewhere in a value *)
Inductive deep_reserved : yval -> Prop :=
| dr_here l r v : In (KText (s2l "include_"%string ++ r), v) l -> deep_reserved (YMap l)
| dr_map l k v : In (k, v) l -> deep_reserved v -> deep_reserved (YMap l)
| dr_seq l v : In v l -> deep_reserved v -> deep_reserved (YSeq l).

(** What counts as nothing *)
Definition blank (v : yval) : Prop :=
  v = YNull \/ v = YBool false \/ v = YNum 0 \/ v = YText [] \/ v = YSeq [] \/ v = YMap [].

(** The pieces between the slashes of a text, without the empty ones and "." *)
Fixpoint pieces (cur : str) (l : str) : list str :=
  let out := if str_eqb cur [] || str_eqb cur (s2l "."%string) then [] else [cur] in
  match l with
  | [] => out
  | c :: t => if Ascii.eqb c "/"%char then out ++ pieces [] t else pieces (cur ++ [c]) t
  end.

(** The file a text in an 'include' of the file "base" names (None: the file that includes is not known by a path) *)
Inductive refers : option ppath -> str -> ppath -> Prop :=
| ref_abs b t : refers b ("/"%char :: t) (PP true (pieces [] ("/"%char :: t)))
| ref_rel a dir f t : (forall u, t <> "/"%char :: u) -> refers (Some (PP a (dir ++ [f]))) t (PP a (dir ++ pieces [] t))
| ref_top a t : (forall u, t <> "/"%char :: u) -> refers (Some (PP a [])) t (PP a (pieces [] t)).

(** What a file says once the includes are replaced by what the included files say: the keys with their values in the
    order of the text, and the included files.  The number bounds how deep the includes are nested. *)
Inductive expands (fs : ppath -> file) : nat -> ppath -> ydict -> list ppath -> Prop :=
| exp_blank n p v : fs p = FDoc v -> blank v -> expands fs (S n) p [] []
| exp_doc n p l bs ns : fs p = FDoc (YMap l) -> inlines fs n (Some p) l bs ns -> expands fs (S n) p bs ns
with inlines (fs : ppath -> file) : nat -> option ppath -> ydict -> ydict -> list ppath -> Prop :=
| in_nil n b : inlines fs n b [] [] []
| in_key n b k v t bs ns : ordinary k -> inlines fs n b t bs ns -> inlines fs n b ((k, v) :: t) ((k, v) :: bs) ns
| in_blank n b v t bs ns : blank v -> inlines fs n b t bs ns -> inlines fs n b ((include, v) :: t) bs ns
| in_file n b x q t bs ns bs' ns' : x <> [] -> refers b x q -> expands fs n q bs ns -> inlines fs n b t bs' ns' ->
                                    inlines fs n b ((include, YText x) :: t) (bs ++ bs') (q :: ns ++ ns').

(** Every key once, in the order of their first appearances *)
Definition ykey_dec (a b : ykey) : {a = b} + {a <> b}.
Proof. decide equality; [apply (list_eq_dec ascii_dec) | apply Z.eq_dec]. Defined.
Fixpoint firsts (l : list ykey) : list ykey :=
  match l with [] => [] | k :: t => k :: remove ykey_dec k (firsts t) end.

(** The last value of a key *)
Definition last_value (bs : ydict) (k : ykey) (v : yval) : Prop :=
  exists a b, bs = a ++ (k, v) :: b /\ ~ In k (map fst b).

(** The dictionary of a list of keys and values: the last value of a key counts *)
Definition dict_of (bs d : ydict) : Prop :=
  map fst d = firsts (map fst bs) /\ forall k v, In (k, v) d -> last_value bs k v.

(** One file includes the other *)
Definition includes (fs : ppath -> file) (p q : ppath) : Prop :=
  exists l x, fs p = FDoc (YMap l) /\ In (include, YText x) l /\ x <> [] /\ refers (Some p) x q.

(** What was loaded is something that can be restored *)
Definition kinds : list string := ["CPU"; "die"; "package"]%string.
Definition under (m : ydict) (s : string) : Prop := exists v, In (KText (s2l s), v) m.
Definition proper_item (m : ydict) : Prop :=
  under m "value" /\ exists k, In k kinds /\ under m k /\ forall k', In k' kinds -> under m k' -> k' = k.
Definition restorable (known : list str) (d : ydict) : Prop :=
  forall k v, In (k, v) d ->
    exists s l, k = KText s /\ In s known /\ v = YSeq l /\ forall i, In i l -> exists m, i = YMap m /\ proper_item m.

(** An element says that "v" is to be set where "w" is *)
Definition says (m : ydict) (w : where_) (v : yval) : Prop :=
  In (KText (s2l "value"%string), v) m /\
  match w with
  | WCPU n => In (KText (s2l "CPU"%string), n) m
  | WPackage n => In (KText (s2l "package"%string), n) m
  | WDie n => In (KText (s2l "die"%string), n) m
  end.

(** The elements of a dictionary in the order of the text *)
Definition elements (d : ydict) (l : list (ykey * ydict)) : Prop :=
  exists ll, l = concat ll /\
    Forall2 (fun x e => exists ms, snd x = YSeq (map YMap ms) /\ e = map (pair (fst x)) ms) d ll.

(** The file a text names for open() *)
Definition file_named (t : str) : ppath :=
  PP (match t with c :: _ => Ascii.eqb c "/"%char | [] => false end) (pieces [] t).

(** What the input of 'pepc ... restore' says: nothing, or a mapping whose includes are read from a file without a path *)
Definition input_says (fs : ppath -> file) (n : nat) (src : file) (bs : ydict) (ns : list ppath) : Prop :=
  (exists v, src = FDoc v /\ blank v /\ bs = [] /\ ns = []) \/
  (exists l, src = FDoc (YMap l) /\ inlines fs n None l bs ns).

(** The settings "l" are the elements of "d", one by one *)
Definition carried_out (d : ydict) (l : list (ykey * option (where_ * yval))) : Prop :=
  exists es, elements d es /\
    Forall2 (fun e x => fst x = fst e /\ exists w v, snd x = Some (w, v) /\ says (snd e) w v) es l.

(** The input: a file, or standard input for "-" *)
Definition input_name (infile : str) : option str := if str_eqb infile (s2l "-"%string) then None else Some infile.

Definition source (fs : ppath -> file) (name : option str) (stdin : file) : file :=
  match name with Some t => fs (file_named t) | None => stdin end.

(** Where a name leads: ".." goes up *)
Definition resolve (p : ppath) : list str :=
  rev (fold_left (fun d c => if str_eqb c (s2l ".."%string) then tl d else c :: d) (pp_parts p) []).
