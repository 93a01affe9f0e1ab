(** Specification of the TPMI spec files and of the features found on a host (C70): what the files say, and what the
    devices have. *)
From Coq Require Import Permutation.
From Verif Require Import Base M_Text M_Tpmi M_TpmiSpec.

(** A spec file says the name, the description and the ID of a feature, in any order, before anything else. *)
Definition describes (c : content) (n d : str) (i : Z) : Prop :=
  exists top rest t, c = CMap (top ++ rest) /\
    Permutation top [(s2l "name", YScalar n); (s2l "desc", YScalar d); (s2l "feature-id", YScalar t)] /\
    str_to_int t = Ok i.

Definition header_keys : list str := [s2l "name"; s2l "desc"; s2l "feature-id"].

(** The beginning of such a file. *)
Definition begun (pre : list (str * yval)) : Prop :=
  NoDup (map fst pre) /\ (length pre < 3)%nat /\
  Forall (fun kv => In (fst kv) header_keys /\ exists t, snd kv = YScalar t /\
                    (fst kv = s2l "feature-id" -> exists i, str_to_int t = Ok i)) pre.

(** The files which are in error: unreadable, with another key, with a key repeated, or with an ID which is no number. *)
Inductive erroneous : content -> Prop :=
| E_bad : erroneous CBad
| E_empty : erroneous (CMap [])
| E_key pre k v rest : begun pre -> ~ In k header_keys -> erroneous (CMap (pre ++ (k, v) :: rest))
| E_again pre k v rest : begun pre -> In k (map fst pre) -> erroneous (CMap (pre ++ (k, v) :: rest))
| E_id pre t rest : begun pre -> ~ In (s2l "feature-id") (map fst pre) -> (forall i, str_to_int t <> Ok i) ->
    erroneous (CMap (pre ++ (s2l "feature-id", YScalar t) :: rest)).

(** The files pepc trips over: not YAML, too few keys, or a table in place of a text. *)
Inductive fatal : content -> Prop :=
| F_broken : fatal CBroken
| F_short pre : pre <> [] -> begun pre -> fatal (CMap pre)
| F_table pre k l rest : begun pre -> In k header_keys -> ~ In k (map fst pre) -> fatal (CMap (pre ++ (k, YRegs l) :: rest)).

Definition spec_name (fn : str) : Prop := exists b, fn = b ++ s2l ".yml" \/ fn = b ++ s2l ".yaml".

(** How many files of a directory have another extension, are in error, and describe a feature; none is fatal. *)
Inductive census : specdir -> Z -> Z -> Z -> Prop :=
| Ce_nil : census [] 0 0 0
| Ce_other fn c t a b e : ~ spec_name fn -> census t a b e -> census ((fn, c) :: t) (a + 1) b e
| Ce_error fn c t a b e : spec_name fn -> erroneous c -> census t a b e -> census ((fn, c) :: t) a (b + 1) e
| Ce_spec fn c t n d i a b e : spec_name fn -> describes c n d i -> census t a b e -> census ((fn, c) :: t) a b (e + 1).
Definition acceptable (files : specdir) : Prop :=
  exists a b e, census files a b e /\ a <= 32 /\ b <= 4 /\ e <= 256.

(** File number 'j' of the directory number 'k' describes the feature. *)
Definition says (dirs : list specdir) (k j : nat) (fn n d : str) (i : Z) : Prop :=
  exists files c, nth_error dirs k = Some files /\ nth_error files j = Some (fn, c) /\ spec_name fn /\ describes c n d i.

(** The last such file. *)
Definition later (k j k' j' : nat) : Prop := (k < k')%nat \/ k = k' /\ (j < j')%nat.
Definition defined_by (dirs : list specdir) (k j : nat) (fn n d : str) (i : Z) : Prop :=
  says dirs k j fn n d i /\
  forall k' j' fn' d' i', later k j k' j' -> ~ says dirs k' j' fn' n d' i'.
Definition defined (dirs : list specdir) (n : str) (x : sdict) : Prop :=
  exists k j, defined_by dirs k j (snd (sd_path x)) n (sd_desc x) (sd_fid x) /\ sd_name x = n /\ fst (sd_path x) = Z.of_nat k.

(** Different features have different IDs, and none has an empty name. *)
Definition distinct_ids (dirs : list specdir) : Prop :=
  (forall n n' x x', defined dirs n x -> defined dirs n' x' -> sd_fid x = sd_fid x' -> n = n') /\
  forall x, ~ defined dirs [] x.

(** No two files of a directory describe the same feature. *)
Definition no_twins (dirs : list specdir) : Prop :=
  forall k j j' fn fn' n d d' i i', says dirs k j fn n d i -> says dirs k j' fn' n d' i' -> j = j'.

(** A device 'a' has the directory of the ID 'i'. *)
Definition has_id (paths : list (Z * list Z)) (a i : Z) : Prop := exists ids, In (a, ids) paths /\ In i ids.

(** Every file is named after the feature it describes, and no other file of that name exists. *)
Definition tidy (dirs : list specdir) : Prop :=
  (forall k j fn n d i, says dirs k j fn n d i -> fn = n ++ s2l ".yml") /\
  (forall k k' j j' files files' fn c c', nth_error dirs k = Some files -> nth_error dirs k' = Some files' ->
     nth_error files j = Some (fn, c) -> nth_error files' j' = Some (fn, c') -> k = k' /\ j = j').

(** "a, b, c" *)
Inductive comma_listed : list str -> str -> Prop :=
| CL_one t : comma_listed [t] t
| CL_more t ts r : comma_listed ts r -> comma_listed (t :: ts) (t ++ s2l ", " ++ r).

(** The three lines of a device: address, package, instances. *)
Definition indent (p : str) : Prop := Forall (fun c => c = " "%char \/ c = "-"%char) p.
Inductive block (addr_text : Z -> str) (p1 p2 : str) : Z * Z * list Z -> list str -> Prop :=
| B_lines p a l : block addr_text p1 p2 (p, a, l)
    [p1 ++ s2l "PCI address: " ++ addr_text a; p2 ++ s2l "Package: " ++ dec p; p2 ++ s2l "Instances: " ++ rangify l].
Definition before (x y : Z * Z * list Z) : Prop :=
  fst (fst x) < fst (fst y) \/ fst (fst x) = fst (fst y) /\ snd (fst x) < snd (fst y).
