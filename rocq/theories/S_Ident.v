(** Specification of the identification of the processor (C80). *)
From Coq Require Import Ascii String.
From Verif Require Import Base M_Text S_Text S_Human S_Topo S_Kver S_Systemd S_Prelude M_Kver M_Topo M_Ident.
Open Scope list_scope.
Open Scope Z_scope.

(** The fields and the labels that 'lscpu' gives them. *)
Definition labels : list (string * string) :=
  [("arch", "Architecture:"); ("byteorder", "Byte Order:"); ("vendor", "Vendor ID:"); ("packages", "Socket(s):"); ("family", "CPU family:");
   ("model", "Model:"); ("modelname", "Model name:"); ("stepping", "Stepping:"); ("flags", "Flags:")]%string.

(** No white space at either end. *)
Definition tight (v : str) : Prop := (forall c t, v = c :: t -> is_space c = false) /\ (forall t c, v = t ++ [c] -> is_space c = false).

(** The line has the label and the value [v]. *)
Definition line_says (label : string) (line v : str) : Prop :=
  exists a b c, S_Systemd.spaces a /\ S_Systemd.spaces b /\ S_Systemd.spaces c /\ tight v /\ line = a ++ s2l label ++ b ++ v ++ c.

(** The line is that of the model name and ends with a frequency: "... @ 2.10GHz". *)
Definition freq_says (line v : str) : Prop :=
  exists a m b c, S_Systemd.spaces a /\ S_Systemd.spaces b /\ S_Systemd.spaces c /\ ~ In "@"%char v /\ (forall d t, v = d :: t -> is_space d = false) /\
    line = a ++ s2l "Model name:" ++ m ++ "@"%char :: b ++ v ++ s2l "GHz" ++ c.

(** What a value stands for: a number, or a text that begins with a letter or has a character no number has. *)
Definition odd_char (c : ascii) : Prop := foreign c /\ c <> "o"%char /\ c <> "O"%char.
Definition letter (c : ascii) : Prop := (65 <= nat_of_ascii c <= 90)%nat \/ (97 <= nat_of_ascii c <= 122)%nat.
Inductive stands_for : str -> ival -> Prop :=
| SF_num s z : integer_text s z -> stands_for s (IInt z)
| SF_empty : stands_for [] (IText [])
| SF_word c s : letter c -> stands_for (c :: s) (IText (c :: s))
| SF_foreign s : Exists odd_char s -> stands_for s (IText s).

(** The last line for which [P] holds says [v]. *)
Definition last_says (P : str -> str -> Prop) (lines : list str) (v : str) : Prop :=
  exists l1 line l2, lines = l1 ++ line :: l2 /\ P line v /\ forall line' v', In line' l2 -> ~ P line' v'.
Definition none_says (P : str -> str -> Prop) (lines : list str) : Prop := forall line v, In line lines -> ~ P line v.

Definition value_at (d : info) (key : string) : option ival := dget String.eqb d key.

(** 'lscpu' output whose values are all numbers or texts, the flags being a text. *)
Definition plain (lines : list str) : Prop :=
  (forall line key label v, In line lines -> In (key, label) labels -> line_says label line v -> exists x, stands_for v x) /\
  (forall line v, In line lines -> freq_says line v -> exists x, stands_for v x) /\
  (forall line v, In line lines -> line_says "Flags:" line v -> stands_for v (IText v)).

(** "genuine intel" in the text, in upper or lower case. *)
Definition same_letter (a b : ascii) : Prop :=
  a = b \/ ((97 <= nat_of_ascii b <= 122)%nat /\ nat_of_ascii b = (nat_of_ascii a + 32)%nat).
Definition genuine (name : str) : Prop :=
  exists p m q, name = p ++ m ++ q /\ Forall2 same_letter m (s2l "genuine intel").

(** A kernel older than 6.5. *)
Definition old_kernel (v : str) : Prop := exists k, split_kver v = Ok k /\ before k (KV 6 5 0 None []).

(** A call to something that prints the warning: the files of the E-cores and P-cores, 'uname -r', the offline CPUs. *)
Record moment := Moment { m_atom : res str; m_core : res str; m_uname : res str; m_offline : res (list Z) }.
Definition at_moment (d : info) (m : moment) (s : fstate) : fstate := snd (warn_no_ecores_bug d (m_atom m) (m_core m) (m_uname m) (m_offline m) s).
Definition after_all (d : info) (ms : list moment) : fstate := fold_left (fun s m => at_moment d m s) ms f_init.

Definition hybrid (d : info) : Prop := value_at d "hybrid" = Some (IBool true).
Definition no_cpus (f : res str) : Prop := read_range f = Ok [].

(** A JSON value, with numbers in place of their texts. *)
Inductive jreads : jval -> jval -> Prop :=
| JR_num s z : integer_text s z -> jreads (JStr s) (JInt z)
| JR_empty : jreads (JStr []) (JStr [])
| JR_word c s : letter c -> jreads (JStr (c :: s)) (JStr (c :: s))
| JR_foreign s : Exists odd_char s -> jreads (JStr s) (JStr s)
| JR_int n : jreads (JInt n) (JInt n)
| JR_null : jreads JNull JNull.

(** The cache [i] of the output, and how it is told. *)
Definition cache_reads (i : jcache) (c : jval * jcache) : Prop :=
  In (s2l "name", fst c) i /\ NoDup (map fst i) /\ Forall2 (fun kv kw => fst kv = fst kw /\ jreads (snd kv) (snd kw)) i (snd c).

(** The text about dies. *)
Inductive piece : Z * list Z -> str -> Prop :=
| Piece_one p d : piece (p, [d]) (s2l "package " ++ dec p ++ s2l " die " ++ dec d)
| Piece_more p d e l : piece (p, d :: e :: l) (s2l "package " ++ dec p ++ s2l " dies " ++ rangify (d :: e :: l)).
Inductive tells : list (Z * list Z) -> str -> Prop :=
| Tells_one x t : piece x t -> tells [x] t
| Tells_two x y t u : piece x t -> piece y u -> tells [x; y] (t ++ s2l ", and " ++ u)
| Tells_more x y z l t u : piece x t -> tells (y :: z :: l) u -> tells (x :: y :: z :: l) (t ++ s2l ", " ++ u).
