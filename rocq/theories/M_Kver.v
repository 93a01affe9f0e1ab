(** Model of kernel version comparison: pepclibs/helperlibs/KernelVersion.py. *)
From Verif Require Import Base M_Text.

(** The character class \d, ASCII only. *)
Definition digitb (c : ascii) : bool :=
  let n := Z.of_nat (nat_of_ascii c) in (48 <=? n) && (n <=? 57).

(** Greedy: as many digits as there are. *)
Fixpoint span_digits (l : str) : str * str :=
  match l with
  | [] => ([], [])
  | c :: t => if digitb c then let (d, r) := span_digits t in (c :: d, r) else ([], l)
  end.

(** (\d+), greedy: no match without a digit. *)
Definition digits1 (l : str) : option (str * str) :=
  match span_digits l with
  | ([], _) => None
  | (d, r) => Some (d, r)
  end.

(** dot-star: everything up to a newline. *)
Fixpoint dot_star (l : str) : str :=
  match l with
  | [] => []
  | c :: t => if Ascii.eqb c "010" then [] else c :: dot_star t
  end.

(** A literal prefix. *)
Fixpoint lit (p l : str) : option str :=
  match p, l with
  | [], _ => Some l
  | c :: p', d :: l' => if Ascii.eqb c d then lit p' l' else None
  | _ :: _, [] => None
  end.

(** int() of a string of decimal digits. *)
Definition digits_val (s : str) : Z :=
  fold_left (fun v c => v * 10 + (Z.of_nat (nat_of_ascii c) - 48)) s 0.

Record kver := KV { kv_major : Z; kv_minor : Z; kv_stable : Z; kv_rc : option Z; kv_local : str }.

(** KernelVersion.py:29-35 _fetch_rc(): "-rc", digits, the rest *)
Definition fetch_rc (localver : str) : option Z * str :=
  match lit (s2l "-rc") localver with
  | Some l =>
      match digits1 l with
      | Some (d, r) => (Some (digits_val d), dot_star r)
      | None => (None, localver)
      end
  | None => (None, localver)
  end.

(** KernelVersion.py:37: the optional third group, a dot and digits (absent: line 44 makes it 0) *)
Definition fetch_stable (l : str) : Z * str :=
  match lit (s2l ".") l with
  | Some l' =>
      match digits1 l' with
      | Some (d, r) => (digits_val d, r)
      | None => (0, l)
      end
  | None => (0, l)
  end.

(** KernelVersion.py:21-52 split_kver(numerical=True): the regular expression
    of line 37 read from left to right; it needs no backtracking. *)
Definition split_kver (s : str) : res kver :=
  match digits1 s with
  | None => Exn EError
  | Some (major, l1) =>
      match lit (s2l ".") l1 with
      | None => Exn EError
      | Some l2 =>
          match digits1 l2 with
          | None => Exn EError
          | Some (minor, l3) =>
              let (stable, l4) := fetch_stable l3 in
              let (rc, localver) := fetch_rc (dot_star l4) in
              Ok (KV (digits_val major) (digits_val minor) stable rc localver)
          end
      end
  end.

(** "a < b" for strings: lexicographic by character code. *)
Fixpoint str_ltb (a b : str) : bool :=
  match a, b with
  | _, [] => false
  | [], _ :: _ => true
  | c :: a', d :: b' =>
      let x := Z.of_nat (nat_of_ascii c) in let y := Z.of_nat (nat_of_ascii d) in
      if x <? y then true else if x =? y then str_ltb a' b' else false
  end.

(** KernelVersion.py:60-65 _lt() *)
Definition rc_lt (a b : option Z) : bool :=
  match a, b with
  | None, _ => false
  | Some _, None => true
  | Some x, Some y => x <? y
  end.

Definition rc_eqb (a b : option Z) : bool :=
  match a, b with
  | None, None => true
  | Some x, Some y => x =? y
  | _, _ => false
  end.

(** KernelVersion.py:70-78 *)
Definition kv_ltb (a b : kver) : bool :=
  if negb (kv_major a =? kv_major b) then kv_major a <? kv_major b
  else if negb (kv_minor a =? kv_minor b) then kv_minor a <? kv_minor b
  else if negb (kv_stable a =? kv_stable b) then kv_stable a <? kv_stable b
  else if negb (rc_eqb (kv_rc a) (kv_rc b)) then rc_lt (kv_rc a) (kv_rc b)
  else str_ltb (kv_local a) (kv_local b).

(** KernelVersion.py:54-78 kver_lt() *)
Definition kver_lt (s1 s2 : str) : res bool :=
  let? a := split_kver s1 in
  let? b := split_kver s2 in
  Ok (kv_ltb a b).

(** KernelVersion.py:80-86 kver_ge() *)
Definition kver_ge (s1 s2 : str) : res bool :=
  let? b := kver_lt s1 s2 in Ok (negb b).
