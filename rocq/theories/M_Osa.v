(** Model of the typo suggestion: pepclibs/helperlibs/DamerauLevenshtein.py. *)
From Verif Require Import Base M_Text.

(** "for x in l: a = f(a, x)", stopping at the first exception. *)
Fixpoint rfold {A B} (f : A -> B -> res A) (l : list B) (a : A) : res A :=
  match l with
  | [] => Ok a
  | x :: t => let? a' := f a x in rfold f t a'
  end.

(** The list of rows; rows grow while they are computed. *)
Definition matrix := list (list Z).

(** matrix[i][j] *)
Definition cell (m : matrix) (i j : nat) : res Z :=
  match nth_error m i with
  | None => Exn EIndex
  | Some row => match nth_error row j with Some v => Ok v | None => Exn EIndex end
  end.

(** s[i] *)
Definition char_at (s : str) (i : nat) : res ascii :=
  match nth_error s i with Some c => Ok c | None => Exn EIndex end.

(** l[i] = f(l[i]) *)
Fixpoint upd {A} (l : list A) (i : nat) (f : A -> A) : list A :=
  match l, i with
  | [], _ => []
  | x :: t, O => f x :: t
  | x :: t, S i' => x :: upd t i' f
  end.

(** DamerauLevenshtein.py:23-24 *)
Definition init_matrix (first second : str) : matrix :=
  upd (map (fun i => [Z.of_nat i]) (seq 0 (length first + 1))) 0
      (fun _ => map Z.of_nat (seq 0 (length second + 1))).

(** DamerauLevenshtein.py:28-38: one step of the inner loop *)
Definition osa_step (first second : str) (fdx : nat) (m : matrix) (sdx : nat) : res matrix :=
  let? f1 := char_at first (fdx - 1) in
  let? s1 := char_at second (sdx - 1) in
  let cost := if Ascii.eqb f1 s1 then 0 else 1 in
  let? del := cell m (fdx - 1) sdx in
  let? ins := cell m fdx (sdx - 1) in
  let? sub := cell m (fdx - 1) (sdx - 1) in
  let m1 := upd m fdx (fun row => row ++ [Z.min (Z.min (del + 1) (ins + 1)) (sub + cost)]) in
  if ((1 <? fdx) && (1 <? sdx))%nat then
    let? s2 := char_at second (sdx - 2) in
    let? f2 := char_at first (fdx - 2) in
    if Ascii.eqb f1 s2 && Ascii.eqb f2 s1 then
      let? cur := cell m1 fdx sdx in
      let? tr := cell m1 (fdx - 2) (sdx - 2) in
      Ok (upd m1 fdx (fun row => upd row sdx (fun _ => Z.min cur (tr + cost))))
    else Ok m1
  else Ok m1.

(** DamerauLevenshtein.py:20-40 osa_distance() *)
Definition osa_distance (first second : str) : res Z :=
  let? m := rfold (fun m fdx => rfold (osa_step first second fdx) (seq 1 (length second)) m)
                  (seq 1 (length first)) (init_matrix first second) in
  cell m (length first) (length second).

(** str.lower(), ASCII letters only *)
Definition lower_char (c : ascii) : ascii :=
  let n := nat_of_ascii c in
  if ((65 <=? n) && (n <=? 90))%nat then ascii_of_nat (n + 32) else c.
Definition lower (s : str) : str := map lower_char s.

(** DamerauLevenshtein.py:42, 43-44: the form in which strings are compared *)
Definition folded (case_sensitive : bool) (s : str) : str := if case_sensitive then s else lower s.

(** DamerauLevenshtein.py:42: the dictionary of options by their compared form *)
Definition options_of (cs : bool) (strings : list str) : list (str * str) :=
  fold_left (fun d o => dset str_eqb d (folded cs o) o) strings [].

(** DamerauLevenshtein.py:46-50: (best score, best option) *)
Definition best_of (s : str) (keys : list str) (maxd : Z) : res (Z * option str) :=
  rfold (fun best o =>
           let? score := osa_distance s o in
           Ok (if score <? fst best then (score, Some o) else best))
        keys (maxd + 1, None).

(** DamerauLevenshtein.py:13-53 closest_match(); "if best[1]" is false for None and for the empty
    string *)
Definition closest_match (s : str) (strings : list str) (maxd : Z) (cs : bool) : res (option str) :=
  let options := options_of cs strings in
  let? best := best_of (folded cs s) (map fst options) maxd in
  match snd best with
  | Some (c :: t) =>
      match dget str_eqb options (c :: t) with
      | Some o => Ok (Some o)
      | None => Exn EKey
      end
  | _ => Ok None
  end.
