(** Vocabulary for C71: what the 'info' commands print. *)
From Coq Require Import Ascii String.
From Verif Require Import Base M_CPUInfo M_Text M_Human M_CPUIdle M_Props M_OpTarget M_Print S_Print M_InfoCmd.

(** ** C-states for people *)

(** The lines about one C-state: its name; whether it is off, on which CPUs, and the text that says on which; and the other
    things known of it. *)
Record cs_block := CB { cb_name : str; cb_status : list (bool * list Z * str); cb_detail : list (str * cval) }.

(** [action] is what was done, like "set to". *)
Definition action_text (action : option str) : str :=
  match action with None | Some [] => s2l ": "%string | Some t => s2l ": "%string ++ t ++ s2l " "%string end.
Definition status_line (action : option str) (group : bool) (n : str) (st : bool * list Z * str) : str :=
  s2l (if group then " - " else "")%string ++ n ++ action_text action ++ s2l (if fst (fst st) then "'off' for " else "'on' for ")%string ++ snd st.

Definition cs_details : list str := map s2l ["desc"; "latency"; "residency"]%string.

Definition detail_line (group : bool) (kv : str * cval) : str :=
  s2l (if group then "    - " else " - ")%string ++
  (if str_eqb (fst kv) (s2l "latency"%string) then s2l "expected latency: "%string
   else if str_eqb (fst kv) (s2l "residency"%string) then s2l "target residency: "%string else s2l "description: "%string) ++
  (match snd kv with CInt n => dec n | CStr t => t end) ++
  (if str_eqb (fst kv) (s2l "desc"%string) then [] else s2l " us"%string).

Definition block_text (action : option str) (group : bool) (b : cs_block) : list str :=
  map (status_line action group (cb_name b)) (cb_status b) ++ map (detail_line group) (cb_detail b).

Definition cs_text (action : option str) (group : bool) (descr : str) (blocks : list cs_block) : list str :=
  (if group then [s2l "Source: "%string ++ descr] else []) ++ concat (map (block_text action group) blocks).

(** ** Properties *)

(** The properties the user asked for: all of them, or the ones given, each with its sub-properties after it. *)
Definition info_names {A} (props : list (Z * A)) (subs : Z -> list Z) (oargs : option (list Z)) : list Z :=
  match oargs with None => map fst props | Some l => flat_map (fun p => p :: subs p) l end.

(** A list of mechanisms that the user can type: names, with commas between them. *)
Definition typed_list (t : str) (ws : list str) : Prop :=
  t = join "," ws /\ ws <> [] /\ NoDup ws /\ forall w, In w ws -> w <> [] /\ forall c, In c w -> c <> ","%char /\ is_space c = false.

(** Value [v] of property [p] of [k] was read with mechanism [m]. *)
Definition was_read {V} (l : list (Z * list (@pitem V))) (m p : Z) (v : option V) (k : pnum) : Prop :=
  exists items, In (p, items) l /\ In (k, v, m) items.

(** The YAML output says that [k] has [out] as the value of property [p]. *)
Definition yaml_says {V} (y : list (Z * list (yout V * rsname * ynums))) (p : Z) (out : yout V) (k : pnum) : Prop :=
  exists vs sn ns n, In (p, vs) y /\ In (out, sn, ns) vs /\ parse_ynums ns = Ok n /\ holds sn n k.

(** How a value is written. *)
Definition written_as {V} (ty : ptype) (v : option V) (out : yout V) : Prop :=
  match v, ty with
  | Some x, _ => out = YoVal x
  | None, TScalar => out = YoText (s2l "not supported"%string)
  | None, TList => out = YoTexts (map s2l ["n"; "o"; "t"; " "; "s"; "u"; "p"; "p"; "o"; "r"; "t"; "e"; "d"]%string)
  | None, TDict => False
  end.

(** The mechanisms that are allowed: all (None) if no text was given, or those named in the text. *)
Definition mechs_named (tab : list (str * Z)) (t : str) (ms : option (list Z)) : Prop :=
  match ms with
  | None => t = []
  | Some l => t <> [] /\ forall ws, typed_list t ws -> Forall2 (fun w m => In (w, m) tab) ws l
  end.

(** If no property was asked for by name, unsupported properties are left out. *)
Definition to_show {V} (oargs : option (list Z)) (v : option V) : Prop := oargs = None -> v <> None.
Definition nothing_to_show {V} (oargs : option (list Z)) (l : list (Z * list (@pitem V))) : Prop :=
  forall m p v k, was_read l m p v k -> ~ to_show oargs v.

(** The message that there is nothing, exactly if there is nothing. *)
Definition with_message {V} (oargs : option (list Z)) (l : list (Z * list (@pitem V))) (o : iout V) (out : list (iout V)) : Prop :=
  (out = [o; ONothing] /\ nothing_to_show oargs l) \/
  (out = [o] /\ exists m p v k, was_read l m p v k /\ to_show oargs v).
