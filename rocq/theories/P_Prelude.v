(** '--list-mechanisms', the modules of an emulated system, '--override-cpu-model' and the 'tuned' check (C79). *)
From Coq Require Import Ascii String.
From Verif Require Import Base M_Text S_Text M_CFreq M_Route M_Prelude S_Prelude L_Prelude X_Prelude.
Open Scope list_scope.
Open Scope Z_scope.

(** Exactly the mechanisms of the properties of the class, each once. *)
Theorem C79_list f t : lists_for f t -> t <> pmqos_table ->
  exists l, list_mechanisms (s2l f) = Ok l /\ NoDup (map fst l) /\ forall m, In m (map fst l) <-> has_mechanism t m.
Proof. exact (list_ok f t). Qed.

Theorem C79_list_names f t l : lists_for f t -> list_mechanisms (s2l f) = Ok l ->
  (t = pstates_table -> map fst l = ["sysfs"; "msr"; "cppc"; "doc"]%string) /\
  (t = cstates_table -> map fst l = ["sysfs"; "msr"; "doc"]%string) /\
  (t = power_table -> map fst l = ["msr"]%string).
Proof. exact (list_names f t l). Qed.

(** The modules of the command, in order, up to the first that fails; the object is closed if that is an 'Error'. *)
Theorem C79_emulation init cmd sub modules r l open : needs cmd sub modules -> get_emul_pman init (command cmd sub) = (r, l, open) ->
  exists k, l = firstn k modules /\ (forall m, In m l -> init m = Ok tt) /\
    ((r = Ok tt /\ l = modules /\ open = true) \/
     exists m e, nth_error modules k = Some m /\ init m = Exn e /\ r = Exn e /\ (open = false <-> project_error e)).
Proof. exact (emul_result init cmd sub modules r l open). Qed.

Theorem C79_model_decimal s m0 : s <> [] -> Forall is_digit s -> override_cpu_model s m0 = (Ok tt, spelled s).
Proof. exact (override_dec s m0). Qed.

Theorem C79_model_0x x s n m0 : x = "x"%char \/ x = "X"%char -> hex s n -> override_cpu_model ("0"%char :: x :: s) m0 = (Ok tt, n).
Proof. exact (override_0x x s n m0). Qed.

(** Hexadecimal without "0x", if it cannot be decimal. *)
Theorem C79_model_hex s n m0 : hex s n -> Exists (fun c => ~ is_digit c) s -> override_cpu_model s m0 = (Ok tt, n).
Proof. exact (override_hex s n m0). Qed.

Theorem C79_model_bad s m0 : Exists foreign s -> override_cpu_model s m0 = (Exn EError, m0).
Proof. exact (override_foreign s m0). Qed.

Theorem C79_model_fails s m0 r m : override_cpu_model s m0 = (r, m) -> r = Ok tt \/ (r = Exn EError /\ m = m0).
Proof. exact (override_result s m0 r m). Qed.

(** The check warns if the service is active or cannot be checked, and never makes the command fail with an 'Error'. *)
Theorem C79_tuned active r msgs : check_tuned active = (r, msgs) ->
  (In TunedActive msgs <-> active = Ok true) /\
  (In TunedCheckFailed msgs <-> exists e, active = Exn e /\ e <> ENotFound /\ project_error e) /\
  (length msgs <= 1)%nat /\
  (r = Ok tt \/ exists e, active = Exn e /\ r = Exn e /\ ~ project_error e).
Proof. exact (tuned_result active r msgs). Qed.

Theorem C79_pmqos_list_refuted : exists f, lists_for f pmqos_table /\ has_mechanism pmqos_table "sysfs" /\ list_mechanisms (s2l f) = Exn EError.
Proof. exact pmqos_list. Qed.

Theorem C79_pmqos_emulation_refuted : forall init sub, In sub ["info"; "config"; "save"; "restore"]%string ->
  get_emul_pman init (command "pmqos" sub) = (Exn EError, [], false).
Proof. exact pmqos_emul. Qed.

Theorem C79_emulation_leak_refuted : exists init cmd sub modules e l, needs cmd sub modules /\ get_emul_pman init (command cmd sub) = (Exn e, l, true).
Proof. exact emul_leak. Qed.

Theorem C79_negative_model_refuted : exists s, override_cpu_model s 85 = (Ok tt, -106).
Proof. exact negative_model. Qed.

Print Assumptions C79_list.
Print Assumptions C79_list_names.
Print Assumptions C79_emulation.
Print Assumptions C79_model_decimal.
Print Assumptions C79_model_0x.
Print Assumptions C79_model_hex.
Print Assumptions C79_model_bad.
Print Assumptions C79_model_fails.
Print Assumptions C79_tuned.
Print Assumptions C79_pmqos_list_refuted.
Print Assumptions C79_pmqos_emulation_refuted.
Print Assumptions C79_emulation_leak_refuted.
Print Assumptions C79_negative_model_refuted.
