(** C70: TPMI spec files, the features of a host, and 'tpmi ls'. *)
From Coq Require Import Permutation Sorting.Sorted.
From Verif Require Import Base M_Text M_Tpmi S_Tpmi M_TpmiCmd S_TpmiCmd M_TpmiSpec S_TpmiSpec
  L_TpmiSpec L_TpmiSpec2 L_TpmiSpec3 L_TpmiSpec4 L_TpmiSpec5 L_TpmiSpec6 X_TpmiSpec.

(** Every file describes a feature, is in error, or is one pepc trips over; no file is two of these. *)
Theorem C70_file : forall c path,
  (forall n d i, describes c n d i <-> load_sdict path c = Ok (SD n d i path)) /\
  (erroneous c <-> exists e, load_sdict path c = Exn e /\ is_Error e = true) /\
  (fatal c <-> exists e, load_sdict path c = Exn e /\ is_Error e = false).
Proof. exact file_l. Qed.
Print Assumptions C70_file.

(** The spec files are taken if and only if every directory has at most 32 other files, 4 files in error and 256 features, no
    file is fatal, and there is a feature. *)
Theorem C70_succeeds : forall dirs, (exists sd, build_sdicts dirs = Ok sd) <->
  Forall acceptable dirs /\ exists k j fn n d i, says dirs k j fn n d i.
Proof. exact succeeds_l. Qed.
Print Assumptions C70_succeeds.

(** The features are those the files describe, each as in the last file which describes it. *)
Theorem C70_scan : forall dirs sd, build_sdicts dirs = Ok sd ->
  forall n x, dget str_eqb sd n = Some x <-> defined dirs n x.
Proof. exact scan_l. Qed.
Print Assumptions C70_scan.

(** The order in which the files of a directory are listed does not matter. *)
Theorem C70_order : forall dirs dirs' sd, Forall2 (@Permutation _) dirs dirs' -> no_twins dirs -> build_sdicts dirs = Ok sd ->
  exists sd', build_sdicts dirs' = Ok sd' /\ forall n, dget str_eqb sd' n = dget str_eqb sd n.
Proof. exact order_l. Qed.
Print Assumptions C70_order.

(** An ID stands for the feature that has it. *)
Theorem C70_ids : forall dirs sd, build_sdicts dirs = Ok sd -> distinct_ids dirs ->
  forall i n, dget Z.eqb (fid2fname sd) i = Some n <-> exists x, defined dirs n x /\ sd_fid x = i.
Proof. exact ids_l. Qed.
Print Assumptions C70_ids.

(** The known features are those which are described and which a device has, each once. *)
Theorem C70_known : forall dirs paths package f, discover dirs paths package = Ok f -> distinct_ids dirs ->
  exists l, get_known_features f = Ok l /\ NoDup (map sd_name l) /\
    (forall x, In x l <-> defined dirs (sd_name x) x /\ exists a, has_id paths a (sd_fid x)).
Proof. exact known_features_l. Qed.
Print Assumptions C70_known.

(** The unknown features are the IDs the devices have and nothing describes. *)
Theorem C70_unknown : forall dirs paths package f, discover dirs paths package = Ok f -> distinct_ids dirs ->
  forall i, In i (get_unknown_features f) <-> (exists a, has_id paths a i) /\ forall n x, defined dirs n x -> sd_fid x <> i.
Proof. exact unknown_features_l. Qed.
Print Assumptions C70_unknown.

(** The devices of a feature are those that have it; 'tpmi_info' is expected of all. *)
Theorem C70_devices : forall dirs paths package f, discover dirs paths package = Ok f -> distinct_ids dirs ->
  NoDup (map fst (f_fmaps f)) /\
  (forall n, (exists addrs, In (n, addrs) (f_fmaps f)) <-> exists x a, defined dirs n x /\ has_id paths a (sd_fid x)) /\
  forall n addrs, In (n, addrs) (f_fmaps f) -> NoDup addrs /\
    (n <> s2l "tpmi_info" -> forall a, In a addrs <-> exists x, defined dirs n x /\ has_id paths a (sd_fid x)) /\
    (n = s2l "tpmi_info" -> forall a, In a addrs <-> exists m x, defined dirs m x /\ has_id paths a (sd_fid x)).
Proof. exact devices_l. Qed.
Print Assumptions C70_devices.

(** Nothing else is needed for the features to be found. *)
Theorem C70_discovers : forall dirs paths package fd x a, distinct_ids dirs -> Forall acceptable dirs ->
  defined dirs (s2l "tpmi_info") x -> has_id paths a (sd_fid x) ->
  get_fdict dirs (s2l "tpmi_info") = Ok fd ->
  (forall a, (exists n y, defined dirs n y /\ has_id paths a (sd_fid y)) -> exists p, package fd a = Ok p) ->
  exists f, discover dirs paths package = Ok f.
Proof. exact discovers_l. Qed.
Print Assumptions C70_discovers.

(** The registers of a feature are those of the file that describes it, if every file is named "<feature>.yml" and no two
    files have the same name. *)
Theorem C70_registers_partial : forall dirs k j fn n d i files kvs t l, tidy dirs -> says dirs k j fn n d i ->
  nth_error dirs k = Some files -> nth_error files j = Some (fn, CMap kvs) ->
  Permutation kvs [(s2l "name", YScalar n); (s2l "desc", YScalar d); (s2l "feature-id", YScalar t); (s2l "registers", YRegs l)] ->
  get_fdict dirs n = format_fdict l.
Proof. exact registers_l. Qed.
Print Assumptions C70_registers_partial.

(** Registers are only ever taken from the first directory that has a file "<feature>.yml", and from a file that has the four
    keys and no others. *)
Theorem C70_four_keys : forall dirs fname fd, get_fdict dirs fname = Ok fd -> exists k files kvs l,
  nth_error dirs k = Some files /\
  (forall k' files', (k' < k)%nat -> nth_error dirs k' = Some files' -> ~ In (fname ++ s2l ".yml"%string) (map fst files')) /\
  In (fname ++ s2l ".yml"%string, CMap kvs) files /\
  (forall key, In key (map fst kvs) <-> In key (map s2l ["name"; "desc"; "feature-id"; "registers"]%string)) /\
  In (s2l "registers"%string, YRegs l) kvs /\ format_fdict l = Ok fd.
Proof. exact four_keys_l. Qed.
Print Assumptions C70_four_keys.
Example C70_four_keys_ex : get_fdict x_dirs (s2l "uncore") = Ok [(1, {| rd_offset := 8; rd_width := 32; rd_fields := [] |})].
Proof. vm_compute. reflexivity. Qed.

(** 'tpmi ls' prints the known features with their descriptions, and the unknown IDs if asked to. *)
Theorem C70_ls : forall addr_text f iter long all host l lines,
  get_known_features f = Ok l -> l <> [] -> Forall (Z.le 0) (get_unknown_features f) ->
  tpmi_ls addr_text f iter long all host = Ok lines ->
  exists bodies tl, lines = s2l "Supported TPMI features" :: concat bodies ++ tl /\
    Forall2 (fun x b => exists rest, b = (s2l " - " ++ sd_name x ++ s2l ": " ++ strip (sd_desc x)) :: rest /\
               (long = false -> rest = []) /\
               (long = true -> exists its, iter (sd_name x) = Ok its /\ rest = ls_long addr_text (s2l "   ") its)) l bodies /\
    (all = false \/ get_unknown_features f = [] -> tl = []) /\
    (all = true -> get_unknown_features f <> [] -> exists ts txt,
       tl = [s2l "Unknown TPMI features (available" ++ host ++ s2l ", but no spec file found)"; s2l " - " ++ txt] /\
       comma_listed ts txt /\ Forall2 typed_value ts (get_unknown_features f)).
Proof. exact ls_l. Qed.
Print Assumptions C70_ls.

Theorem C70_ls_succeeds : forall addr_text f iter long all host l, get_known_features f = Ok l ->
  (long = true -> forall x, In x l -> exists its, iter (sd_name x) = Ok its) ->
  exists lines, tpmi_ls addr_text f iter long all host = Ok lines.
Proof. exact ls_succeeds_l. Qed.
Print Assumptions C70_ls_succeeds.

(** 'tpmi ls -l' prints three lines for every device of the feature, by package and address, with all its instances. *)
Theorem C70_long : forall addr_text prefix its, indent prefix ->
  exists devices blocks, ls_long addr_text prefix its = concat blocks /\
    Forall2 (fun x b => exists p1 p2, indent p1 /\ indent p2 /\ block addr_text p1 p2 x b) devices blocks /\
    StronglySorted before devices /\
    (forall p a l, In (p, a, l) devices -> NoDup l /\ l <> [] /\ forall i, In i l <-> In (a, p, i) its) /\
    (forall a p i, In (a, p, i) its -> exists l, In (p, a, l) devices).
Proof. exact long_l. Qed.
Print Assumptions C70_long.

(** A user's directory with a feature and a file in error, the standard directory with two features and another file, two
    devices. *)
Example C70_case : Forall acceptable x_dirs /\ distinct_ids x_dirs /\ no_twins x_dirs /\ tidy x_dirs /\
  build_sdicts x_dirs = Ok x_sd /\ discover x_dirs x_paths x_package = Ok x_found /\
  get_fdict x_dirs (s2l "uncore") = format_fdict (x_reg 8) /\
  tpmi_ls dec x_found (fun _ => Ok []) false true [] = Ok (map s2l ["Supported TPMI features"; " - tpmi_info: TPMI information";
     " - uncore: Uncore frequency"; " - mine: My feature"; "Unknown TPMI features (available, but no spec file found)"; " - 0x5"]%string).
Proof.
  split; [exact x_acceptable|]. split; [exact x_distinct|]. split; [exact x_no_twins|]. split; [exact x_tidy|].
  split; [exact x_build|]. split; [exact x_discover|]. split; vm_compute; reflexivity.
Qed.

(** A feature of a "*.yaml" file is listed as supported, and its registers are "not supported". *)
Theorem C70_extension_refuted : exists dirs paths package f l n d i,
  discover dirs paths package = Ok f /\ get_known_features f = Ok l /\ In n (map sd_name l) /\ says dirs 0 0 (n ++ s2l ".yaml") n d i /\
  get_fdict dirs n = Exn ENotSupported.
Proof. exact extension_l. Qed.
Print Assumptions C70_extension_refuted.

(** A spec file of the user for a standard feature gives the registers, but not the ID and the description. *)
Theorem C70_override_refuted : exists user standard n sd x,
  says [user] 0 0 (n ++ s2l ".yml") n (s2l "My uncore") 16 /\ build_sdicts (find_spec_dirs (Some user) standard) = Ok sd /\
  dget str_eqb sd n = Some x /\ sd_fid x = 2 /\ sd_desc x = s2l "Uncore frequency" /\
  get_fdict (find_spec_dirs (Some user) standard) n = get_fdict [user] n /\ get_fdict [user] n <> get_fdict [standard] n.
Proof. exact override_l. Qed.
Print Assumptions C70_override_refuted.

(** Of two features with the same ID one is neither known nor unknown. *)
Theorem C70_same_id_refuted : exists dirs paths package f l n x a, discover dirs paths package = Ok f /\ get_known_features f = Ok l /\
  defined dirs n x /\ has_id paths a (sd_fid x) /\ ~ In n (map sd_name l) /\ ~ In (sd_fid x) (get_unknown_features f).
Proof. exact same_id_l. Qed.
Print Assumptions C70_same_id_refuted.

(** One file that ends after two keys, or is not YAML, is not tolerated: no TPMI command works. *)
Theorem C70_fatal : forall dirs k j files fn, nth_error dirs k = Some files -> spec_name fn ->
  nth_error files j = Some (fn, CMap [(s2l "name", YScalar (s2l "a")); (s2l "desc", YScalar (s2l "A"))]) \/ nth_error files j = Some (fn, CBroken) ->
  forall paths package f, discover dirs paths package <> Ok f.
Proof. exact truncated_file_l. Qed.
Print Assumptions C70_fatal.

(** An unknown ID is listed as many times as there are devices with it. *)
Theorem C70_unknown_once_refuted : exists dirs paths package f, discover dirs paths package = Ok f /\ distinct_ids dirs /\
  ~ NoDup (get_unknown_features f).
Proof. exact repeated_l. Qed.
Print Assumptions C70_unknown_once_refuted.

(** The second device of a package is printed as if it were part of the first one. *)
Theorem C70_indent_refuted : exists its, ls_long dec (s2l "   ") its =
  map s2l ["   - PCI address: 1"; "       Package: 0"; "       Instances: 0,1"; "     - PCI address: 2"; "         Package: 0"; "         Instances: 0"]%string.
Proof. exact nested_l. Qed.
Print Assumptions C70_indent_refuted.
