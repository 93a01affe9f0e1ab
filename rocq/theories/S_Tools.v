(** Specification of the identification of the operating system and of the search for tools (C82). *)
From Coq Require Import Ascii String.
From Verif Require Import Base M_Text S_Systemd S_Ident M_Tools.
Open Scope list_scope.

(** The line gives the variable [key] the value [v]: key=v, with double quotes around the value and white space around all of it, or without. *)
Definition quotes (q : str) : Prop := Forall (fun c => c = ascii_of_nat 34) q.
Definition os_says (key line v : str) : Prop :=
  exists a b q1 q2, S_Systemd.spaces a /\ S_Systemd.spaces b /\ quotes q1 /\ quotes q2 /\
    ~ In "="%char key /\ ~ In "="%char v /\ (forall t, key <> "#"%char :: t) /\
    (forall t, v <> ascii_of_nat 34 :: t) /\ (forall t, v <> t ++ [ascii_of_nat 34]) /\
    tight (key ++ "="%char :: q1 ++ v ++ q2) /\ line = a ++ (key ++ "="%char :: q1 ++ v ++ q2) ++ b.

(** The file that counts: the first one, if it says anything, else the second one. *)
Definition says_nothing (f : list str) : Prop := forall key, none_says (os_says key) f.
Definition file_used (e : env) (f : list str) : Prop := (f = e_usr e /\ ~ says_nothing f) \/ (f = e_etc e /\ says_nothing (e_usr e)).

(** The first letter in upper case, the others in lower case. *)
Definition up (c d : ascii) : Prop :=
  ((97 <= nat_of_ascii c <= 122)%nat /\ nat_of_ascii d + 32 = nat_of_ascii c)%nat \/ (~ (97 <= nat_of_ascii c <= 122)%nat /\ d = c).
Definition down (c d : ascii) : Prop :=
  ((65 <= nat_of_ascii c <= 90)%nat /\ nat_of_ascii d = nat_of_ascii c + 32)%nat \/ (~ (65 <= nat_of_ascii c <= 90)%nat /\ d = c).
Inductive capital : str -> str -> Prop :=
| capital_nil : capital [] []
| capital_cons c d t u : up c d -> Forall2 down t u -> capital (c :: t) (d :: u).

(** The packages of the tools. *)
Definition everywhere : list (string * string) :=
  [("cat", "coreutils"); ("cc", "gcc"); ("clang", "clang"); ("depmod", "kmod"); ("dmesg", "util-linux"); ("find", "findutils"); ("gcc", "gcc");
   ("libelf", "elfutils-libelf-devel"); ("lscpu", "util-linux"); ("lspci", "pciutils"); ("make", "make"); ("modprobe", "kmod");
   ("phc2sys", "linuxptp"); ("rmmod", "kmod"); ("rsync", "rsync"); ("sync", "coreutils"); ("systemctl", "systemd"); ("xargs", "findutils")]%string.
Definition on_system (os : string) : list (string * string) :=
  (if existsb (String.eqb os) ["fedora"; "centos"; "rhel"] then
     [("tc", "iproute-tc"); ("bpftool", "bpftool"); ("libbpf", "libbpf-devel"); ("sch_etf.ko", "kernel-modules-extra")]
   else if String.eqb os "ubuntu" then
     [("tc", "iproute2"); ("bpftool", "linux-tools-common"); ("libbpf", "libbpf-dev"); ("sch_etf.ko", "linux-modules")]
   else [("tc", "iproute2"); ("bpftool", "bpftool"); ("libbpf", "libbpf-dev"); ("sch_etf.ko", "linux-modules")])%string.
Definition systems : list string := ["fedora"; "centos"; "rhel"; "ubuntu"; "debian"]%string.
Definition package_of (os tool pkg : str) : Prop :=
  exists o t p, In o systems /\ In (t, p) (everywhere ++ on_system o) /\ os = s2l o /\ tool = s2l t /\ pkg = s2l p.

(** The name of a file in a directory. *)
Definition file_name (path name : str) : Prop := ~ In "/"%char name /\ (path = name \/ exists dir, path = dir ++ "/"%char :: name).
