# Formal model of intel/pepc in Rocq (Coq 8.16.1)

Layout of `rocq/theories/` (logical name `Verif`):

* `Base.v` - exceptions as values, the state monad, small list/string helpers shared by the models.
* `M_*.v` - models: total Gallina functions mirroring the Python functions branch by branch, each
  with a comment citing file and lines in /repo. No proofs in these files.
* `S_*.v` - specifications: short definitions in terms of the English property only.
* `L_*.v` - lemmas and proofs.
* `X_*.v` - example systems, and the witnesses of the refutations.
* `P_*.v` - property theorems only; each is closed by `exact lemma`, followed by
  `Print Assumptions`, with `Example`s showing that the hypotheses are met by a non-trivial case.

Python integers are `Z`; Python lists are `list`; insertion-ordered dictionaries are association
lists; sysfs/MSR hardware is a total function from location to contents, plus an oracle telling
which reads and writes fail. Generators are modelled by the list of values they yield together with
the final exception, if any. Exceptions are values of the type `res`. A theorem about "every history"
quantifies over every list of calls, including failing ones.

A theorem whose name ends in `_partial` proves a part of its property, with a comment saying what is
missing. A theorem whose name ends in `_refuted` shows with a witness that the full statement is false
of the model, that is, of the code as it was read: these are findings, listed below.

## Trusted base

* Coq's kernel (coqc 8.16.1, no plugin beyond the ones of the standard library, no native compiler).
* `Print Assumptions` follows every theorem in the `P_*.v` files. It prints "Closed under the global
  context" for every one of them: no axiom, of the standard library or otherwise, is used.
* `coqchk` on the loaded libraries also lists the seven parameters of the sealed module
  `Coq.ssr.ssrunder.Under_rel` (`Under_rel`, `Under_relE`, `under_rel_done`, `over_rel`,
  `over_rel_done`, `Under_rel_from_rel`, `Over_rel`: the standard library declares them behind a
  module type). They come with loading the standard library's `Lia`/`ZifyBool`; no theorem here uses
  them.
* The models say what the cited Python lines do (by reading; nothing was run), with the
  simplifications stated in the comments of each definition.
* The statements and the specifications in the `S_*.v` files say what the English properties say.

Rational numbers (`Q` of the standard library) stand for Python floats in the power limits, PM QoS and
the human number formats; IEEE rounding is not modelled.

## What is modelled

| source | model | modelled | not modelled |
|--------|-------|----------|--------------|
| `helperlibs/Trivial.py` | `M_Text` | `str_to_int`, `is_int`, `split_csv_line(_int)`, `parse_int_list`, `rangify` | version and path helpers |
| `helperlibs/Human.py` | `M_Human` | `parse_human(_int)`, `num2si`, `scale_si_val`, `separate_si_prefix`, `duration`, `uncertainty` parts used | ranges of time stamps |
| `helperlibs/KernelVersion.py` | `M_Kver` | splitting, comparing | asking the host |
| `helperlibs/DamerauLevenshtein.py` | `M_Osa` | all | - |
| `_SysfsIO.py` | `M_Sysfs` | all read, write, verify and transaction methods, and the cache | process manager, messages |
| `_PerCPUCache.py`, `_PropsCache.py` | `M_MSR`, `M_EP`, `M_CPUIdle` | all | - |
| `msr/MSR.py` | `M_MSR` | all: bits, cache, transactions, verification | the text of the helper programs that do the I/O |
| `msr/_FeaturedMSR.py` and the feature tables | `M_FMSR` | all public methods, all tables | messages |
| `msr/PCStateConfigCtl.py` | `M_PCState` | limit get/set and lock check | - |
| `msr/PackagePowerLimit.py`, `PackagePowerInfo.py`, `RaplPowerUnit.py`, `Power.py` | `M_Power` | limits, enable, clamp, units, TDP range | time windows |
| `msr/HWPRequest.py`, `HWPRequestPkg.py` and the MSR part of `_CPUFreq.py` | `M_HWP` | package control, min/max performance, frequency arithmetic, EPP | - |
| `_EPBase.py`, `EPP.py`, `EPB.py` | `M_EP` | all | - |
| `_CPUFreq.py` (classes CPUFreqSysfs, CPUFreqCPPC) and their use in `PStates.py` | `M_CPUFreq`, `M_CFreq` | min/max frequency and limits; driver, mode, turbo, governor, base frequency, list of frequencies, CPPC numbers, frequencies computed from CPPC, list by bus clock | warnings; `_get_bclks_*` |
| `_UncoreFreq.py` | `M_Uncore` | both driver interfaces: discovery, get, set, unlock, caches | TPMI-only variants do not exist at this commit |
| `PStates.py` | `M_PStates` | `_set_cpu_freq`, `_set_uncore_freq`, limit validation, special values | the dispatch tables of read-only properties |
| `CPUIdle.py` | `M_CPUIdle` | listing, toggling, governor, caches | demotion knobs |
| `CPUInfo.py`, `_CPUInfoBase.py` | `M_CPUInfo` | topology table, all level queries, normalisers, divisions, siblings, hot plug update | parsing of `/proc/cpuinfo` and `lscpu`, hybrid detection |
| `CPUOnline.py` | `M_Online` | all | - |
| `Tpmi.py` | `M_Tpmi` | device map, parser of the debugfs dump, register and field read/write, iteration | spec files on disk |
| `_LinuxPMQoS.py`, `PMQoS.py` | `M_PMQoS` | all | - |
| `_PropsClassBase.py` | `M_Props` | mechanisms, scopes, per-CPU/die/package get and set, validation | class documentation |
| `pepctool/_OpTarget.py`, `_PepcCommon.py` | `M_OpTarget` | all | messages |
| `pepctool/_PepcPrinter.py` | `M_Print`, `M_CSave` | grouping, texts of numbers, lines, YAML dictionary, C-state printer | how a value is written |
| `pepctool/_PepcSetter.py` | `M_PStates`, `M_Print`, `M_CSave` | frequency pair ordering, restore of properties and C-states | progress messages |
| `_CPUInfoBase.py` | `M_Topo` | filling the topology table from /proc/cpuinfo and sysfs texts, all levels, I/O dies and their cache, sorting, update after hotplug | the objects behind MSR_PM_LOGICAL_ID and the uncore driver (any result is allowed), CPU model detection, `info["flags"]` |
| `pepctool/_PepcTopology.py` | `M_TopoInfo` | the whole `topology info` command: default columns, option texts, filtering, offline CPUs, text of the lines | the hybrid detection behind `get_hybrid_cpus()` (any result is allowed), the logger |
| `pepctool/_PepcSetter.py` (`set_props`) | `M_Setter` | both transactions around any property code | default units (see `M_PStates`), final printing, the remote host |
| `pepclibs/ASPM.py`, `pepctool/_PepcASPM.py` | `M_Aspm` | everything | message texts, device addresses that are absolute paths |
| `pepctool/_Pepc.py`, `ArgParse.py`, `ProcessManager.py` | `M_Cmdline` | `PepcArgsParser.parse_args`, the target selection of `main`, `get_pman` | `argparse` itself (its result is the input of the model), help texts, `SSHOptsAwareArgsParser` (not used) |
| `pepctool/_PepcCStates.py`, `ArgParse.py` | `M_CsConf` | `cstates_config_command`, `OrderedArg`, `set_cstates` | printing after the information is collected, the setting of properties (see the setters), the warning about `tuned` |
| `pepclibs/helperlibs/YAML.py`, `pepctool/_PepcSetter.py` | `M_Yaml` | `load`, `_load`, `dict_constructor`, `_validate_loaded_data`, what `restore` sets | the YAML text format, `render`, `!path`, `dump` |
| `pepclibs/msr/MSR.py` | `M_Remote` | `_read_remote_optimized`, `_transaction_write_remote_optimized`, and the calls built on them | the shell and Python of the scripts themselves: what they print and do is modelled |
| `pepctool/_PepcPrinter.py` | `M_Fmt` | `_format_value_human`, `_print_prop_human`, `PMQoSPrinter._format_value_human` | the text of CPU, die and package numbers is an argument here (see `M_Print`) |
| `pepclibs/Tpmi.py` (spec files, feature discovery), `pepctool/_PepcTpmi.py` (ls) | `M_TpmiSpec` | `_find_spec_dirs`, `_load_sdict`, `_build_sdicts`, `_build_fmaps`, `_get_fdict`, `get_known_features`, `get_unknown_features`, `tpmi_ls_command`, `_ls_long` | YAML values other than texts and register tables; `isupper()` and key checks inside registers; the names of the device directories (their numbers are used); reading the package number (M_Tpmi has it) |
| `pepctool/_Pepc{PStates,CStates,Power,PMQoS}.py` (info), `pepctool/_PepcPrinter.py` (printing), `pepctool/_PepcCommon.py` (expand_subprops, parse_mechanisms) | `M_InfoCmd` | option handling, C-state lines, YAML values, counts, messages | property values are abstract and their unit and prefix texts are left out (M_Human, M_Fmt have them); construction of the objects and '--override-cpu-model' |
| `pepctool/_PepcPrinter.py` (save), `pepctool/_PepcSetter.py` (restore), `pepclibs/_PropsClassBase.py` | `M_Print`, `M_Props`, `M_OpTarget` (composed; `S_Keep` has the machine) | save, restore, set_prop, get_prop_sname, get_sname | the low-level setters and getters of the property classes are abstract functions that satisfy `machine`; `keyed`, `one_value_per_cpu` as in C33 |
| `pepclibs/PStates.py`, `CStates.py`, `Power.py`, `PMQoS.py` | `M_Route` | the PROPS tables; reading, writing and scopes of every property: PStates.py:233-1115, CStates.py:198-293, Power.py:126-208, PMQoS.py:63-88 | the low-level objects are a record of functions (modelled elsewhere: `M_CFreq`, `M_Uncore`, `M_EP`, `M_CPUIdle`, `M_Power`, `M_PCState`, `M_PMQoS`); reading does not change the state; the bus clock register gives kHz; messages of exceptions are not modelled |
| pepclibs/helperlibs/Systemctl.py 21-174 | `M_Systemd` | `_run_action`, `_is_smth`, `start`, `stop`, `restart`, `restore`, `is_active`, `is_failed`, `stop_ntp`, `restore_ntp`, `stop_timers`, `restore_timers`, `__init__` (the attributes) | asking for a state changes nothing; messages and warnings are left out; finding the tool (`ToolChecker`) is left out |
| pepclibs/helperlibs/KernelModule.py 24-101, pepclibs/helperlibs/FSHelpers.py 25-106, pepclibs/msr/MSR.py 584-664, pepclibs/_UncoreFreq.py 540-661, pepclibs/Tpmi.py 1015-1028 | `M_Driver` | `_get_usage_count`, `is_loaded`, `_run_mod_cmd`, `unload`, `load`, `get_mount_points`, `mount_debugfs`, `wait_for_a_file`, `_ensure_dev_msr`, `_probe_driver`, the constructors and `close` of MSR, UncoreFreq and Tpmi (the driver and mount parts) | dmesg is run for every module command and its output left out; not in debug mode; mount points compared as texts and given resolved; the wait loop ends after timeout / interval + 1 polls because the clock is not set back |
| pepclibs/helperlibs/ClassHelpers.py 124-197, the constructors and close() of 30 classes (listed with lines in M_Close) | `M_Close` | `close`, `__init__` and `close` (the attributes that refer to other objects) | objects are true and closing one does not change the attributes of another; warnings left out; the driver and mount parts of close() are in M_Driver |
| pepclibs/_PropsCache.py 26-157 | `M_PCache` | `is_cached`, `find`, `get`, `remove`, `add` | CPU siblings are a function given with each call (they are in M_CPUInfo) |
| pepclibs/helperlibs/ProjectFiles.py 17-139, 160-219, pepctool/_Pepc.py 1021-1049, pepclibs/Tpmi.py 123-143 | `M_ProjFiles` | `search_project_data`, `find_project_data`, `find_project_helper`, `spec_dirs`, `get_next_dataset` | the file system does not change during a search; messages are not modelled; get_envar() over SSH does not fail |
| pepctool/_Pepc.py 1052-1112, pepctool/_PepcCommon.py 19-35, 48-65 | `M_Prelude` | `list_mechanisms`, `get_emul_pman`, `override_cpu_model`, `check_tuned` | the texts of messages and the CPU description are not modelled |
| pepclibs/_CPUInfoBase.py 339-412, pepclibs/CPUInfo.py 1048-1125, pepclibs/_CPUFreq.py 63-106 | `M_Ident` | `get_cpu_info`, `get_cpu_description`, `get_hybrid_cpus`, `warn_no_ecores_bug`, `get_cache_info`, `dies_to_str` | ASCII text; a line has no line break in it; parsing JSON is not modelled |
| pepclibs/helperlibs/emul/_RWFile.py 35-180, _ROFile.py 18-31, 67-125, _EmulDevMSR.py 16-60, EmulProcessManager.py 257-274 | `M_EmulFile` | `sysfs_open`, `sysfs_write`, `sysfs_session`, `online_read`, `ro_write`, `msr_read`, `msr_write`, `populate`, `init_msrs` | ASCII text; no buffering; the modes "r", "r+" and "w"; reading the text of the recorded registers is not modelled |
| pepclibs/helperlibs/ToolChecker.py 26-220 | `M_Tools` | `read_os_release`, `get_osname`, `get_osid`, `tool_to_pkg`, `check_tool` | ASCII text; the messages are the suggestion only; Path.name of paths that end with a slash or a dot |
| pepclibs/helperlibs/Human.py 516-608 | `M_Words` | `parse_human_range`, `uncapitalize` | exact numbers instead of floats; a separator of one character; ASCII |
| pepclibs/helperlibs/YAML.py 20-72, pepclibs/helperlibs/Trivial.py 214-261 | `M_YamlOut` | `dump`, `copy_skip_none`, `validate_value_in_range`, `validate_range` | the text the YAML library makes of its nodes; the % operator and the text of floats are parameters; file errors; numbers exact |
| `pepctool/_PepcTpmi.py` | `M_TpmiCmd` | `tpmi read` and `tpmi write` | `tpmi ls`, the printing of the dictionary, splitting of the name lists |
| `pepctool/_PepcCPUHotplug.py` | `M_HpCmd` | everything | parsing of the 'offline' options (M_OpTarget takes numbers), message texts |
| `helperlibs/_ProcessManagerBase.py`, `LocalProcessManager.py`, `SSHProcessManager.py` | `M_Proc` | line extraction, limits, queue handling and wait loops of all three kinds of processes, PID and marker of the interactive shell | reader threads (any arrival order is allowed), starting processes, files |

Not modelled at all: the file operations of the process managers and the emulation process manager, logging, argument parsing, YAML syntax,
colours, tool and module checks, `_Pepc*.py` command front ends except the parts above,
`CPUModels.py` beyond the tables that are used.

## Plan per property

| id | what is modelled | how it is proved |
|----|------------------|------------------|
| C01 | `rangify`, `split_csv_line(_int)`, `parse_int_list` on character strings, including decimal printing/parsing | round trip by induction over the grouping of the sorted list |
| C02 | same functions | induction over the item list; dedup claim checked (refuted if false) |
| C03 | `set_bits`, `get_bits`, `_normalize_bits` on `Z` | bitwise extensionality (`Z.bits_inj`) |
| C04 | `MSR.read/write/read_bits/write_bits` over hardware, cache and scope function | invariant + frame by induction over CPU lists |
| C05 | whole `MSR` object as a state machine | coherence invariant over all histories |
| C06 | same | refinement of the transaction buffer to "last write per register" |
| C07-C09 | `SysfsIO` object as a state machine with failing writes | invariant over histories; refutations for stale buffer |
| C10-C15 | topology table, `_get_level_nums`, normalisers, divisions, siblings, selection | list/set reasoning for any table satisfying the well-formedness the code establishes |
| C16, C17 | `_update_topology`, `_toggle` | invariant over hotplug histories |
| C18-C21 | mechanism loops, scope validation, I/O-scope reduction of `_PropsClassBase` | case analysis/induction; refutation for scope reduction |
| C22, C23 | `_set_cpu_freq`, `_set_uncore_freq` | induction over CPU list, invariant over histories |
| C24, C25 | `PStatesSetter` ordering fallback, restore | case analysis over orders, per-CPU independence |
| C26 | `_perf_to_freq`, `_set_freq_msr` arithmetic | integer division reasoning |
| C27, C28 | HWP request/package control, EPP/EPB caches | state machine; refutations |
| C29 | `_validate_ppl`, `_set_limit` with rational power units | invariant over histories |
| C30 | `PCStateConfigCtl` | induction over CPUs |
| C31, C32 | `CPUIdle` toggling and parsing, YAML save/restore | induction; refutations |
| C33 | `_build_aggr_pinfo_pname` | induction over the yielded values |
| C34-C36 | Tpmi parser, bit-fields, iteration | induction over text; bitwise; refutation |
| C37, C38 | uncore names and unlock | string round trip; driver model |
| C39, C40 | `KernelVersion`, `DamerauLevenshtein` | order laws; refinement of the matrix to the recursive distance |
| C41, C42 | `OpTarget` | set reasoning on top of the topology model |
| C43 | `_PerCPUCache`/`_PropsCache` | refinement to "last add in the scope unit" |
| C44 | `_FeaturedMSR` | on top of C03/C05 |
| C45 | PM QoS conversions on integers/rationals | arithmetic; floats are not modelled |
| C47 | `get_prop_packages`, `get_prop_dies` of the generic class | loop over the CPUs of the unit, equality as equivalence |
| C46 | `Human` on rationals/decimal strings | arithmetic; floats are not modelled |
| C48 | `_UncoreFreq` set and get over a driver whose files depend on each other | kernel contract, induction over the dies |
| C49 | governor part of `CPUIdle` | invariant over histories of all calls |
| C50 | YAML dictionary of `_PepcPrinter`, restore of `_PepcSetter` | round trip of the numbers, induction over the file |
| C51, C52, C53 | turbo, governor, driver and mode of `CPUFreqSysfs` over the sysfs model | loop invariant: files written so far, all others untouched |
| C54 | base frequency with its fall-back, CPPC readers and the frequency computed from them | reading lemmas, induction over the CPUs; arithmetic |
| C55 | parsing the frequency list; the loop over bus clocks | splitting lemma, induction over the loop |
| C56 | the readers of `CPUFreqMSR` over the MSR and HWP model | read lemmas, frame over histories, liveness of the feature reads |
| C57 | queues of stream pieces, line extraction, limits, the wait loops of local processes and SSH sessions; the environment decides what is there and when | invariant over all histories of calls: returned + kept + to come = said |
| C58 | the interactive shell: PID line, marker watching, stream re-use | invariant over the shown stream: what was handed out, what is held back as a possible marker |
| C59 | the files of the system as texts, lines that are filled level by level, the dictionaries of dies, the sorted tables, the state of the object over requests and hotplug events | one pass of `post` lemmas: either the table is extended rightly or some file was unreadable; invariant of the object over all histories |
| C60 | the command as a function from system, target options and text options to the printed lines | sorting and filtering lemmas over the target theorems of C41/C42, loop lemmas for the default columns, unique readability of the lines |
| C61 | the property code as any interaction tree over the MSR and sysfs objects of C05-C09, the command around it | the calls of a run as histories of the two objects, then the transaction theorems of C06, C08 and C09 |
| C62 | the policy file and the device files of a kernel with any reaction to a write, both commands and the ASPM object | case analysis of the commands; the text of the policy file is parsed by an independent description of it |
| C63 | the three commands on top of the models of C17 (hotplug), C41 (targets) and C01/C02 (number lists) | composition of these theorems; induction over the sequence of runs |
| C64 | both commands on top of the TPMI model of C34-C36: lazy iteration, the dictionaries of the result, bit fields | an invariant over the list of instances visited so far, for reading and for writing; frame over all words of all devices |
| C65 | the unrecognised words after the sub-command, looked up and removed option by option; the choice of the process manager | induction over the options with the list of typed options that is left; permutation argument for arbitrary words |
| C66 | the ordered options dictionary, the split by kind, and the loops over the options on top of the C-state model of C31 | invariant: the state is reached by operations of C31; induction over the options; the dictionary is characterised by first place and last value |
| C67 | the YAML constructor, paths, the recursive loader with the dictionary of included files and a recursion limit, the checks and the dispatch of a restore | the meaning of a file is an inductive relation; soundness by induction on the depth, success by induction on the relation, termination by a measure on the names not included yet |
| C68 | the remote half of MSR.py on the state of M_MSR: the choice of the CPUs to read, the text the script prints and its parsing, the script of a transaction | reading in one go equals reading one by one, by induction on the CPUs with the invariant that CPUs sharing a register share the cached value; a simulation of every call; a call that succeeds with failures around also does without; frame by composition |
| C69 | the formatting functions over exact numbers, with the model of num2si and parse_human of C46 | the rounding bound of C46; exactness because the printed number and the value are multiples of the last digit; a list is a progression by induction on its length; the text is taken apart at the spaces and commas |
| C70 | spec directories as lists of files with their keys and values in order, the counters of the scan, the device directories as feature IDs, the lines of 'tpmi ls' | a classification of file contents into three kinds, proved complete and exclusive by induction on the keys; the last file wins by induction on the files and directories; invariants over the device directories; the long list by an invariant of the nested dictionary; counterexamples for user files over standard ones, '.yaml' files, equal IDs, truncated files and the indentation |
| C71 | the commands over the models of the property classes (C18-C21), the operation targets and the C-states (C31): option handling, the lines about C-states, the values written to YAML, the counts | the lines are related to blocks that list CPUs, values and details; composition with the partition and text theorems of C33; the mechanism check by induction on the properties; counterexamples by computation, the failure of '--mechanisms' alone for every class with the shipped tables |
| C72 | what every CPU sees of every property, and who shares a value, as functions of the state of the low-level code (S_Keep.machine); the models of the printer, the setter, the operation targets and the property class run on it | every read leaves what is seen alone; a successful set gives the value to exactly the CPUs covered, by cases on the scope, by induction on dies and packages; restoring by induction on the flattened file; saving composed with the partition theorem of C33; an example machine with all scopes; the two refutations by computation on it |
| C73 | the dispatching code of the four classes, over an abstract record of what the low-level objects give and do; tables of the sources and setters in the specification | by cases on the tables, for any machine; the computed values by induction on the CPU list; setting frequencies by an induction over the validation loop for any code whose reads do not change the state, instantiated for CPUs and dies |
| C74 | M_Systemd: the functions as programs over an arbitrary system (what an action does to a unit, what is-active prints) with the remembered units in the state | S_Systemd says what is active, which operation was first for a unit; invariants by induction over the units of an operation and over the history; failing operations as results |
| C75 | M_Driver: the functions over an arbitrary host (texts of /proc files, commands, files, clock) | S_Driver says which modules and mounts there are, what a line of the /proc files looks like and what modprobe and rmmod do; induction over the lines and over the polls of the wait |
| C76 | M_Close: ClassHelpers.close() over the attributes of an object and arbitrary close() methods; a table of the classes: which attributes are given, optional or made, and what close() passes on; constructors and lazy making | S_Close says which objects a class makes from the history alone and what it means that some objects are closed in turn; induction over attributes, calls and histories, the table is checked by computation |
| C77 | M_PCache: the nested dictionaries and the five methods, the siblings given anew with every call | S_PCache defines the current value from the list of calls alone; induction over the history |
| C78 | M_ProjFiles: environment and file system of the two hosts as functions, the generators as what they yield and how they end | S_ProjFiles numbers the places by relation; the first place that answers, by induction over slots |
| C79 | M_Prelude: the four functions; int(s, 16) digit by digit | S_Prelude has the commands, what they need, and hexadecimal numbers by relation; induction over the digits and the modules |
| C80 | M_Ident: the regular expressions as prefix and suffix functions, the dictionaries as association lists, '_cacheinfo' and the warning flag as state | S_Ident says by relation what a line says and what a text stands for; the expressions are shown equivalent to the relations, then induction over the lines; an invariant over the calls for the warning |
| C81 | M_EmulFile: a file is a list of bytes with truncate, write at an offset and read; the files by path are the state; sessions of opening and writing | S_EmulFile says what the kernel's files show; induction over the writes of a session; bytes of registers by index arithmetic; the list of online CPUs through the round trip of C01's ranges |
| C82 | M_Tools: the files as the lines that could be read, the dictionaries as association lists, the object with a counter of searches as the state | S_Tools says by relation what a line says and which package has a tool; the parser is shown equivalent to the relation, then induction over the lines and over the calls |
| C83 | M_Words: the two functions on top of the parser of C46 and of the splitting of lines, numbers exact | S_Words says by relation how the text of a range is composed, what the first word of a sentence is and when it is ordinary; induction over the texts for splitting |
| C84 | M_YamlOut: the data as trees, the representers as a function to the nodes which the library is given, the registered format as the state; the copy without None by recursion | S_YamlOut says by paths of keys and positions what is where; induction over the paths, the trees and the calls |

## Findings (refuted statements)

Each line is a theorem with a concrete witness.

* `C01_negative_range_refuted`: ... or read as different numbers.
* `C01_negative_refuted`: Outside the claim: a negative number is formatted into text that is rejected...
* `C02_dedup_refuted`: A range that overlaps another item leaves duplicates behind.
* `C03_negative_refuted`: "A value that does not fit is rejected" does not hold for negative values, and a bit range outside the register is accepted.
* `C03_range_refuted`: A bit range above bit 63 is accepted.
* `C05_shared_transaction_refuted`: Without the condition on shared registers in [disciplined] the property fails.
* `C06_last_write_wins_refuted`: A register shared by two CPUs that is written through both in one transaction does not keep the last value.
* `C07_pending_visible_refuted`: Finding: after a write that the object rejects (a different description of the same file), the pending value is not visible any more, but a commit still writes it.
* `C09_abandoned_refuted`: Finding: the values of a failed commit stay in the buffer, and a later commit writes them even if nobody asks for them again.
* `C11_offline_package_refuted`: A package all of whose CPUs went offline stays in the table because of its I/O die, and is then reported as covered by an empty list of CPUs.
* `C12_div_dies_refuted`: A die that was fully offline when the table was built is treated as an I/O die for ever, and is missed when its CPUs are back online.
* `C13_module_siblings_refuted`: With the fall-back module numbering the siblings of CPU 0 include CPUs of another package.
* `C14_select_module_siblings_refuted`: With the fall-back module numbering two CPUs of the same module get the same index.
* `C17_topology_current_after_failure_refuted`: After a failed call the CPUInfo object may still report the old online CPUs.
* `C18_dies_all_refuted`: get_prop_dies() with its documented default dies="all" never works.
* `C18_dies_label_refuted`: The per-die answer for a property without a known scope is labelled with the package number.
* `C19_default_readonly_refuted`: Default mechanisms are not checked for being read-only (harmless for the tables of the code, C19_tables).
* `C20_die_refuted`: The same for a die that does not have the first CPU of its package, with package I/O scope.
* `C20_global_refuted`: With global scope nothing is written for package 1, and the call succeeds.
* `C24_max_first_refuted`: 2.6..2.8 GHz to 2.0..2.4 GHz with the maximum first fails: PropsSetter.set_props() looks for the property "mim_freq" when "max_freq" fails.
* `C24_mixed_refuted`: 1..2 GHz and 2.6..2.8 GHz to 2.2..2.4 GHz fails with the minimum first.
* `C26_pcore_refuted`: On a P-core 2.39 GHz reads back as 2.4 GHz, above what was asked for.
* `C27_mixed_refuted`: With package control known to only some CPUs, setting a frequency succeeds and has no effect.
* `C27_set_others_refuted`: Setting a frequency of one CPU changes what is in effect for another CPU of the package.
* `C28_alias_refuted`: A name that stands for different numbers on different CPUs is read as the number of the first CPU.
* `C28_msr_stale_refuted`: The MSR value is remembered when it is set through sysfs.
* `C28_package_refuted`: A CPU that leaves EPP to its package: what is set through sysfs is not what the MSR mechanism reads, even without a cache.
* `C28_revert_refuted`: Writing another field of the register, that the MSR object remembers, brings back the old value.
* `C28_shared_refuted`: EPB is shared by the CPUs of a core, but what is remembered is forgotten only for the CPU that is set.
* `C28_sysfs_stale_refuted`: The sysfs value is remembered when it is set through the MSR.
* `C28_twice_refuted`: With several mechanisms, a CPU may be read twice.
* `C31_all_fails_refuted`: ... or the C-states cannot be listed.
* `C31_all_refuted`: Not so: "all" is the C-states of the first CPU, so that disabling "all" of them leaves some on...
* `C31_cpu0_refuted`: Not so: with CPU 0 offline nothing can be listed.
* `C31_nocache_refuted`: Not so: without caching, which is a choice of the caller, nothing can be listed.
* `C31_none_refuted`: Not so: when one CPU has no C-states, no C-states of any CPU can be listed.
* `C31_single_refuted`: Not so: when every CPU has one C-state, no C-state is listed.
* `C31_stale_refuted`: Not so: when the C-state was set but reading it back failed, the list says the opposite of the kernel.
* `C32_mixed_refuted`: A file with a C-state that is on for some CPUs and off for others is never restored.
* `C33_no_package0_refuted`: If package 0 is offline, nothing is printed about dies.
* `C33_uneven_dies_refuted`: If package 0 has one die, the dies of the other packages are not told apart.
* `C35_failed_write_changes_nothing_refuted`: A failing TPMI write may have written half of the register.
* `C35_value_too_large_for_field_refuted`: A value too large for a TPMI field, but not for the register, changes the neighbour fields.
* `C36_differing_instances_refuted`: Iteration misses instances if devices have different ones.
* `C37_duplicates_refuted`: If two directories of the new interface have the same package and domain ID (as they do when a domain has several fabric clusters), the die is listed twice and the first directory is never used.
* `C37_suffix_refuted`: Only the beginning of a directory name is looked at: other names are taken for dies, too.
* `C38_unlock_failure_refuted`: But when a write fails in the middle, dies are left with other frequencies than before.
* `C40_empty_option_refuted`: With an empty option the closest one may not be suggested.
* `C40_triangle_refuted`: The distance is not a metric: a detour can be cheaper.
* `C42_filtered_package_refuted`: Not true: a sibling index that leaves no CPU leaves no package. All packages are targeted.
* `C42_io_die_package_refuted`: A package that only says which package an I/O die belongs to is targeted.
* `C42_strict_refuted`: Not true: a strict question is always refused if targeted CPUs are left over. After a non-strict question it is answered from the cache.
* `C43_global_remove_refuted`: Removal with the "global" scope raises KeyError if the name is not cached, so that a write with that scope never succeeds on a new object.
* `C44_bits_str_refuted`: The string for the bits of a feature is never returned.
* `C44_mixed_scope_refuted`: With a module of two cores, reading one prefetcher feature of a CPU makes another one read wrong on a different CPU.
* `C44_uncore_ratio_refuted`: The uncore ratio limits can be neither read nor written.
* `C44_unnamed_refuted`: A register code without a name makes reading the feature fail.
* `C46_blank_refuted`: No text at all is accepted, as 0.
* `C46_days_refuted`: A day and more is printed in a way that is refused: "1 days 1h".
* `C46_negative_refuted`: "-1m 5s" is read as -60 + 5 seconds.
* `C46_prefixed_refuted`: 150 MHz is printed as "150.0Hz".
* `C46_prefixed_scaled_refuted`: 2000000 uW is printed as "2.0uW".
* `C48_cpus_refuted`: Setting the frequency of the die of a CPU (instead of the die) does not unlock the interface: what is possible for the die fails for its CPU.
* `C49_unnoticed_refuted`: Without [gov_stores]: a kernel that accepts the write and keeps its governor is not noticed.
* `C50_some_locked_refuted`: If the package C-state limit is locked on some of the CPUs only, nothing can be saved (the printer crashes).
* `C52_atomic_refuted`: Setting a governor that a later CPU does not have changes the CPUs before it.
* `C53_off_hwp_refuted`: set_intel_pstate_mode() compares the boolean of get_hwp() with the string "on", so the explanation that the driver cannot be switched off while HWP is on is never given.
* `C53_off_transaction_refuted`: `pepc pstates config --intel-pstate-mode off` fails if the driver is off already: the write is deferred to the commit, where the special case of set_intel_pstate_mode() does not apply.
* `C54_base_refuted`: Once a CPU has no 'base_frequency' file, all CPUs after it are given 'bios_limit', even if they have the file.
* `C54_duplicates_refuted`: _get_cppc_freq() yields some CPUs twice if the CPPC frequency file is missing on a later CPU only.
* `C56_hwp_off_refuted`: A CPU that has HWP but where it is not enabled is "not supported" for the base, minimum operating, maximum efficiency and turbo frequencies, although MSR_PLATFORM_INFO has them.
* `C57_last_line_refuted`: Output after the last line end is dropped when the exit code is returned: the last line of a command that does not end it with a newline is lost.
* `C57_lines_refuted`: With a carriage return in the output, the list of lines wait() returns depends on how the stream was cut into pieces (a line may be returned in one or in two parts).
* `C57_status_refuted`: If the streams end but the process does not exit before the timeout of that wait() call, no later call ever returns the exit code.
* `C58_hang_refuted`: In the interactive shell, the end of a command whose output does not end with a newline may never be noticed: the marker is looked for at the beginning of a line only.
* `C58_lost_refuted`: In the interactive shell, output without a trailing newline may be dropped although the exit code is returned.
* `C58_not_found_refuted`: In the interactive shell, whether a missing command raises "not found" or returns exit code 127 depends on when its error message arrives.
* `C58_stderr_refuted`: In the interactive shell, stderr of a command that arrives after the marker is returned as the stderr of the next command.
* `C59_history_refuted`: After all CPUs of a package went offline its I/O dies stay in the table, because `_compute_dies` still has the package (_CPUInfoBase.py:190-197); an object created in the same situation does not list them. So, for the same system and request, the list of dies depends on what was requested before.
* `C59_stale_refuted`: If all CPUs of a die are offline when the die level is first read, the die is remembered as an I/O die in `_io_dies`. After its CPUs come online the table is first right, but `_add_io_dies_from_cache()` brings the wrong line back when another level is requested (_CPUInfoBase.py:212-226, 299-300): the entry is never removed.
* `C60_columns_refuted`: On a hybrid system `--columns CPU,core` prints a third column, Hybrid: the default for `show_hybrid` is also applied if columns were asked for (_PepcTopology.py:158-164). The column is always last, wherever it was named in `--columns`.
* `C60_io_core_refuted`: In the hybrid column I/O dies are called E-core (_PepcTopology.py:168-172: everything that is no P-core is an E-core).
* `C60_io_die_refuted`: `pepc topology info --dies 2 --packages 0`, where die 2 is an I/O die, is an error: `optar.get_cpus()` (_PepcTopology.py:174) raises ErrorNoCPUTarget, which is not caught, although the code after it would print the line of the die.
* `C60_order_refuted`: Offline CPUs come after all other lines even if the table is printed in CPU order (_PepcTopology.py:179-180), which the documentation of `--order` does not say.
* `C61_flush_refuted`: The power limit 'enable' and 'clamp' features flush the ongoing MSR transaction (msr/PackagePowerLimit.py:212,217), so everything set before them stays changed when a later property of the same command is rejected.
* `C61_half_refuted`: `set_props()` commits the MSR transaction before the sysfs transaction (_PepcSetter.py:73-76): when a file then refuses its value, the command fails with the registers changed.
* `C61_no_sysfs_transaction_refuted`: `cstates config` and `power config` pass no sysfs object to the setter, and `pstates restore` passes one that the properties do not use (_PepcPStates.py:184-193: `PStates()` is created without `sysfs_io`), so files are written at once and stay changed when a later property is rejected.
* `C62_half_refuted`: `aspm config --policy X --l1-aspm V` changes the policy before it looks at `V` (_PepcASPM.py:110-113): with a bad value the command fails and the policy stays changed.
* `C62_l1_unverified_refuted`: `aspm config --l1-aspm on` prints that the state was changed without reading it back (_PepcASPM.py:95-96); the kernel keeps L1 off as long as the policy is `performance`.
* `C63_empty_list_refuted`: `cpu-hotplug offline --cpus ""` (for example an empty shell variable) is taken as no option at all, which means all CPUs, and takes every CPU offline that it can. `cpu-hotplug online` rejects the empty text.
* `C63_indirect_refuted`: `cpu-hotplug offline --cpus 5 --packages 0` fails if CPU 0 has no control file, although CPU 0 was not given by number: line 63 of _PepcCPUHotplug.py only looks at whether `--cpus` is there. The comment above it says a CPU named indirectly, for example by `--packages 0`, must not cause an error. CPU 5 is already offline when it fails.
* `C64_read_duplicate_refuted`: `tpmi read --instances 0-1,1` (or the same for packages) crashes with an AssertionError: `split_csv_line_int(dedup=True)` removes duplicates before it expands the ranges, so instance 1 is visited twice (_PepcTpmi.py:164).
* `C64_write_halfway_refuted`: `tpmi write` without `--instances` takes the instances of the first device for all devices. If a later device has fewer, the command fails after earlier devices were written.
* `C64_write_nothing_refuted`: `tpmi write --packages 1` succeeds silently and writes nothing if package 1 has TPMI devices but none with the feature: `_validate_addr()` only checks that the package is known.
* `C64_write_skipped_refuted`: `tpmi write` without `--instances`: if a later device has more instances than the first, the extra ones are not written and the command succeeds (Tpmi.py:913-914, `instances` is reused for all devices).
* `C64_write_too_large_refuted`: `tpmi write --bitfield B -V v` accepts a value too large for the bit field as long as it fits the register; the surplus bits go to neighbouring bit fields.
* `C65_dataset_host_refuted`: `pepc -H box -D dataset cmd ...`: the check that a data set is not used with a remote host is skipped when there are no options after the sub-command (_Pepc.py:133-134); the host is silently ignored.
* `C65_emulation_refuted`: `-H emulation-lab.example.com`: a host whose name begins with "emulation" gets an empty emulation instead of an SSH connection (ProcessManager.py:87).
* `C65_missing_value_refuted`: `-T -K a z -U a` after the sub-command is accepted although `-T` has no value, for the same reason.
* `C65_quiet_debug_refuted`: `-q -d` is accepted: `PepcArgsParser.parse_args()` calls `parse_known_args()`, so the check of `ArgsParser.parse_args()` never runs.
* `C65_same_value_refuted`: `pepc pstates info -U box -T 5 -H box` is refused ("value required for argument '-U'"): `uargs.remove(value)` removes the first equal word, which is the value of another option (_Pepc.py:126).
* `C65_swapped_refuted`: `-T 10 -K box -U 10 -H box` after the sub-command is accepted with the key and the timeout swapped, for the same reason.
* `C66_halfway_refuted`: `cstates config --disable C6 --enable C9` with an unknown C-state C9 fails after C6 was disabled: names are not checked before the first change.
* `C66_repeated_refuted`: `cstates config --disable all --enable C1 --disable C6` does not disable the other C-states: `OrderedArg` keeps one value per option, at the place of the first (ArgParse.py:140).
* `C67_again_refuted`: A key that a file has before and after an `include` gets the value of the included file: the mapping keeps the place of the first one (YAML.py:101).
* `C67_endless_refuted`: A file that includes itself as `../d/x` is not noticed, since names are compared without resolving `..`; the load goes on until RecursionError or the longest path name (YAML.py:153-157).
* `C67_list_refuted`: A document that is a list or a scalar ends with AttributeError in YAML.py:141; the check 'expected dictionary' in _PepcSetter.py:88 cannot be reached.
* `C67_nested_refuted`: An `include` inside a value (or in a list) is not followed: the key is renamed to `include_0` and stays in the data (YAML.py:86-101 renames at every depth, the loop at 141 looks at the top only).
* `C67_relative_refuted`: `restore --from FILE` with a relative `include` in FILE ends with AttributeError, since the file name is a string without `.parent` (_PepcSetter.py:185, YAML.py:154); the same goes for standard input.
* `C67_shared_refuted`: Two files that include the same third one are refused as if they were circular (YAML.py:156-161).
* `C69_empty_refuted`: An empty list of numbers is printed as `()`, although the comment says that the line is not printed (_PepcPrinter.py:237-240).
* `C69_latency_refuted`: The latency limit printed as `0 (no limit)` is not accepted by the option that sets it.
* `C69_same_text_refuted`: A number of a list that differs from its neighbour by less than the printed digits is printed the same as the neighbour: a turbo activation frequency 1 MHz above the base frequency shows as the base frequency twice, and two different lists print the same.
* `C69_seconds_refuted`: Times above 100 seconds lose their fraction: `Trivial.is_int()` is true for every floating point number, and the branch that prints two decimals is dead code (_PepcPrinter.py:148-150).
* `C70_extension_refuted`: `_build_sdicts()` accepts `*.yaml` files, `_get_fdict()` looks for `<feature>.yml` only: `tpmi ls` lists the feature as supported, `tpmi read` says it is not supported.
* `C70_indent_refuted`: `_ls_long()` does not set the indentation back: the second device of a package is printed inside the first one.
* `C70_override_refuted`: a user's spec file for a feature which has a standard one: the ID and the description come from the standard file, which is scanned last, the registers from the user's file, which is found first.
* `C70_same_id_refuted`: two features with the same ID: the one scanned first is neither known nor unknown.
* `C70_unknown_once_refuted`: `tpmi ls -a` lists an unknown feature ID once for every device that has it.
* `C71_latency_refuted`: if the CPUs differ in the latency or residency of a C-state, all the values are printed, but not which CPUs have which.
* `C71_mechanism_alone_refuted`: `pepc pstates info -m msr` (also cstates and pmqos, any mechanism, no property options) always fails: every property is asked for every given mechanism, no mechanism is common to all properties, and the refusal is not skipped like an unsupported property is.
* `C71_no_cstates_refuted`: `cstates info --csnames ,` prints "This system does not support C-states" on a system which does.
* `C71_yaml_dict_refuted`: an unsupported property of a dictionary type (`pkg_cstate_limit_aliases`, which `--pkg-cstate-limit` adds): `--yaml` ends with a ValueError from `dict("not supported")`, although the same command without `--yaml` works. A list type (`governors`) is written as the list of the letters of "not supported" (`written_as` in S_InfoCmd).
* `C72_disagree_refuted`: if the CPUs of a package have different values of a package-scope property whose I/O scope is narrower, 'save' writes them one by one and the file cannot be restored: setting by CPU is refused for CPU lists that cut through a package.
* `C72_subset_refuted`: a global property saved with `--cpus 0` (or any subset) is written for these CPUs and the file cannot be restored ("must include all CPUs"), although all the CPUs have the same value.
* `C73_epp_error_refuted`: when writing EPP through sysfs fails and then the 'intel_pstate' mode or the governor cannot be read for the hint in the message, the reading failure replaces the writing failure; as 'not supported' it makes the code go on with the MSR mechanism.
* `C73_uncore_cpus_refuted`: 'min_uncore_freq' and 'max_uncore_freq' are writable properties, but setting them with the per-CPU method always fails with a "BUG: unsupported property '{pname}'" error (the name is not even filled in, the f-prefix is missing).
* `C74_again_refuted`: restore() does not clear what it restored: when the object is used again, start(unit, save=True) keeps the older "stop" and the next restore() starts the unit instead of stopping it (Systemctl.py:33-38, 86-97)
* `C74_ntp_twice_refuted`: stop_ntp() forgets the services it stopped before: after calling it twice restore_ntp() starts nothing (Systemctl.py:113-119)
* `C74_restore_refuted`: stop(units, save=True) on a unit that is not active remembers "stop" although nothing changed, and restore() then starts the unit (Systemctl.py:32-35, 93-97)
* `C74_timers_failed_refuted`: stop_timers() remembers the timers only when all of them were stopped: if one can not be stopped, restore_timers() does not restart those stopped before it (Systemctl.py:143-147)
* `C75_close_twice_refuted`: close() of an object that loaded the driver can not be called twice: the driver object is None then, but the flag is still set, an AttributeError (MSR.py:656-664, _UncoreFreq.py:653-661)
* `C75_dependency_refuted`: modprobe loads the modules the driver needs (intel_uncore_frequency_common), rmmod unloads the driver only: the others stay loaded after close() (KernelModule.py:73-101, _UncoreFreq.py:653-657)
* `C75_mount_local_refuted`: mount_debugfs() without a process manager, documented to mean the local host, uses the missing process manager to run the mount command: an AttributeError (FSHelpers.py:83)
* `C75_msr_late_refuted`: wait_for_a_file() with a timeout of 1 second and the default interval of 1 second looks for the file only once, at once; if /dev/cpu/N/msr appears a moment after the driver is loaded, the constructor fails, and as nobody calls close() the driver stays loaded (MSR.py:606-611, FSHelpers.py:99-106)
* `C75_tpmi_failed_refuted`: if the constructor fails after mounting debugfs, for example because there is no TPMI, debugfs stays mounted (Tpmi.py:1015-1019)
* `C75_tpmi_unmount_refuted`: close() of a TPMI object runs 'unmount', which is not a command (it is 'umount'), and ignores the failure: debugfs stays mounted (Tpmi.py:1024-1026)
* `C75_uncore_late_refuted`: the same for the uncore frequency driver: not supported, it is said, although the directory appears within the second, and the driver stays loaded (_UncoreFreq.py:590-600)
* `C76_cpufreq_msr_refuted`: CPUFreqMSR makes an MSR object if it is not given one, but its close() does not close it ("_msr" is not in close_attrs and there is no _close_msr): if the MSR driver was loaded for it, it stays loaded (_CPUFreq.py:804-810, 1243-1279)
* `C76_dmesg_refuted`: KernelModule(dmesg=False), documented to disable the dmesg checks, makes a Dmesg object nevertheless and does not close it (KernelModule.py:126-135)
* `C76_failed_refuted`: if close() of one object fails, the objects after it in the list are not closed (ClassHelpers.py:158-188)
* `C76_missing_refuted`: ClassHelpers.close() is documented to cope with missing attributes, but for a missing one of 'unref_attrs' the warning uses the variable of the other loop: UnboundLocalError if that loop did not set it (ClassHelpers.py:190-193)
* `C77_offline_refuted`: add() updates the CPUs that are online only: a CPU that was offline when a package scope value was changed still has the old value in the cache when it is back online (_PropsCache.py:126-133)
* `C77_remove_global_refuted`: remove() of something that is not cached does nothing, except with global scope: a KeyError (_PropsCache.py:98-100)
* `C78_all_twice_refuted`: '-D all' fails with 'multiple datasets' if one directory is two of the places, e.g. VIRTUAL_ENV=/usr/local (_Pepc.py:1040-1042)
* `C78_all_variable_refuted`: A dataset in $PEPC_DATA_PATH can be used by name, but '-D all' leaves it out: search_project_data() is called without the variable (_Pepc.py:1035)
* `C78_remote_dot_refuted`: For the same reason, a variable that is not set on the remote host makes the search look in the current directory there, before /usr/share (ProjectFiles.py:71-83)
* `C78_remote_unset_refuted`: Over SSH, get_envar() returns a Path object, which is true even if the variable is not set, so the value of the variable on this host is never used (ProjectFiles.py:71-75, SSHProcessManager.py:995-1002)
* `C79_emulation_leak_refuted`: An exception that is not an 'Error' (a KeyError of a bad dataset file) leaves the emulated host open, with its temporary directory (_Pepc.py:1078-1083)
* `C79_negative_model_refuted`: '--override-cpu-model -106' is accepted: the model becomes a negative number (_PepcCommon.py:56-62)
* `C79_pmqos_emulation_refuted`: 'pepc pmqos' cannot be used with '-D': 'BUG: No modules specified' (_Pepc.py:1059-1074)
* `C79_pmqos_list_refuted`: 'pepc pmqos info --list-mechanisms' (and config) fails with 'BUG: unknown function': the PMQoS properties are missing in the list of classes (_Pepc.py:1090-1098)
* `C80_caches_refuted`: get_cache_info() fills its cache while it goes: after an exception the next call returns the caches read before the exception as the complete answer (CPUInfo.py:1071, 1081-1095)
* `C80_hex_refuted`: is_int() accepts '0x1', int() does not: an lscpu value with a prefix (the stepping of ARM processors) ends in a ValueError that is not an 'Error', and the CPUInfo object cannot be created (_CPUInfoBase.py:364-365)
* `C80_warning_refuted`: The warning about hybrid processors without E-cores is not printed if there are P-core CPUs, that is, never in practice: 'if ecore_cpus or pcore_cpus' (_CPUFreq.py:79-81)
* `C81_policy_refuted`: The emulated ASPM policy file does not take a policy with a line break, as the kernel does: no policy is in brackets afterwards (_RWFile.py:139)
* `C81_read_only_refuted`: _ro_write() has one parameter too few: a write to an emulated read-only file is a TypeError, not the intended Error (_ROFile.py:24-29)
* `C81_write_mode_refuted`: open() with "w" empties the file before the mode is refused, and ASPM.toggle_l1_state() uses "w": on emulated systems it fails and the L1 file is empty afterwards (_RWFile.py:156-157, 175-180; ASPM.py:148)
* `C82_equals_refuted`: A line of os-release whose value has an equals sign in it is dropped with a warning, which the format allows (ToolChecker.py:109-113)
* `C82_etc_refuted`: /usr/lib/os-release is read first and wins; by the os-release format and by the docstrings it should be /etc/os-release (ToolChecker.py:95, 116-117)
* `C82_search_once_refuted`: 'if tool is self._cache' should be 'in': the cache of found tools is filled but never used (ToolChecker.py:192)
* `C82_single_quotes_refuted`: Single quotes, which the os-release format allows, are kept in the value (ToolChecker.py:115)
* `C83_digits_refuted`: 'Turbo-3 mode' becomes 'turbo-3 mode', although words with digits should be left alone: only the part before the hyphen is looked at (Human.py:588-606)
* `C83_docstring_refuted`: The description says that '500us - 1ms' in ms with integer=True is (0.5, 1); it is (0, 1) (Human.py:543-544, 565-566)
* `C83_rounded_refuted`: With rounding, the default, a range such as '1.2s-1.4s' is refused because both round to 1: the comparison is made after rounding (Human.py:555-563)
* `C84_history_refuted`: YAML.dump() registers the representer of floats with the library for good: a call without a float format uses the format of an earlier call (YAML.py:59-60; C84_leftover says which)
* `C84_list_refuted`: With skip_none, keys with None in dictionaries that are elements of lists are written: lists are not searched (YAML.py:47-50)

## State per property

| id | status | theorems | note |
|----|--------|----------|------|
| C01 | proved | 6 | Full claim proved for all lists of non-negative numbers. The two _refuted theorems are findings outside the claim's domain: negative numbers do not round-trip. |
| C02 | partial | 7 | Concatenation, blanks, empty items, rejection of descending ranges proved in full. Removal of duplicates works on text before ranges are expanded, so it is proved for plain numbers and for non-overlapping items and refuted for overlapping ranges. |
| C03 | partial | 13 | Proved for every field within the register and every non-negative value. Two findings refute the unrestricted rejection claim: negative values and ranges above bit 63 are accepted. |
| C04 | proved | 2 | Any history of calls before it, any I/O failures, any topology; the scope name passed must be the one that describes how the register is shared (scope_right). A failing call is also shown to touch only targeted registers. |
| C05 | partial | 5 | Proved for all histories (including failing calls and I/O faults) in which no transaction is used, or shared registers are addressed through the same first CPU in each call; refuted without that condition. |
| C06 | partial | 5 | Same condition as C05. C06_verified_commit holds for arbitrary hardware. Last-write-wins is refuted for one register addressed through different sibling CPUs in one transaction. |
| C07 | proved | 6 | Every read is the file or the pending value, for all histories with failures; the pending value is visible unless a call on that file or a flush failed (finding C07_pending_visible_refuted). Plain (unverified) writes outside a transaction assume the kernel stores what is written. |
| C08 | proved | 4 | Order, merging and single write are stated on a log of values handed over to the kernel, which the model keeps only for this purpose. |
| C09 | partial | 2 | File contents after a failure at any point proved. The claim that abandoned values are not written later is false: they stay buffered (C09_abandoned_refuted), but the object refuses to start another transaction (part of C09_failed_commit_partial). |
| C10 | proved | 3 | Request order is stated as order of first occurrence; 'all' is proved for well-formed tables, which every table reached by hotplug is (C16_hotplug_wf). |
| C11 | proved | 3 | The division is exact for every well-formed table. C11_offline_package_refuted is a finding: a package with no online CPU but an I/O die counts as covered by the empty list. |
| C12 | partial | 6 | Cores proved in full. Dies need the cached I/O die set to be exact: proved after any hotplug history in which every die had an online CPU when the table was built, refuted in general. |
| C13 | partial | 4 | All levels except module proved in full; module needs globally unique module numbers, which the fall-back numbering in the code violates (refuted with a witness). |
| C14 | partial | 5 | Core siblings proved in full; module siblings need globally unique module numbers (refuted for the fall-back numbering). |
| C15 | proved | 5 |  |
| C16 | proved | 3 |  |
| C17 | proved | 8 | All outcomes and histories; the kernel contract assumed is that a write to one CPU's file does not change another CPU. The refuted companion is an extra observation about a neighbouring claim: after a failed call the CPUInfo object is stale. |
| C18 | partial | 7 | Proved for every class, machine, request and state, with all failure reasons. Refuted: get_prop_dies() with its documented default dies='all' always fails; per-die answers for properties without known scope are labelled with the package number. |
| C19 | partial | 8 | Proved in full for set_prop_cpus(); rejection before any write for all three setters. Refuted in general: default mechanisms are not checked for being read-only; proved harmless for the four property tables of the code (C19_tables, C19_writable_only). |
| C20 | partial | 5 | Proved when I/O domains do not reach out of the requested packages or dies; exact set of written CPUs proved for dies. Refuted: global scope for package 1, or package I/O scope for a die other than the first, writes nothing and reports success. |
| C21 | proved | 3 | Accepted lists are whole units; cut lists are rejected with nothing written; whole units are accepted. |
| C22 | proved | 8 | Proved for CPUs through the sysfs mechanism (inside and outside transactions), for uncore dies, and for any list of mechanisms that all refuse. In the CPU MSR mechanism the limits are read from sysfs (C26, C27 cover the register). The kernel may refuse a write after validation: then the error is raised and earlier CPUs keep the new value; this is outside the property (validation failures). |
| C23 | proved | 2 | CPUs through sysfs with a kernel that stores what is written or refuses it, and uncore dies. The history goes on after exceptions. A history has any length. |
| C24 | partial | 7 | The pair is set when one of the two single steps is in order for all requested CPUs, in particular when the CPUs are alike and the minimum is given first. Refuted: maximum first is never retried because of the misspelt property name 'mim_freq'; CPUs with different frequencies may fail in both orders. |
| C25 | proved | 2 | For CPUs (sysfs) and dies; the restore command has no transaction over the sysfs writes, as in _PepcPStates.py, so start/commit are no-ops. From any state with limits unchanged, both orders of the two properties, with other properties before, between and after. |
| C26 | partial | 3 | Multiples of the bus clock are read back exactly. For other frequencies the bound 'not above' is proved for CPUs that are not P-cores and refuted for P-cores (C26_pcore_refuted: 2.39 GHz reads back as 2.4 GHz). |
| C27 | partial | 13 | Complete for EPP and for reading; getting, setting and EPP succeed if the registers are there and I/O works (C27_get_succeeds, C27_set_succeeds, C27_epp_succeeds). Setting a frequency: CPUs that leave a setting to their package change when another CPU is set (C27_set_others_refuted), and with package control known to only some CPUs the set may have no effect (C27_mixed_refuted). |
| C28 | partial | 15 | Proved: the last set value is read back (number or name, through either mechanism) without caches for every history of both mechanisms, and with caches when only MSR or only sysfs sets; reads are pure and right; other registers and CPUs are untouched; liveness through sysfs. Refuted for mixed mechanisms with caches (stale sysfs/MSR caches), shared EPB registers, aliases that differ between CPUs, package-controlled EPP; several mechanisms may yield a CPU twice; an MSR write to another field may revert a kernel change. |
| C29 | proved | 8 | All histories of limit settings, enable/clamp switches, reads and foreign MSR calls that do not write the power registers, with any I/O failures and with or without transactions (shared registers addressed through one CPU, as in C05). Values are rationals; the arithmetic of the code is exact on them. The unit is that of the first online CPU, as in the code. Time windows are not modelled. C29_available: what is acceptable is not refused. |
| C30 | proved | 9 | Limit register model over the MSR model: lock check before the first write, all lock patterns and CPU lists, after any disciplined MSR history (see C05 for 'disciplined'). |
| C31 | partial | 16 | Listing is exact after any history without read errors, toggling is exact under any I/O errors and its frame holds for every outcome. Assumes CPU 0 online, at least two C-states per CPU, caching on, and for 'all' the same C-state names on every CPU; outside of that the claim is false (seven refutations). |
| C32 | partial | 8 | Round trip, frames and liveness are proved for C-states with the same names on the saved CPUs. A file in which a C-state is on for some CPUs and off for others is never restored (C32_mixed, C32_mixed_refuted): the printer writes the second value as a bare number. The properties in the same file are not part of this model. |
| C33 | partial | 12 | The grouping, the per-CPU fallback, the text after 'for' and the lines are modelled; C33_cstates covers the C-state printer. Refuted: with one die in package 0 and several in another, dies print alike (C33_uneven_dies_refuted); with package 0 offline nothing is printed about dies (C33_no_package0_refuted). A class has to give one value per CPU (C28_twice shows one that does not). Not modelled: how a value itself is written (units, lists). |
| C34 | proved | 3 | Every word of every well-formed dump, read through a map built from an earlier dump of the same layout; nothing else can be read. |
| C35 | partial | 13 | Proved for every reachable state: reads, full-register writes and field writes whose value fits. Findings: a field value that fits the register but not the field clobbers neighbour fields; a 64-bit register cut off by the end of the device is half written before the error. |
| C36 | partial | 7 | The constructor's device map, soundness, no duplicates and rejections proved in full. Completeness holds with explicit instances or equal instances on all devices; refuted for devices with different instances. |
| C37 | partial | 7 | Naming, discovery and file separation proved for drivers where every die has one directory; refuted otherwise: with the new interface two directories with the same package and domain are listed as one die twice and one of them is never used; a legacy name with anything after the die number is accepted as that die. |
| C38 | partial | 9 | Proved for successful unlocking, over any kernel whose writes may also change related files. A failure in the middle leaves dies changed (refuted); then only the limits and the retry are proved. |
| C39 | proved | 9 | Proved in full for ASCII texts; the accepted texts are characterised exactly. |
| C40 | proved | 9 | Proved in full for ASCII texts; C40_empty_option_refuted and C40_triangle_refuted record where more than the claim would be false (an empty option is never suggested and hides the others). |
| C41 | proved | 4 |  |
| C42 | partial | 8 | Dies and packages targeted, strictness and fall-back to CPUs proved for all topologies, option combinations and question histories. Refuted parts: packages that only qualify an I/O die are targeted; a sibling filter leaving no CPU still targets all packages; strict is ignored after a non-strict question (cache). |
| C43 | partial | 2 | Contract proved for all histories over all scopes; removal with the 'global' scope raises KeyError for an uncached name (finding). |
| C44 | partial | 24 | Proved for every register table of the code (all CPU models), any topology, any history of MSR and feature calls, inside and outside transactions: a write stores the code of the named value on every CPU asked for and changes no other bit, register or CPU; a later read returns the same name; unknown feature, offline or unsupported CPU, read-only feature and unknown name are refused with the state unchanged; tables are sound. Refuted: msr_bits_str() always raises KeyError; the uncore ratio limit features have no I/O scope and can be neither read nor written with the cache on; codes without names make reads fail; MiscFeatureControl mixes scopes in one register so a read can return a stale value. Strings of digits for numeric features, and the classes with own get/set methods (PCStateConfigCtl limit, PackagePowerLimit, RAPL units) are not covered here (see C29, C30). |
| C45 | proved | 8 | Values are exact rationals; floating-point rounding is not modelled. |
| C46 | partial | 12 | Parsing is proved both ways (C46_parse, C46_parse_bare, C46_parse_time, C46_parse_meaning) and formatting of units without a prefix reads back to half a unit of the last place (C46_format), over exact rationals. For units with a prefix the claim is false in general (C46_prefixed_refuted, C46_prefixed_scaled_refuted) and proved where it holds (C46_format_prefixed_partial). Durations below a day read back (C46_duration); longer and negative ones do not (refuted). |
| C47 | proved | 2 | Both readers. |
| C48 | partial | 10 | Set/get/frame/success proved for dies; refuted for setting by CPU: that path does not unlock the per-die interface. |
| C49 | partial | 8 | Proved for kernels that store what they accept; the code does not read back, so a kernel that silently keeps its governor goes unnoticed (C49_unnoticed_refuted). |
| C50 | partial | 7 | The setter is any function that sets what it is told to set and nothing else (setter_law); the YAML library is taken to read back what it wrote. Refuted: if the package C-state limit is locked on some of the CPUs only, saving crashes (C50_some_locked_refuted). |
| C51 | proved | 7 | In a transaction the write is buffered; what the commit does with it is C08 and C09. The directory of intel_pstate does not come or go while the tool runs. |
| C52 | partial | 8 | Refuted: all or nothing (C52_atomic_refuted). Lists of governors are names separated by single spaces. |
| C53 | partial | 11 | Refuted: switching off twice in a transaction (C53_off_transaction_refuted); the message about HWP (C53_off_hwp_refuted). |
| C54 | partial | 9 | Refuted for CPUs that differ in what files they have (C54_base_refuted, C54_duplicates_refuted). The MSR readings are not in here. |
| C55 | proved | 2 | The bus clock and the frequencies are given to the loop. |
| C56 | partial | 9 | The frequencies of CPUs with HWP come from the capabilities register, of the others from the platform information and turbo ratio registers. A CPU that has HWP switched off is told not to be supported (C56_hwp_off_refuted). Which CPU models have which registers is a parameter (table of supported features). |
| C57 | partial | 10 | Proved for everything up to the last line end. False: output after the last line end is lost, carriage returns make the lines depend on the cutting, a late exit status is never reported (the three _refuted theorems). The environment (what the reader threads have queued, what the system says) is universally quantified; the threads themselves are not modelled. |
| C58 | partial | 9 | Proved for output that is empty or ends with a newline and does not contain the marker. False otherwise, and for stderr that arrives after the marker (the four _refuted theorems). The random marker is any text that does not occur in the output. |
| C59 | proved | 7 | the refuted statements show what happens without the condition on the first request about dies |
| C60 | proved | 8 | The output is specified completely; the four refutations are deviations from the documentation. |
| C61 | proved | 8 | For setters with both transactions, as in 'pstates config'. Refuted: the two commits are not atomic together; commands without a sysfs transaction; features that flush. |
| C62 | proved | 15 | The two statements that do not hold - both options as one change, and the L1 state read back - are refuted beside the theorems. |
| C63 | proved | 15 | All three commands, for every topology, set of online CPUs, option values and kernel refusals. The two refuted statements are about behaviour the documentation or a code comment suggests but the code does not have. |
| C64 | partial | 14 | Partial: completeness excludes devices with different instances (refuted there); liveness of reading is for named features. |
| C65 | partial | 12 | Partial: equal option values, host names beginning with emulation, and a data set with another host typed before the sub-command are excluded; each is refuted with a witness. |
| C66 | partial | 12 | Partial: 'all' on CPUs with different C-states, and what is printed after read errors, are excluded (both refuted under C31). |
| C67 | partial | 17 | The YAML text format is not modelled. The main theorem asks for documents without an include inside a value and without a repeated key; the other theorems say what happens otherwise. |
| C68 | proved | 6 | Equality of the remote and the local object for every history of successful calls; C68_frame covers the failing ones. The text of the scripts is not modelled, only what they print and write. |
| C69 | partial | 16 | The defects are the refuted theorems; everything else of the statement is proved. Arithmetic is exact, so the last bit of floating point numbers is not covered. |
| C70 | partial | 20 | Known, unknown and listed features are exactly those of the spec files and the devices; registers under a naming convention the code does not check. C70_fatal: a spec file which is cut after two keys, or is not YAML, makes every TPMI command fail (AttributeError or YAML error, not Error), although four files in error are tolerated. |
| C71 | partial | 15 | Proved with counterexamples for the clauses that are false of the code: '--mechanisms' without options, dictionary values in YAML, an empty '--csnames' list. |
| C72 | partial | 10 | The round trip is proved for every machine, class and history; success is proved under the conditions stated, and two files that cannot be restored are refuted. |
| C73 | partial | 19 | Dispatching of every property of PStates, CStates, Power and PMQoS over abstract low-level objects; the refuted theorems are findings. |
| C74 | partial | 16 | Proved for all systems and histories; four refutations: restoring a unit that was not active, restoring twice, stop_ntp() twice, stop_timers() failing half way. |
| C75 | partial | 26 | Proved for all hosts; seven refutations: late device files, closing twice, dependencies, debugfs never unmounted. |
| C76 | partial | 10 | Proved for 25 class shapes covering 30 classes, all arguments and all histories; four genuine counterexamples are proved as refutations. |
| C77 | partial | 10 | All histories; two genuine counterexamples proved as refutations. |
| C78 | partial | 14 | Proved in full for the local host and for remote hosts that set the variables; refuted for unset variables over SSH and for two cases of '-D all'. |
| C79 | partial | 13 | Proved; refuted for pmqos (no mechanisms listed, no emulation), for a leak on other exceptions and for negative model numbers. |
| C80 | partial | 19 | C80_field, _base_freq, _flags, _hybrid, _identifies, _name, _codename, _hybrid_cpus, _not_hybrid, _warned_once, _warned_for, _warns, _caches, _caches_kept, _dies, _dies_none hold in full; the refutations show a prefixed number, a processor with P-cores only, and a failed cache call. |
| C81 | partial | 15 | The emulated files: the last write wins, names of the bias, the ASPM policy, the list of online CPUs, registers; three findings where the emulation differs from the kernel or a refusal has an effect. |
| C82 | partial | 11 | os-release parsing exactly as a relation, the remembered OS ID, the search for tools and the suggested packages for all tools and systems; four findings. |
| C83 | partial | 11 |  |
| C84 | partial | 11 |  |

## Testing the theorems

`seeded/LOG.jsonl` has one line per wrong program tried: the definition edited, the edit, the claim it
breaks, the lemmas and theorems that fail to prove, and what was tightened if none did.
