{"id": "C01", "title": "Number-list formatting round trip", "statement": "For every list of non-negative integers, formatting it as a comma/range string ('rangify') and parsing that string back ('parse_int_list') gives exactly the sorted list, nothing lost, added or merged.", "quantifier": "all finite lists of non-negative integers, of any length and magnitude", "why_tests_cant": "Range grouping depends on arbitrary run lengths and values; tests sample a few lists.", "anchors": ["pepclibs/helperlibs/Trivial.py: rangify", "pepclibs/helperlibs/Trivial.py: parse_int_list", "pepclibs/helperlibs/Trivial.py: split_csv_line_int", "pepclibs/helperlibs/Trivial.py: split_csv_line"]}
{"id": "C02", "title": "Number-list parsing denotes the union of its items", "statement": "For every sequence of numbers and ascending ranges written with commas (and optional blanks), parsing returns the concatenation of the expansions in order; a descending range is rejected; when duplicates are to be removed the result contains each number once.", "quantifier": "all sequences of numbers/ranges with arbitrary blanks; dedup on or off", "why_tests_cant": "Overlapping ranges, blanks and duplicates combine without bound.", "anchors": ["pepclibs/helperlibs/Trivial.py: split_csv_line_int", "pepclibs/helperlibs/Trivial.py: parse_int_list", "pepclibs/helperlibs/Trivial.py: list_dedup"]}
{"id": "C03", "title": "Register bit-field algebra", "statement": "Setting a bit-field of a 64-bit register to a value that fits makes a later get of the field return the value, leaves every other bit unchanged, keeps the register a 64-bit value; setting twice equals setting last; setting to the current value is a no-op; disjoint fields commute. A value that does not fit is rejected.", "quantifier": "all 64-bit register values, all bit ranges msb>=lsb within the register, all field values", "why_tests_cant": "2^64 registers times 2080 bit ranges times all values.", "anchors": ["pepclibs/msr/MSR.py: set_bits", "pepclibs/msr/MSR.py: get_bits", "pepclibs/msr/MSR.py: _normalize_bits"]}
{"id": "C04", "title": "MSR write_bits frame", "statement": "Writing a bit-field of an MSR on a set of CPUs changes, on the hardware, only that bit-field, only of that MSR, and only on the CPUs sharing the MSR with the requested CPUs; on the requested CPUs the field afterwards equals the value.", "quantifier": "all topologies/scopes, CPU lists, registers, fields, values and prior histories", "why_tests_cant": "The frame condition ranges over all other CPUs, registers and bits.", "anchors": ["pepclibs/msr/MSR.py: write_bits", "pepclibs/msr/MSR.py: write", "pepclibs/msr/MSR.py: read"]}
{"id": "C05", "title": "MSR read-after-any-history coherence", "statement": "After any sequence of read, write, write-bits, transaction start/flush/commit calls, a cached read of an MSR returns the value a fresh hardware read would return (or the pending value while a transaction is open).", "quantifier": "all finite histories of API calls over all CPUs, registers, scopes", "why_tests_cant": "Cache incoherence needs particular interleavings of calls.", "anchors": ["pepclibs/msr/MSR.py: MSR", "pepclibs/_PerCPUCache.py: PerCPUCache"]}
{"id": "C06", "title": "MSR transaction: deferred, complete, last write wins", "statement": "Between starting and committing a transaction no MSR is written; a successful commit leaves every MSR holding the last value written to it in the transaction and every other MSR unchanged.", "quantifier": "all sequences of writes inside a transaction, on all CPUs and registers", "why_tests_cant": "Order of writes within a transaction over shared registers is unbounded.", "anchors": ["pepclibs/msr/MSR.py: start_transaction", "pepclibs/msr/MSR.py: write", "pepclibs/msr/MSR.py: flush_transaction", "pepclibs/msr/MSR.py: commit_transaction"]}
{"id": "C07", "title": "Sysfs I/O coherence", "statement": "After any history of reads, writes, verified writes and transactions through the sysfs I/O object, a read returns what the file contains (or the pending value while a transaction is open), provided nobody else changes the file.", "quantifier": "all histories of calls on all paths, including failing writes", "why_tests_cant": "Failures at arbitrary points of arbitrary histories.", "anchors": ["pepclibs/_SysfsIO.py: SysfsIO.read", "pepclibs/_SysfsIO.py: SysfsIO.write", "pepclibs/_SysfsIO.py: SysfsIO.write_verify"]}
{"id": "C08", "title": "Sysfs transaction: deferred, complete, last write wins", "statement": "No file changes before the flush; after a successful commit every path written in the transaction holds the last value written to it, each is written exactly once, in order of first write, and no other file changes.", "quantifier": "all sequences of writes in a transaction", "why_tests_cant": "Unbounded write sequences with repeated paths.", "anchors": ["pepclibs/_SysfsIO.py: SysfsIO._add_for_transaction", "pepclibs/_SysfsIO.py: SysfsIO.flush_transaction", "pepclibs/_SysfsIO.py: SysfsIO.commit_transaction"]}
{"id": "C09", "title": "Failed sysfs transaction", "statement": "When a write fails in the middle of a flush, the files written before the failure hold their new values, the failing and later ones keep their old contents, and abandoned values are not written by a later, unrelated transaction.", "quantifier": "all transactions, all failure points, all later histories", "why_tests_cant": "Crash point times history.", "anchors": ["pepclibs/_SysfsIO.py: SysfsIO.flush_transaction"]}
{"id": "C10", "title": "CPU number normalisation", "statement": "normalize_cpus returns the requested CPUs without duplicates, in request order, every one of them existing (online unless offline is allowed), and fails exactly when some requested CPU does not exist; 'all' means all online CPUs (all CPUs if offline is allowed).", "quantifier": "all CPU lists and all topologies", "why_tests_cant": "All lists times all topologies.", "anchors": ["pepclibs/CPUInfo.py: CPUInfo.normalize_cpus"]}
{"id": "C11", "title": "Package division partitions the CPUs", "statement": "cpus_div_packages returns packages whose CPUs are all among the input, and the remaining CPUs; together they cover exactly the input, the remainder belongs to no returned package, and no fully covered package is missed.", "quantifier": "all topologies and CPU lists", "why_tests_cant": "All subsets of all topologies.", "anchors": ["pepclibs/CPUInfo.py: CPUInfo.cpus_div_packages"]}
{"id": "C12", "title": "Die and core division partitions the CPUs", "statement": "cpus_div_dies and cpus_div_cores return only fully covered dies/cores plus a remainder; together they cover exactly the input CPUs, with no overlap and no fully covered die/core missed.", "quantifier": "all topologies and CPU lists", "why_tests_cant": "All subsets of all topologies.", "anchors": ["pepclibs/CPUInfo.py: CPUInfo.cpus_div_dies", "pepclibs/CPUInfo.py: CPUInfo.cpus_div_cores"]}
{"id": "C13", "title": "Siblings form a partition", "statement": "get_cpu_siblings at each level returns exactly the CPUs sharing that CPU's unit, so siblings are an equivalence: reflexive, symmetric, and two CPUs have either equal or disjoint sibling lists.", "quantifier": "all topologies, CPUs and levels", "why_tests_cant": "All topologies, including ones where module/die numbers repeat in packages.", "anchors": ["pepclibs/CPUInfo.py: CPUInfo.get_cpu_siblings"]}
{"id": "C14", "title": "Sibling-index selection", "statement": "Selecting core siblings with an index list picks from the CPU list exactly those CPUs that are the i-th CPU (in ascending order) of their core, for i in the index list; likewise modules.", "quantifier": "all topologies, CPU lists, index lists", "why_tests_cant": "All topologies and index lists.", "anchors": ["pepclibs/CPUInfo.py: CPUInfo.select_core_siblings", "pepclibs/CPUInfo.py: CPUInfo.select_module_siblings"]}
{"id": "C15", "title": "CPU numbers of packages, dies, cores, modules", "statement": "packages_to_cpus, dies_to_cpus, cores_to_cpus and modules_to_cpus return exactly the online CPUs whose topology entry matches, each once.", "quantifier": "all topologies and selections", "why_tests_cant": "All topologies.", "anchors": ["pepclibs/CPUInfo.py: CPUInfo._get_level_nums", "pepclibs/CPUInfo.py: CPUInfo.cores_to_cpus", "pepclibs/CPUInfo.py: CPUInfo.dies_to_cpus", "pepclibs/CPUInfo.py: CPUInfo.packages_to_cpus", "pepclibs/CPUInfo.py: CPUInfo.modules_to_cpus"]}
{"id": "C16", "title": "Hotplug keeps the topology consistent", "statement": "After any sequence of CPU online/offline operations the online CPU list equals the system's, the topology has exactly one entry per online CPU with the CPU's own package/die/core, and entries of CPUs that stayed online are unchanged.", "quantifier": "all hotplug histories", "why_tests_cant": "All histories of on/offlining.", "anchors": ["pepclibs/_CPUInfoBase.py: CPUInfoBase._update_topology", "pepclibs/_CPUInfoBase.py: CPUInfoBase.cpus_hotplugged", "pepclibs/CPUOnline.py: CPUOnline._toggle"]}
{"id": "C17", "title": "Online/offline effect and frame", "statement": "A successful online/offline call leaves exactly the requested (supported) CPUs in the requested state and every other CPU's state unchanged; already-ready CPUs are not touched; a CPU whose control file is missing is rejected or skipped as asked.", "quantifier": "all CPU lists, all states, all subsets of CPUs without hotplug support", "why_tests_cant": "All states and lists.", "anchors": ["pepclibs/CPUOnline.py: CPUOnline.online", "pepclibs/CPUOnline.py: CPUOnline.offline"]}
{"id": "C18", "title": "Property get: mechanism fallback", "statement": "Reading a property tries the allowed mechanisms in order and returns, for every requested CPU, exactly one value, all obtained by one mechanism - the first that supports the property; mechanisms after it are not consulted; if none supports it every value is 'not supported' (None) or an error is raised, as asked.", "quantifier": "all mechanism lists, all support patterns, all CPU lists", "why_tests_cant": "Support patterns per mechanism and CPU.", "anchors": ["pepclibs/_PropsClassBase.py: PropsClassBase._get_prop_pvinfo_cpus", "pepclibs/_PropsClassBase.py: PropsClassBase.get_prop_cpus"]}
{"id": "C19", "title": "Property set: mechanism fallback", "statement": "Setting a property applies it through the first allowed mechanism that supports it and reports that mechanism; a read-only or unknown mechanism or a read-only property is rejected before anything is written.", "quantifier": "all mechanism lists and support patterns", "why_tests_cant": "Support patterns.", "anchors": ["pepclibs/_PropsClassBase.py: PropsClassBase._set_prop_cpus_mnames", "pepclibs/_PropsClassBase.py: PropsClassBase.set_prop_cpus"]}
{"id": "C20", "title": "Property set on dies/packages reaches them", "statement": "Setting a property for a list of packages (or dies) writes the value at least once on the I/O domain of every CPU of every requested package (die).", "quantifier": "all topologies, property scopes and requested packages/dies", "why_tests_cant": "Scope combinations on all topologies.", "anchors": ["pepclibs/_PropsClassBase.py: PropsClassBase._reduce_cpus_ioscope", "pepclibs/_PropsClassBase.py: PropsClassBase.set_prop_packages", "pepclibs/_PropsClassBase.py: PropsClassBase.set_prop_dies"]}
{"id": "C21", "title": "Scope validation", "statement": "Setting a property with a scope wider than CPU is accepted only if the CPU list consists of whole scope units (cores, modules, dies, packages), so no CPU outside the request is affected.", "quantifier": "all topologies, scopes, CPU lists", "why_tests_cant": "All subsets of all topologies.", "anchors": ["pepclibs/_PropsClassBase.py: PropsClassBase._validate_cpus_vs_scope"]}
{"id": "C22", "title": "CPU frequency set is all-or-nothing", "statement": "If setting the minimum or maximum CPU frequency fails validation (out of limits or out of order) for any CPU of the request, no CPU's frequency is changed; otherwise exactly the requested CPUs get the new frequency.", "quantifier": "all CPU lists, limits, current frequencies and requests", "why_tests_cant": "Which CPU fails and where in the list is unbounded.", "anchors": ["pepclibs/PStates.py: PStates._set_cpu_freq"]}
{"id": "C23", "title": "min <= max frequency is invariant", "statement": "Whatever sequence of minimum/maximum frequency settings is attempted, accepted or rejected, every CPU (die for uncore) keeps min <= max and both within the CPU's limits, once it starts so.", "quantifier": "all histories of frequency settings on any CPUs/dies", "why_tests_cant": "Invariant over all histories.", "anchors": ["pepclibs/PStates.py: PStates._set_cpu_freq", "pepclibs/PStates.py: PStates._set_uncore_freq"]}
{"id": "C24", "title": "Setting both frequency limits works in either order", "statement": "A request that sets both minimum and maximum frequency to a valid pair succeeds whatever the current limits are and whichever order the options are given in.", "quantifier": "all current limits, valid new pairs, both orders", "why_tests_cant": "Ordering against arbitrary current limits.", "anchors": ["pepctool/_PepcSetter.py: PStatesSetter._set_prop_sname", "pepctool/_PepcSetter.py: _PropsSetter.set_props"]}
{"id": "C25", "title": "Frequency save/restore", "statement": "Restoring saved frequency limits puts every CPU back to its saved minimum and maximum frequency, from any current state, whichever of the two comes first in the file.", "quantifier": "all saved configurations, current states, orders", "why_tests_cant": "All pairs of states.", "anchors": ["pepctool/_PepcSetter.py: PStatesSetter._restore_prop", "pepctool/_PepcSetter.py: _PropsSetter._restore_props"]}
{"id": "C26", "title": "Frequency to performance-level conversion", "statement": "Writing a frequency through the MSR mechanism and reading it back returns the same frequency for every multiple of the bus clock, for both core types of a hybrid CPU; for any frequency the read-back is a bus-clock multiple not above the request.", "quantifier": "all frequencies, bus clocks and scaling factors", "why_tests_cant": "Integer rounding over all frequencies.", "anchors": ["pepclibs/_CPUFreq.py: CPUFreqMSR._perf_to_freq", "pepclibs/_CPUFreq.py: CPUFreqMSR._set_freq_msr"]}
{"id": "C27", "title": "MSR frequency/EPP set under package control", "statement": "Setting min/max performance or EPP through the per-CPU MSR on a CPU controlled by the package MSR makes a later read return the value set, and CPUs not requested keep their effective value.", "quantifier": "all CPU sets, package-control and valid-bit states", "why_tests_cant": "All combinations of control bits over all CPUs.", "anchors": ["pepclibs/_CPUFreq.py: CPUFreqMSR._set_freq_msr", "pepclibs/msr/HWPRequest.py: HWPRequest", "pepclibs/EPP.py: EPP._write_to_msr"]}
{"id": "C28", "title": "EPP/EPB set then get", "statement": "After any history of EPP (or EPB) settings through the sysfs or MSR mechanisms, reading through any mechanism returns the value last set on that CPU.", "quantifier": "all histories, mechanisms and CPUs", "why_tests_cant": "Per-mechanism caches go stale only in particular histories.", "anchors": ["pepclibs/EPP.py: EPP", "pepclibs/EPB.py: EPB", "pepclibs/_EPBase.py: EPBase"]}
{"id": "C29", "title": "Package power limits stay ordered", "statement": "Whatever sequence of PPL1/PPL2 settings is attempted, PPL1 <= PPL2 is preserved, a rejected setting changes nothing, and an accepted one is within one power unit below the request.", "quantifier": "all histories of settings, unit sizes, TDPs", "why_tests_cant": "Invariant over all histories and rounding.", "anchors": ["pepclibs/Power.py: Power._validate_ppl", "pepclibs/msr/PackagePowerLimit.py: PackagePowerLimit._set_limit"]}
{"id": "C30", "title": "Package C-state limit lock", "statement": "Setting the package C-state limit writes nothing if any targeted CPU's register is locked; on success every targeted CPU reports the limit set and no other field changes.", "quantifier": "all CPU lists and lock patterns", "why_tests_cant": "Which CPU is locked is arbitrary.", "anchors": ["pepclibs/msr/PCStateConfigCtl.py: PCStateConfigCtl._set_pkg_cstate_limit", "pepclibs/msr/PCStateConfigCtl.py: PCStateConfigCtl._get_pkg_cstate_limit"]}
{"id": "C31", "title": "C-state toggling frame", "statement": "Enabling/disabling C-states on CPUs changes the disable flag of exactly the named C-states on exactly the named CPUs; C-state information lists every C-state of every CPU.", "quantifier": "all CPU lists, C-state sets, per-CPU C-state tables", "why_tests_cant": "All tables.", "anchors": ["pepclibs/CPUIdle.py: CPUIdle._toggle_cstates", "pepclibs/CPUIdle.py: CPUIdle._read_cstates_info"]}
{"id": "C32", "title": "C-state save/restore", "statement": "A saved C-state configuration can be restored and puts every C-state of every CPU back into its saved on/off state.", "quantifier": "all on/off configurations", "why_tests_cant": "All 2^(CPUs x C-states) configurations.", "anchors": ["pepctool/_PepcPrinter.py: CStatesPrinter._print_aggr_rcsinfo_yaml", "pepctool/_PepcSetter.py: CStatesSetter._restore_cstates"]}
{"id": "C33", "title": "Printed property aggregation is a partition", "statement": "Grouping per-CPU (per-die) values for printing lists every CPU under its own value exactly once, and under the mechanism that produced it.", "quantifier": "all value assignments", "why_tests_cant": "All assignments.", "anchors": ["pepctool/_PepcPrinter.py: _PropsPrinter._build_aggr_pinfo_pname"]}
{"id": "C34", "title": "TPMI memory-dump map", "statement": "Parsing a TPMI memory dump yields, for every register of every instance, the file position of exactly its eight hex digits.", "quantifier": "all dumps: any number of instances, lines, words per line, offset widths", "why_tests_cant": "Positions accumulate over unbounded text.", "anchors": ["pepclibs/Tpmi.py: Tpmi._build_mdmap", "pepclibs/Tpmi.py: Tpmi._read"]}
{"id": "C35", "title": "TPMI bit-field read/write", "statement": "Writing a bit-field of a TPMI register then reading it returns the value, and other bit-fields are unchanged; a value that does not fit is rejected.", "quantifier": "all register values, fields, values", "why_tests_cant": "2^64 registers.", "anchors": ["pepclibs/Tpmi.py: Tpmi._set_bitfield", "pepclibs/Tpmi.py: Tpmi._get_bitfield", "pepclibs/Tpmi.py: Tpmi.write_register"]}
{"id": "C36", "title": "TPMI iteration covers all instances", "statement": "Iterating a feature without a filter yields every (device, instance) pair exactly once; with a filter, exactly the matching ones.", "quantifier": "all sets of devices with any instance sets", "why_tests_cant": "Devices with differing instance sets.", "anchors": ["pepclibs/Tpmi.py: Tpmi.iter_feature"]}
{"id": "C37", "title": "Uncore frequency directory naming", "statement": "The sysfs directory name built for a package and die is parsed back to the same package and die, so distinct dies never share a directory.", "quantifier": "all package and die numbers", "why_tests_cant": "Unbounded numbers.", "anchors": ["pepclibs/_UncoreFreq.py: _UncoreFreqSysfs._get_legacy_sysfs_api_path", "pepclibs/_UncoreFreq.py: _UncoreFreqSysfs._build_dies_info"]}
{"id": "C38", "title": "Unlocking the per-die uncore interface preserves settings", "statement": "Unlocking the new uncore interface leaves every die's minimum and maximum uncore frequency as it was.", "quantifier": "all packages, dies, frequencies", "why_tests_cant": "All per-die values.", "anchors": ["pepclibs/_UncoreFreq.py: _UncoreFreqSysfs._unlock_new_sysfs_api"]}
{"id": "C39", "title": "Kernel version comparison is a strict order", "statement": "'older than' on kernel versions is irreflexive, asymmetric, transitive, and total up to equal components; a release candidate is older than its release.", "quantifier": "all version strings", "why_tests_cant": "All triples of strings.", "anchors": ["pepclibs/helperlibs/KernelVersion.py: kver_lt", "pepclibs/helperlibs/KernelVersion.py: split_kver"]}
{"id": "C40", "title": "Typo suggestion", "statement": "The suggested option is one of the options, is within the allowed edit distance, and no option is closer; distance is zero exactly for equal strings and symmetric.", "quantifier": "all strings and option lists", "why_tests_cant": "All string pairs.", "anchors": ["pepclibs/helperlibs/DamerauLevenshtein.py: closest_match"]}
{"id": "C41", "title": "Command target resolution", "statement": "The CPUs targeted by a command are exactly the union of the CPUs, cores, modules, dies and packages given (packages qualifying cores/dies when those are given), filtered by sibling indexes; ambiguous core/die numbers are rejected.", "quantifier": "all topologies and option combinations", "why_tests_cant": "Combination of seven options over all topologies.", "anchors": ["pepctool/_OpTarget.py: OpTarget._get_cpus", "pepctool/_OpTarget.py: OpTarget.__init__", "pepctool/_OpTarget.py: OpTarget._build_package_indexed_dict"]}
{"id": "C42", "title": "Command die/package resolution", "statement": "The dies (packages) targeted are those given plus those fully covered by the CPUs given; if some CPU does not complete a die (package) the request falls back to CPUs.", "quantifier": "all topologies and option combinations", "why_tests_cant": "All combinations.", "anchors": ["pepctool/_OpTarget.py: OpTarget.get_dies", "pepctool/_OpTarget.py: OpTarget.get_packages", "pepctool/_PepcCommon.py: _get_sname_and_nums"]}
{"id": "C43", "title": "Per-CPU cache contract", "statement": "After any history, the per-CPU cache returns for a CPU the last value added for that name by any CPU of the same scope unit since the last removal by one, and 'not found' otherwise.", "quantifier": "all histories over CPUs, names, scopes", "why_tests_cant": "All histories.", "anchors": ["pepclibs/_PerCPUCache.py: PerCPUCache", "pepclibs/_PropsCache.py: PropsCache"]}
{"id": "C44", "title": "MSR feature value mapping", "statement": "Writing a named feature value (e.g. on/off) and reading it returns the same name; an unknown or read-only feature, or an unsupported CPU, is rejected before any write.", "quantifier": "all features, value tables, CPUs", "why_tests_cant": "All tables and CPU sets.", "anchors": ["pepclibs/msr/_FeaturedMSR.py: FeaturedMSR.write_feature", "pepclibs/msr/_FeaturedMSR.py: FeaturedMSR.read_feature", "pepclibs/msr/_FeaturedMSR.py: FeaturedMSR._normalize_feature_value"]}
{"id": "C45", "title": "PM QoS latency unit conversion", "statement": "Setting the per-CPU latency limit in seconds and reading it back returns the value to microsecond resolution; the 4-byte global limit decodes to the encoded value.", "quantifier": "all values", "why_tests_cant": "All 2^32 values.", "anchors": ["pepclibs/_LinuxPMQoS.py: LinuxPMQoS"]}
{"id": "C46", "title": "Human-readable value parsing", "statement": "Parsing a number with an SI prefix and unit scales it exactly by the prefix, and formatting a value with a unit denotes the same quantity (to the printed precision).", "quantifier": "all values, prefixes, units", "why_tests_cant": "All values.", "anchors": ["pepclibs/helperlibs/Human.py: parse_human", "pepclibs/helperlibs/Human.py: num2si", "pepclibs/helperlibs/Human.py: scale_si_val"]}
{"id": "C47", "title": "Per-package and per-die reads never hide disagreement", "statement": "When a property's scope is wider than the scope at which it is accessed, a per-package (per-die) read returns a value only if the reads on all CPUs of that package (die) agree; otherwise it raises an error telling the caller to read per CPU.", "quantifier": "all properties, machines, requests and register contents", "why_tests_cant": "Needs every pattern of per-CPU values.", "anchors": ["pepclibs/_PropsClassBase.py: _validate_prop_vs_ioscope", "pepclibs/_PropsClassBase.py: get_prop_packages", "pepclibs/_PropsClassBase.py: get_prop_dies"]}
{"id": "C48", "title": "Uncore frequency set and get", "statement": "After an uncore frequency is set for some dies, reading it for these dies gives it (to kHz resolution), every other die, the other limit and the hardware limits are as they were, and the setting succeeds whenever the files are accessible; setting it through a CPU of a die does what setting it for the die does.", "quantifier": "all die sets, frequencies, driver interfaces, kernels with side effects on related files", "why_tests_cant": "All dies and frequencies, and kernel side effects between files.", "anchors": ["pepclibs/_UncoreFreq.py: _UncoreFreqSysfs._set_freq_dies", "pepclibs/_UncoreFreq.py: _UncoreFreqSysfs._get_freq_dies", "pepclibs/_UncoreFreq.py: _UncoreFreqSysfs._set_freq_cpus"]}
{"id": "C49", "title": "The idle governor that was set is the one that is used and reported", "statement": "Setting the idle governor makes the kernel use it, only governors the kernel offers are accepted, a failed setting leaves it alone, it is the one reported until another one is set, and setting it affects no C-state.", "quantifier": "all histories of calls, governors, I/O errors", "why_tests_cant": "Arbitrary histories of C-state and governor calls with failures between, and a cache that must follow.", "anchors": ["pepclibs/CPUIdle.py: CPUIdle.get_current_governor", "pepclibs/CPUIdle.py: CPUIdle.set_current_governor", "pepclibs/CPUIdle.py: CPUIdle.get_available_governors", "pepclibs/_PerCPUCache.py: PerCPUCache"]}
{"id": "C50", "title": "Saving and restoring properties", "statement": "The file written by 'save' says, for every writable property read, which CPUs, dies or packages have which value, and restoring it gives each of them its saved value back and touches nothing else; it fails only if a property cannot be set.", "quantifier": "all topologies, value assignments, and states at restore time", "why_tests_cant": "All assignments of values to CPUs, dies and packages, and any state in between.", "anchors": ["pepctool/_PepcPrinter.py: _PropsPrinter._print_aggr_pinfo_yaml", "pepctool/_PepcPrinter.py: CStatesPrinter._adjust_aggr_pinfo_pcs_limit", "pepctool/_PepcSetter.py: _PropsSetter._restore_props", "pepctool/_PepcSetter.py: _PropsSetter.restore"]}
{"id": "C51", "title": "Turbo on and off", "statement": "Setting turbo writes the right number to the file of the driver of the CPU ('no_turbo' inverted for intel_pstate, 'boost' for acpi-cpufreq) and to no other file; reading it back gives the setting for every CPU with that driver; unknown drivers and a disabled driver are refused as not supported.", "quantifier": "all CPU lists, drivers, file contents, kernel answers, in and outside transactions", "why_tests_cant": "All mixtures of drivers and all kernel reactions.", "anchors": ["pepclibs/_CPUFreq.py: CPUFreqSysfs.get_turbo", "pepclibs/_CPUFreq.py: CPUFreqSysfs.set_turbo"]}
{"id": "C52", "title": "CPU frequency governor", "statement": "A governor is set only on CPUs where it is available; afterwards it is what these CPUs report, and no other file changed. On an error the CPUs before the failing one are changed and no others.", "quantifier": "all CPU lists, lists of governors, kernel answers", "why_tests_cant": "All lists of governors and failure points.", "anchors": ["pepclibs/_CPUFreq.py: CPUFreqSysfs.get_governor", "pepclibs/_CPUFreq.py: CPUFreqSysfs.get_available_governors", "pepclibs/_CPUFreq.py: CPUFreqSysfs.set_governor"]}
{"id": "C53", "title": "Driver name and intel_pstate mode", "statement": "The driver is what the kernel tells for the CPU ('intel_cpufreq' counts as 'intel_pstate'). The mode of intel_pstate can be set to active, passive or off only; after success the kernel has that mode; switching off twice is no error.", "quantifier": "all CPU lists, modes, file contents, kernel answers", "why_tests_cant": "All kernel answers at every step.", "anchors": ["pepclibs/_CPUFreq.py: CPUFreqSysfs.get_driver", "pepclibs/_CPUFreq.py: CPUFreqSysfs.get_intel_pstate_mode", "pepclibs/_CPUFreq.py: CPUFreqSysfs.set_intel_pstate_mode"]}
{"id": "C54", "title": "Base frequency and CPPC numbers", "statement": "The base frequency and the frequencies by ACPI CPPC are reported once per CPU, in the order of the CPUs, and agree with the kernel's files; min <= base <= max if the performance numbers are in that order.", "quantifier": "all CPU lists and file contents", "why_tests_cant": "All contents of the files, including missing files of some CPUs.", "anchors": ["pepclibs/_CPUFreq.py: CPUFreqSysfs.get_base_freq", "pepclibs/_CPUFreq.py: CPUFreqCPPC", "pepclibs/PStates.py: PStates._get_cppc_freq"]}
{"id": "C55", "title": "Available frequencies", "statement": "The list of available frequencies is sorted, in Hz, and has exactly the kernel's frequencies (sysfs) or exactly the multiples of the bus clock from the minimum frequency on, up to the maximum (doc).", "quantifier": "all file contents, minimum and maximum frequencies, bus clocks", "why_tests_cant": "All lists and bounds.", "anchors": ["pepclibs/_CPUFreq.py: CPUFreqSysfs.get_available_frequencies", "pepclibs/PStates.py: PStates._get_frequencies_intel"]}
{"id": "C56", "title": "Frequencies, HWP status and bus clock read from MSRs", "statement": "The base, minimum operating, maximum efficiency and maximum turbo frequencies, the HWP status and the bus clock are reported for every CPU asked for, in the order asked for, and are what the register of the CPU's kind (HWP or not) says; reading succeeds if the CPUs have the registers and I/O works, changes nothing, and the answer does not depend on what was set or read before.", "quantifier": "all topologies, mixtures of CPUs with and without HWP, register contents, I/O errors, histories of calls", "why_tests_cant": "All register contents, mixtures of CPU kinds and histories.", "anchors": ["pepclibs/_CPUFreq.py: CPUFreqMSR.get_base_freq", "pepclibs/_CPUFreq.py: CPUFreqMSR.get_max_turbo_freq", "pepclibs/_CPUFreq.py: CPUFreqMSR.get_hwp", "pepclibs/PStates.py: PStates._get_bclks_cpus"]}
{"id": "C57", "title": "Output and exit code of a process with its own streams", "statement": "What the wait() calls of a local process or an SSH session return is, in order, without gaps or repetitions, the beginning of what the process printed, in whole lines and never more lines than asked for; the exit code is the one the system gave, is returned only after both streams ended and all full lines were returned, and stays the same; a call that is not held up returns it; an exception is raised only for the limits (0, 0) or for a command that does not exist.", "quantifier": "all outputs, all ways of cutting and interleaving the two streams, all timings, all histories of wait() calls with any limits and timeouts", "why_tests_cant": "The cutting of the streams and the timing of the reader threads cannot be enumerated or even controlled by a test.", "anchors": ["pepclibs/helperlibs/_ProcessManagerBase.py: extract_full_lines", "pepclibs/helperlibs/_ProcessManagerBase.py: ProcessBase.wait", "pepclibs/helperlibs/_ProcessManagerBase.py: have_enough_lines", "pepclibs/helperlibs/_ProcessManagerBase.py: get_lines_to_return", "pepclibs/helperlibs/LocalProcessManager.py: LocalProcess._wait", "pepclibs/helperlibs/SSHProcessManager.py: SSHProcess._wait_nointsh"]}
{"id": "C58", "title": "Commands in the shared interactive shell", "statement": "A command run in the interactive shell of an SSH connection is reported with its own PID, output and exit code: what wait() returns is the beginning of what the command printed, never a part of the marker line that the shell adds, and once the exit code is returned it is that of the command and all of stdout was returned.", "quantifier": "all commands, outputs (also ones that look like the beginning of the marker), exit codes, cuttings of the stream, timings and histories of wait() calls", "why_tests_cant": "The marker may be cut anywhere and arrive at any time.", "anchors": ["pepclibs/helperlibs/SSHProcessManager.py: SSHProcess._wait_intsh", "pepclibs/helperlibs/SSHProcessManager.py: SSHProcess._watch_for_marker", "pepclibs/helperlibs/SSHProcessManager.py: SSHProcess._read_pid", "pepclibs/helperlibs/SSHProcessManager.py: SSHProcessManager._run_in_intsh"]}
{"id": "C59", "title": "Topology table across hotplug", "statement": "The topology table that is returned describes the system as it is now: exactly one line for each CPU that is online, with the CPU, core, module, die, node and package numbers of the system on the requested levels, in the documented order; every other line is an I/O die that the uncore driver reports. If the files of the system can be read the table is returned, whatever was requested, failed or hotplugged before. If every die that has CPUs had an online CPU at the first request about dies, exactly the dies without CPUs are listed as I/O dies.", "quantifier": "all systems and numberings, all contents of the system files, all histories of requests (levels, orders, also failing ones) and CPU hotplug", "why_tests_cant": "The table is filled level by level and updated in place; tests use fresh objects on fixed systems.", "anchors": ["pepclibs/_CPUInfoBase.py: CPUInfoBase._get_topology", "pepclibs/_CPUInfoBase.py: CPUInfoBase._update_topology", "pepclibs/_CPUInfoBase.py: CPUInfoBase._add_cores_and_packages", "pepclibs/_CPUInfoBase.py: CPUInfoBase._add_modules", "pepclibs/_CPUInfoBase.py: CPUInfoBase._add_compute_dies", "pepclibs/_CPUInfoBase.py: CPUInfoBase._add_nodes", "pepclibs/_CPUInfoBase.py: CPUInfoBase._add_io_dies", "pepclibs/_CPUInfoBase.py: CPUInfoBase._add_io_dies_from_cache", "pepclibs/_CPUInfoBase.py: CPUInfoBase._sort_topology", "pepclibs/_CPUInfoBase.py: CPUInfoBase._cpus_hotplugged", "pepclibs/CPUInfo.py: CPUInfo.get_topology"]}
{"id": "C60", "title": "Output of 'topology info'", "statement": "The command prints a header and exactly one line for every targeted online CPU and targeted I/O die, in the order asked for, and then one for every targeted offline CPU (unless only online ones are wanted), with the numbers of the topology in the columns asked for; unknown numbers are '?', numbers an I/O die has not are '-', equal lines are printed once. By default the module column is there only if some module has CPUs of several cores, and the die column only if some package has several dies. It succeeds exactly if columns, order and targets are valid and some CPU is targeted.", "quantifier": "all topologies with offline CPUs, I/O dies and P- and E-cores; all columns, orders and target options", "why_tests_cant": "The combinations of topology, targets, order and columns are unlimited.", "anchors": ["pepctool/_PepcTopology.py: topology_info_command", "pepctool/_PepcTopology.py: _get_default_colnames", "pepctool/_PepcTopology.py: _filter_cpus", "pepctool/_PepcTopology.py: _filter_io_dies", "pepctool/_PepcTopology.py: _add_offline_cpus"]}
{"id": "C61", "title": "Setting several properties in one command", "statement": "A command that sets several properties changes no register and no file until every property has been accepted: a value that is rejected for one of them leaves all others as they were. When it succeeds, the registers are what the requests say, one after the other, every file holds the last value written to it, and nothing else changes. It fails after that point only if a commit fails.", "quantifier": "all property code - any program over the two I/O objects that does not touch the transactions - any number of properties, all I/O failures", "why_tests_cant": "The property code, its reactions to errors and the failure points are unlimited.", "anchors": ["pepctool/_PepcSetter.py: _PropsSetter.set_props", "pepctool/_PepcPStates.py: pstates_config_command", "pepctool/_PepcCStates.py: cstates_config_command", "pepctool/_PepcPower.py: power_config_command"]}
{"id": "C62", "title": "PCI ASPM", "statement": "'aspm info' prints the current policy, all policies and the L1 state of a device, and changes nothing. When 'aspm config --policy' succeeds the name was one of the listed ones, only the policy file was written, and the policy is the current one now; a name that is not listed is rejected without a write. 'aspm config --l1-aspm' writes the state the word stands for, in any letter case, to the file of that device and to nothing else, and rejects every other word without a write.", "quantifier": "all policy files and names, all devices, all words, all decisions of the kernel and all missing or unreadable files", "why_tests_cant": "The names, the words and the reactions of the kernel to a write are unlimited.", "anchors": ["pepclibs/ASPM.py: ASPM.get_policy, set_policy, get_policies, is_l1_enabled, toggle_l1_state", "pepctool/_PepcASPM.py: aspm_info_command, aspm_config_command"]}
{"id": "C63", "title": "cpu-hotplug command", "statement": "'cpu-hotplug info' prints exactly the online and exactly the offline CPUs and changes nothing. After a successful 'cpu-hotplug online' all named CPUs exist and are online and no other CPU changed; after a successful 'cpu-hotplug offline' the CPUs the options target are offline, except those that cannot be taken offline and were not named by number, and no other CPU changed. Unreadable lists, CPUs that do not exist, options that target nothing and a missing '--cpus' are rejected before anything is written.", "quantifier": "all topologies, all sets of online CPUs, all number lists and option values, all kernels that refuse some writes, and all sequences of runs", "why_tests_cant": "The combinations of options, topologies and online CPUs are unlimited.", "anchors": ["pepctool/_PepcCPUHotplug.py: cpu_hotplug_info_command, cpu_hotplug_online_command, cpu_hotplug_offline_command", "pepctool/_PepcCommon.py: parse_cpus_string", "pepclibs/CPUOnline.py: CPUOnline.online, CPUOnline.offline"]}
{"id": "C64", "title": "tpmi read and tpmi write", "statement": "'tpmi write' that succeeds wrote the value (or the bit field) in the register of every instance of every device that the options select, and changed nothing else in any device of any feature; whatever the outcome, nothing else can change. A register or bit field that does not exist, or a value that does not fit the register, is rejected without a write. 'tpmi read' tells the values of exactly the registers and bit fields asked for (without options: all but the reserved ones), as the devices hold them, and changes nothing. Both succeed if what the options name exists.", "quantifier": "all devices, dumps, register tables, option texts, values, and all earlier reads, writes and changes", "why_tests_cant": "The devices, their layouts and the option combinations are unlimited.", "anchors": ["pepctool/_PepcTpmi.py: tpmi_read_command, tpmi_write_command", "pepclibs/Tpmi.py: Tpmi.iter_feature, read_register, write_register, get_bitfield"]}
{"id": "C65", "title": "Global command line options", "statement": "The options for the host, the user name, the key, the timeout and the data set can be typed after the sub-command, in any order and either spelling: each takes effect, wins over the same option before the sub-command, and changes nothing else; the command runs where they say (data set, this host, or the other host with that user, key and timeout). Whatever is typed, an accepted command line has no word that was ignored; unknown options and repeated options are refused, and so is a data set together with another host.", "quantifier": "all command lines (lists of words of any length), all values before the sub-command", "why_tests_cant": "The words on a command line, their order and coincidences between the values are unlimited.", "anchors": ["pepctool/_Pepc.py: PepcArgsParser, main", "pepclibs/helperlibs/ArgParse.py: SSH_OPTIONS, ArgsParser.parse_args", "pepclibs/helperlibs/ProcessManager.py: get_pman"]}
{"id": "C66", "title": "cstates config", "statement": "After 'pepc cstates config' succeeded, every requestable C-state of the target CPUs is enabled or disabled as the last option that names it says, and every other C-state of every CPU is as before; whatever the outcome, nothing that no option names changes. The other options with a value are set, those without one are only printed, and '--enable' or '--disable' without a value lists the C-states. What is printed after the last change is what the kernel says. It succeeds when the CPUs have the C-states named; unknown C-states, offline CPUs and a command without options are refused.", "quantifier": "all systems, C-states, target CPUs, lists of options with any values in any order, with repetitions, and all earlier operations and I/O errors", "why_tests_cant": "The order and repetition of the options, the names and the systems are unlimited.", "anchors": ["pepctool/_PepcCStates.py: cstates_config_command", "pepctool/_PepcSetter.py: CStatesSetter.set_cstates", "pepclibs/helperlibs/ArgParse.py: OrderedArg", "pepclibs/CPUIdle.py: CPUIdle.enable_cstates, disable_cstates, get_cstates_info"]}
{"id": "C67", "title": "Loading a file with settings", "statement": "What a YAML file with 'include' statements is loaded as is what its text says with every included file in the place of the include: keys in the order of their first appearance, each with its last value. A load opens no included file twice, always ends when finitely many names lead to files, never accepts files that include each other in a circle, and succeeds whenever every file is there and is included once; a missing or malformed file, a repeated include and a reserved key are errors. 'restore' carries out every element of such an input in order, and refuses an input with an unknown key, a missing value or not exactly one of CPU, die and package before anything is set.", "quantifier": "all file trees, documents, include graphs, recursion limits, and sets of known properties", "why_tests_cant": "Include graphs and documents are unlimited in size and depth, and circles can have any length.", "anchors": ["pepclibs/helperlibs/YAML.py: load, _load", "pepctool/_PepcSetter.py: _PropsSetter.restore, _validate_loaded_data, _restore_props"]}
{"id": "C68", "title": "MSR access on a remote host", "statement": "Reading, writing and transactions of MSRs on a remote host, where the registers of several CPUs are read by one script that prints them and written by one script at the end of a transaction, give the same as on the local host: the same calls succeed, and they return the same values, do the same writes in the same order, and leave the same registers, pending writes and cache. A completed sequence of calls acts on the registers like the abstract operations whichever operations may have failed, a verified write that succeeds has stored the value on any hardware, and a call changes no other registers than those it is for, also when its script fails half way.", "quantifier": "all topologies, register sharing, hardware, call histories with and without cache and transactions, and failures", "why_tests_cant": "The number of CPUs, the sharing of registers, the histories and the points of failure are unbounded, and tests have one emulated remote host.", "anchors": ["pepclibs/msr/MSR.py: _read_remote_optimized, _read, _transaction_write_remote_optimized, flush_transaction, _verify", "pepclibs/_PerCPUCache.py"]}
{"id": "C69", "title": "How values are printed", "statement": "The text the 'info' and 'config' commands print for the value of a property says what the value is. Reading a printed number gives the number back to half a percent, times above 100 seconds to a second, and a whole number of up to three digits before and two after the point exactly. A printed list of numbers, written one by one, as 'a - b with step c', or as that and one more number, says each number of the list and no other, and lists of such whole numbers that are printed the same are the same. Texts, lists of texts and dictionaries are printed as they are. Every supported value is printed, other than an empty list or dictionary, under the name of the property and with the CPUs, dies or packages it is for, and only a property which is not supported is printed as not supported.", "quantifier": "all values of all types and units, all lists of numbers", "why_tests_cant": "Values, list lengths and steps are unbounded; the tests compare a few emulated systems only and never read a printed text back.", "anchors": ["pepctool/_PepcPrinter.py: _format_value_human, _detect_progression, _format_unit, _print_prop_human, PMQoSPrinter._format_value_human", "pepclibs/helperlibs/Human.py: num2si, parse_human"]}
{"id": "C70", "title": "TPMI spec files and the features of a host", "statement": "The TPMI features pepc knows are the features the spec files of the user's and the standard directory describe; a file that is in error is passed over, up to four in a directory. 'tpmi ls' lists the described features which some TPMI device of the host has, each once with its description, with '-l' every device that has it, its package and all its instances, and with '-a' the IDs devices have and no spec file describes. The result does not depend on the order in which the directories are listed. The registers and bit fields of a feature are those of the spec file that describes it, and every feature that is listed can be read.", "quantifier": "all spec directories with any files, all sets of devices and feature IDs, all instances", "why_tests_cant": "The number and order of the files, their contents and the devices are unbounded; the tests use the shipped spec files and one emulated system.", "anchors": ["pepclibs/Tpmi.py: _find_spec_dirs, _load_sdict, _build_sdicts, _build_fmaps, _get_fdict, get_known_features, get_unknown_features, get_fdict", "pepctool/_PepcTpmi.py: tpmi_ls_command, _ls_long"]}
{"id": "C71", "title": "What the 'info' commands print", "statement": "'cstates info' lists every C-state that was asked for with exactly the CPUs that have it on and off, and its description, latency and residency. The 'info' commands of all property classes print every value that was read with exactly the CPUs, dies or packages that have it, under the mechanism that was used, and nothing else, for people and in YAML; without property options unsupported properties are left out, with options sub-properties are added; the message that nothing is supported is printed just if there is nothing. With '--mechanisms' only the given mechanisms are used and unknown names are refused. Printing fails only if reading does.", "quantifier": "all systems, C-states, properties, values, targets, mechanisms and option combinations, after any history of settings", "why_tests_cant": "The systems, values and option combinations are unbounded; the tests check that the commands do not fail on a few emulated systems and do not read the text.", "anchors": ["pepctool/_PepcPrinter.py: print_props, print_cstates, _print_aggr_rcsinfo_human, _print_val_msg, _print_aggr_pinfo_yaml", "pepctool/_PepcPStates.py: pstates_info_command", "pepctool/_PepcCStates.py: cstates_info_command", "pepctool/_PepcPower.py: power_info_command", "pepctool/_PepcPMQoS.py: pmqos_info_command", "pepctool/_PepcCommon.py: expand_subprops, parse_mechanisms"]}
{"id": "C72", "title": "Saved settings, restored, are what the CPUs see again", "statement": "For a property class on a machine where what is written on a CPU is seen by the CPUs that share with it: setting a property for CPUs, dies or packages gives all their CPUs the value and leaves other CPUs and properties alone. 'save' changes nothing, and the file has every value read, for every CPU it was read for, and no contradictions. 'restore' gives every CPU of the file the value the file has for it and changes nothing else. So restoring what was saved, whatever was changed in between, makes every CPU see what it saw when it was saved; restoring at once changes nothing. Restoring succeeds if the machine takes the values, the CPUs of every unit agree and the values were read for whole units.", "quantifier": "all property classes, machines, topologies, scopes and I/O scopes, mechanisms, values, property lists, operation targets, files and histories in between", "why_tests_cant": "The topologies, values, scopes and histories are unbounded; the tests save and restore on a few emulated systems and compare files.", "anchors": ["pepctool/_PepcPrinter.py: save_props, _build_aggr_pinfo, get_prop_sname, _yaml_nums", "pepctool/_PepcSetter.py: restore, _restore_props, _restore_prop, _set_prop_sname", "pepclibs/_PropsClassBase.py: get_prop_cpus, get_prop_dies, get_prop_packages, set_prop_cpus, set_prop_dies, set_prop_packages, get_sname"]}
{"id": "C73", "title": "Every property is read from and written to the right place", "statement": "Reading a property of PStates, CStates, Power or PMQoS by a mechanism gives, for all the CPUs, just what the documented source gives: the right method of the right sysfs, MSR or CPPC object, with the right feature name; every property and mechanism of the classes has one source. Computed values are what they should be: CPPC frequencies from performance levels, documented frequencies from the minimum to the maximum in steps of the bus clock, the bus clock by whichever mechanism there is. Setting a property calls just the right setter. Setting a frequency gives every CPU or die the frequency its value ('max', 'base', 'eff', 'mdl', a number) stands for, only if it is within the limits and on the right side of the other frequency of every CPU or die; else nothing is written. Names that are not properties are refused. The scope of every property is that of the register field or file behind it.", "quantifier": "all properties and mechanisms of the four classes, all machines (what the low-level objects give and do), CPU and die lists, values and states", "why_tests_cant": "The machines, CPU lists and values are unbounded; the tests run on a few emulated platforms where several mechanisms give the same values, so that asking the wrong one goes unnoticed.", "anchors": ["pepclibs/PStates.py: _get_prop_cpus, _set_prop_cpus, _set_prop_dies, _set_cpu_freq, _set_uncore_freq, _get_cppc_freq, _get_frequencies_intel, _get_bus_clock, _handle_epp_set_exception, _set_sname", "pepclibs/CStates.py: _get_prop_cpus, _set_prop_cpus, _set_sname", "pepclibs/Power.py: _get_prop_cpus, _set_prop_cpus", "pepclibs/PMQoS.py: _get_prop_cpus, _set_prop_cpus"]}
{"id": "C74", "title": "Starting, stopping and restoring systemd units", "statement": "Starting, stopping or restarting units succeeds only if all the units are then in the wanted state, and leaves the other units alone; if it fails, then at one unit, and the units after it are left alone. restore() undoes, for every unit, the first operation on it that was done with 'save', after any history of operations, and leaves the other units alone; so a unit that nothing was done to, or whose first operation was done with 'save' and changed it, is as it was at the beginning, even when operations failed half way. stop_ntp() stops the NTP services that run, returns just those, and restore_ntp() brings all the units back, even if stop_ntp() failed half way. stop_timers() stops just the listed timers and restore_timers() starts them again.", "quantifier": "all histories of operations, lists of units, systems (what the systemctl tool does and prints) and points of failure", "why_tests_cant": "The histories of operations and the points at which a command fails are unbounded; the tests do not stop real services.", "anchors": ["pepclibs/helperlibs/Systemctl.py: _run_action, _is_smth, start, stop, restart, restore, is_active, is_failed, stop_ntp, restore_ntp, stop_timers, restore_timers"]}
{"id": "C75", "title": "Drivers are loaded and unloaded, debugfs is mounted, and all is left as it was", "statement": "Whether a kernel module is loaded is told rightly from /proc/modules. Loading adds just that module and does nothing if it is loaded; unloading removes just that module and does nothing if it is not loaded; reloading unloads first; a failure changes nothing. Waiting for a file ends well only at the first poll that sees the file and within the time limit, and fails only when the time is over and no poll saw it. An MSR or uncore frequency object is made only if the device files are there, loads the driver only if they are not, and made and closed leaves the loaded modules as they were. debugfs is mounted only if it is not mounted already, the caller is told which, and a TPMI object that found it mounted leaves it alone.", "quantifier": "all hosts (module lists, mount tables, command results, files appearing at any time, clocks), module names, CPU lists, intervals and time limits", "why_tests_cant": "The states of the host, the failures of commands and the moments at which files appear are unbounded; the tests do not load or unload drivers.", "anchors": ["pepclibs/helperlibs/KernelModule.py: KernelModule", "pepclibs/helperlibs/FSHelpers.py: get_mount_points, mount_debugfs, wait_for_a_file", "pepclibs/msr/MSR.py: _ensure_dev_msr, __init__, close", "pepclibs/_UncoreFreq.py: _probe_driver, __init__, close", "pepclibs/Tpmi.py: __init__, close"]}
{"id": "C76", "title": "Closing an object closes what it made itself, once, and nothing it was given", "statement": "Closing an object of any of the classes calls close() of the objects it made itself (in the constructor or later, when they were needed), of each one once and of no others: a process manager, CPU information object, MSR object or any other object passed by the user stays open. If nothing fails, all objects made are closed and the object refers to nothing any more; closing it again does nothing. If closing one of them fails, closing again goes on with that one and forgets none. Objects whose constructor failed half way can be closed too, and attributes not named stay as they are.", "quantifier": "all classes listed in the model, all combinations of arguments given or not, all histories of what was needed and made, all close() methods of the objects including failing ones, all attribute sets", "why_tests_cant": "Which arguments are given and what is made lazily multiply; failures of close() are not tested, and a leaked or wrongly closed object is not visible in a test result.", "anchors": ["pepclibs/helperlibs/ClassHelpers.py: close", "pepclibs/_PropsClassBase.py: __init__, close", "pepclibs/PStates.py: __init__, close", "pepclibs/_CPUFreq.py: CPUFreqMSR", "pepclibs/helperlibs/KernelModule.py: __init__, close"]}
{"id": "C77", "title": "The properties cache returns the last value added for a CPU or a CPU that shares its scope", "statement": "After any calls of add() and remove(), get() returns the value of the last add() with this property and mechanism whose CPU shared the scope with the CPU asked for, unless it was removed since, and raises ErrorNotFound otherwise. is_cached() tells which. find() returns the value and the name of the first mechanism that has one, or of any mechanism if none are named. Other properties, mechanisms and CPUs are not affected. add() returns the value. A disabled cache holds nothing and never fails.", "quantifier": "all histories of add() and remove() calls, with the CPU siblings changing from call to call, all properties, mechanisms, CPUs, scopes and values", "why_tests_cant": "Histories and scopes are unbounded; the tests use CPU scope only.", "anchors": ["pepclibs/_PropsCache.py: is_cached, find, get, remove, add"]}
{"id": "C78", "title": "Data directories, helper programs and datasets are found in the first documented place that has them", "statement": "find_project_data() returns the data in the first place that has them: the program's directory, the directory named by <PROJECT>_DATA_PATH (of the target host, otherwise of this host), $HOME/.local/share, $HOME/share, $VIRTUAL_ENV/share, /usr/local/share, /usr/share. search_project_data() yields all of them in this order, and raises ErrorNotFound only if there are none. find_project_helper() does the same with its own places and executables. The TPMI specification files are taken from the user's directory first. '-D' takes a directory, the name of a dataset, or all of the datasets, each once.", "quantifier": "all environments, file systems, project names, sub-paths, helper names and dataset names, local and remote hosts", "why_tests_cant": "The places, and which of them have the data, depend on the environment and file system of the host; the tests run from the source tree only.", "anchors": ["pepclibs/helperlibs/ProjectFiles.py: search_project_data, find_project_data, find_project_helper, get_project_data_envar, get_project_helpers_envar", "pepctool/_Pepc.py: _get_next_dataset", "pepclibs/Tpmi.py: _find_spec_dirs"]}
{"id": "C79", "title": "The mechanisms listed, the emulated modules, the overridden CPU model and the 'tuned' warning are right for every command", "statement": "'--list-mechanisms' prints exactly the mechanisms used by the properties of the command, each once. '-D' initializes the modules the command needs, in order, stops at the first that fails and closes the emulated host then. '--override-cpu-model' takes decimal and hexadecimal numbers and refuses anything else without changing the model. After a command the user is warned if 'tuned' is active or cannot be checked, and this check never makes the command fail.", "quantifier": "all commands, all outcomes of initializing a module, all texts, all outcomes of asking systemd", "why_tests_cant": "The texts and the outcomes are unbounded; the tests never run with tuned and never override the model.", "anchors": ["pepctool/_Pepc.py: _list_mechanisms, _get_emul_pman", "pepctool/_PepcCommon.py: override_cpu_model, check_tuned_presence"]}
{"id": "C80", "title": "The processor, its kinds of cores and its caches are identified right from any output of the system", "statement": "Every field of the CPU information is what the last line of 'lscpu' with its label says, numbers being numbers; every online CPU has the flags of the 'Flags' line; the processor is hybrid exactly if the system has E-core CPUs listed. The description is the model name, or for pre-release processors the model number and code name. The warning about kernels with the E-core frequency bug is printed at most once, and only on affected systems. The cache information has all the caches, each value once, and a failed call is not followed by a wrong answer.", "quantifier": "all texts of lscpu, all sets of online CPUs, all model tables, all histories of calls, all cache lists, all die dictionaries", "why_tests_cant": "The texts are unbounded and come from the system; the tests have a few recorded outputs, in none of which a value looks like a hexadecimal number, a cache name repeats or E-cores are disabled.", "anchors": ["pepclibs/_CPUInfoBase.py: _get_cpu_info, _get_cpu_description, _get_hybrid_cpus", "pepclibs/CPUInfo.py: get_hybrid_cpus, get_cache_info, dies_to_str", "pepclibs/_CPUFreq.py: _warn_no_ecores_bug"]}
{"id": "C81", "title": "The emulated files behave as the files of the system they stand for, whatever is written to them", "statement": "On an emulated system a sysfs file has exactly the text last written, however long what was in it; the file of the energy/performance bias takes the names of the kernel and then has their numbers; the file of the ASPM policy shows all policies and the one written in brackets. The file of the online CPUs always lists the CPUs whose own files say so. A register reads as it was written and writing one changes no other; a new emulated system has the recorded values. A refused operation changes no file and is reported as an 'Error'.", "quantifier": "all contents of the files, all sequences of writes, all paths, all sets of CPUs, all register addresses and recorded values", "why_tests_cant": "The contents, the order of the writes and the texts written are unbounded; the tests run on these files and take them for right, so they cannot find an emulation that differs from the kernel.", "anchors": ["pepclibs/helperlibs/emul/_RWFile.py: open_rw, RWSysinfoFile", "pepclibs/helperlibs/emul/_ROFile.py: open_ro, ROSysfsFile", "pepclibs/helperlibs/emul/_EmulDevMSR.py: EmulDevMSR, _populate_sparse_file", "pepclibs/helperlibs/EmulProcessManager.py: _init_msrs"]}
{"id": "C82", "title": "The operating system is identified, tools are found and the right packages suggested, on any system and after any calls", "statement": "The OS ID and the OS name are what the os-release file says last, without quotes and white space, and stay once they are known. A tool that is there is found where it is, after any calls; for one that is missing the package that has it on this operating system is suggested, and none if it is not known. The file in /etc has precedence, all values of the format are read, and a tool that was found is not searched for again.", "quantifier": "all contents of the two files, all states of the object, all histories of calls on a changing system, all tools", "why_tests_cant": "The files are texts of other projects and unbounded; the tests run on one operating system, on which all tools are there, so that no suggestion is ever made.", "anchors": ["pepclibs/helperlibs/ToolChecker.py: ToolChecker._read_os_release, get_osname, get_osid, tool_to_pkg, check_tool"]}
{"id": "C83", "title": "A range of two numbers is what the two say and goes up, and only the first letter of an ordinary first word is lowered, for any text", "statement": "Two numbers with units, with a separator and any white space between them, are read as a range exactly if the first is less than the second; anything else is refused with an error. The first letter of a sentence is made lower case unless the first word is a single letter, starts with a lower case letter, is an abbreviation or has digits, nothing else changes, and doing it twice is the same as once.", "quantifier": "all texts, separators, units and rounding choices; all sentences", "why_tests_cant": "Texts are unbounded and the tests have a few of them; the description gives an example of a range that the code does not produce.", "anchors": ["pepclibs/helperlibs/Human.py: parse_human_range, uncapitalize"]}
{"id": "C84", "title": "A YAML file has exactly the data of the call, whatever was written before, and ranges are checked exactly", "statement": "Every value is written where it is in the data: None as nothing, paths as texts, floats with the format of the call. With the option to skip None, no key with None is written and everything else is, in the same order, at any depth. What is written depends on the call only. A value or a range is accepted exactly if it is within its bounds.", "quantifier": "all nested data, formats, options and histories of calls; all numbers and limits", "why_tests_cant": "The data are trees of any depth, and the way floats are written is kept by the library between calls, so that the tests of single calls do not see it.", "anchors": ["pepclibs/helperlibs/YAML.py: dump", "pepclibs/helperlibs/Trivial.py: validate_value_in_range, validate_range"]}
