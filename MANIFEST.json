{
 "claims": [
  {
   "property": "C01",
   "status": "proved",
   "theorems": [
    "C01_round_trip",
    "C01_round_trip_dedup",
    "C01_order_independent",
    "C01_injective",
    "C01_negative_refuted",
    "C01_negative_range_refuted"
   ],
   "note": "Full claim proved for all lists of non-negative numbers. The two _refuted theorems are findings outside the claim's domain: negative numbers do not round-trip."
  },
  {
   "property": "C02",
   "status": "partial",
   "theorems": [
    "C02_parse",
    "C02_descending",
    "C02_outcome",
    "C02_dedup_members",
    "C02_dedup_partial",
    "C02_dedup_disjoint",
    "C02_dedup_refuted"
   ],
   "note": "Concatenation, blanks, empty items, rejection of descending ranges proved in full. Removal of duplicates works on text before ranges are expanded, so it is proved for plain numbers and for non-overlapping items and refuted for overlapping ranges."
  },
  {
   "property": "C03",
   "status": "partial",
   "theorems": [
    "C03_set_bits",
    "C03_set_bits_succeeds",
    "C03_set_all_ones",
    "C03_get_bits",
    "C03_set_then_get",
    "C03_set_keeps_64_bits",
    "C03_too_large_rejected",
    "C03_set_twice",
    "C03_set_same",
    "C03_disjoint_commute",
    "C03_other_field",
    "C03_negative_refuted",
    "C03_range_refuted"
   ],
   "note": "Proved for every field within the register and every non-negative value. Two findings refute the unrestricted rejection claim: negative values and ranges above bit 63 are accepted."
  },
  {
   "property": "C04",
   "status": "proved",
   "theorems": [
    "C04_write_bits",
    "C04_write_bits_failed"
   ],
   "note": "Any history of calls before it, any I/O failures, any topology; the scope name passed must be the one that describes how the register is shared (scope_right). A failing call is also shown to touch only targeted registers."
  },
  {
   "property": "C05",
   "status": "partial",
   "theorems": [
    "C05_reads_coherent",
    "C05_refinement",
    "C05_available",
    "C05_verified_write",
    "C05_shared_transaction_refuted"
   ],
   "note": "Proved for all histories (including failing calls and I/O faults) in which no transaction is used, or shared registers are addressed through the same first CPU in each call; refuted without that condition."
  },
  {
   "property": "C06",
   "status": "partial",
   "theorems": [
    "C06_deferred",
    "C06_commit",
    "C06_failed_commit",
    "C06_verified_commit",
    "C06_last_write_wins_refuted"
   ],
   "note": "Same condition as C05. C06_verified_commit holds for arbitrary hardware. Last-write-wins is refuted for one register addressed through different sibling CPUs in one transaction."
  },
  {
   "property": "C07",
   "status": "proved",
   "theorems": [
    "C07_read",
    "C07_read_pending",
    "C07_read_written",
    "C07_uncached",
    "C07_uncached_transaction",
    "C07_pending_visible_refuted"
   ],
   "note": "Every read is the file or the pending value, for all histories with failures; the pending value is visible unless a call on that file or a flush failed (finding C07_pending_visible_refuted). Plain (unverified) writes outside a transaction assume the kernel stores what is written."
  },
  {
   "property": "C08",
   "status": "proved",
   "theorems": [
    "C08_deferred",
    "C08_commit",
    "C08_flush",
    "C08_commit_succeeds"
   ],
   "note": "Order, merging and single write are stated on a log of values handed over to the kernel, which the model keeps only for this purpose."
  },
  {
   "property": "C09",
   "status": "partial",
   "theorems": [
    "C09_failed_commit_partial",
    "C09_abandoned_refuted"
   ],
   "note": "File contents after a failure at any point proved. The claim that abandoned values are not written later is false: they stay buffered (C09_abandoned_refuted), but the object refuses to start another transaction (part of C09_failed_commit_partial)."
  },
  {
   "property": "C10",
   "status": "proved",
   "theorems": [
    "C10_normalize_cpus",
    "C10_normalize_cpus_fails_iff",
    "C10_normalize_all"
   ],
   "note": "Request order is stated as order of first occurrence; 'all' is proved for well-formed tables, which every table reached by hotplug is (C16_hotplug_wf)."
  },
  {
   "property": "C11",
   "status": "proved",
   "theorems": [
    "C11_div_packages",
    "C11_div_packages_succeeds",
    "C11_offline_package_refuted"
   ],
   "note": "The division is exact for every well-formed table. C11_offline_package_refuted is a finding: a package with no online CPU but an I/O die counts as covered by the empty list."
  },
  {
   "property": "C12",
   "status": "partial",
   "theorems": [
    "C12_div_cores",
    "C12_div_cores_succeeds",
    "C12_div_dies_partial",
    "C12_div_dies_succeeds",
    "C12_io_dies_exact_after_hotplug",
    "C12_div_dies_refuted"
   ],
   "note": "Cores proved in full. Dies need the cached I/O die set to be exact: proved after any hotplug history in which every die had an online CPU when the table was built, refuted in general."
  },
  {
   "property": "C13",
   "status": "partial",
   "theorems": [
    "C13_siblings_exact",
    "C13_module_siblings_exact_partial",
    "C13_siblings_partition",
    "C13_module_siblings_refuted"
   ],
   "note": "All levels except module proved in full; module needs globally unique module numbers, which the fall-back numbering in the code violates (refuted with a witness)."
  },
  {
   "property": "C14",
   "status": "partial",
   "theorems": [
    "C14_select_core_siblings",
    "C14_select_module_siblings_partial",
    "C14_select_module_siblings_refuted",
    "C14_core_siblings_fail_iff",
    "C14_module_siblings_fail_iff"
   ],
   "note": "Core siblings proved in full; module siblings need globally unique module numbers (refuted for the fall-back numbering)."
  },
  {
   "property": "C15",
   "status": "proved",
   "theorems": [
    "C15_packages_to_cpus",
    "C15_cores_to_cpus",
    "C15_dies_to_cpus",
    "C15_modules_to_cpus",
    "C15_packages_to_cpus_ok_iff"
   ],
   "note": ""
  },
  {
   "property": "C16",
   "status": "proved",
   "theorems": [
    "C16_hotplug_lines",
    "C16_hotplug_wf",
    "C16_hotplug_siblings_fresh"
   ],
   "note": ""
  },
  {
   "property": "C17",
   "status": "proved",
   "theorems": [
    "C17_success",
    "C17_writes",
    "C17_rejects",
    "C17_unknown_cpu_changes_nothing",
    "C17_succeeds",
    "C17_history",
    "C17_is_online",
    "C17_topology_current_after_failure_refuted"
   ],
   "note": "All outcomes and histories; the kernel contract assumed is that a write to one CPU's file does not change another CPU. The refuted companion is an extra observation about a neighbouring claim: after a failed call the CPUInfo object is stale."
  },
  {
   "property": "C18",
   "status": "partial",
   "theorems": [
    "C18_get_cpus",
    "C18_get_cpus_fails",
    "C18_raises",
    "C18_get_packages",
    "C18_get_dies",
    "C18_dies_all_refuted",
    "C18_dies_label_refuted"
   ],
   "note": "Proved for every class, machine, request and state, with all failure reasons. Refuted: get_prop_dies() with its documented default dies='all' always fails; per-die answers for properties without known scope are labelled with the package number."
  },
  {
   "property": "C19",
   "status": "partial",
   "theorems": [
    "C19_set_cpus",
    "C19_refusals_change_nothing",
    "C19_outcome",
    "C19_set_rejects",
    "C19_set_cpus_rejects",
    "C19_tables",
    "C19_writable_only",
    "C19_default_readonly_refuted"
   ],
   "note": "Proved in full for set_prop_cpus(); rejection before any write for all three setters. Refuted in general: default mechanisms are not checked for being read-only; proved harmless for the four property tables of the code (C19_tables, C19_writable_only)."
  },
  {
   "property": "C20",
   "status": "partial",
   "theorems": [
    "C20_packages_partial",
    "C20_dies_partial",
    "C20_dies_written",
    "C20_global_refuted",
    "C20_die_refuted"
   ],
   "note": "Proved when I/O domains do not reach out of the requested packages or dies; exact set of written CPUs proved for dies. Refuted: global scope for package 1, or package I/O scope for a die other than the first, writes nothing and reports success."
  },
  {
   "property": "C21",
   "status": "proved",
   "theorems": [
    "C21_accepted_whole",
    "C21_cut_rejected",
    "C21_whole_accepted"
   ],
   "note": "Accepted lists are whole units; cut lists are rejected with nothing written; whole units are accepted."
  },
  {
   "property": "C22",
   "status": "proved",
   "theorems": [
    "C22_cpu_refused",
    "C22_cpu_exact",
    "C22_cpu_succeeds",
    "C22_mechanisms_refused",
    "C22_files",
    "C22_die_refused",
    "C22_die_exact",
    "C22_die_succeeds"
   ],
   "note": "Proved for CPUs through the sysfs mechanism (inside and outside transactions), for uncore dies, and for any list of mechanisms that all refuse. In the CPU MSR mechanism the limits are read from sysfs (C26, C27 cover the register). The kernel may refuse a write after validation: then the error is raised and earlier CPUs keep the new value; this is outside the property (validation failures)."
  },
  {
   "property": "C23",
   "status": "proved",
   "theorems": [
    "C23_cpus",
    "C23_dies"
   ],
   "note": "CPUs through sysfs with a kernel that stores what is written or refuses it, and uncore dies. The history goes on after exceptions. A history has any length."
  },
  {
   "property": "C24",
   "status": "partial",
   "theorems": [
    "C24_min_first_partial",
    "C24_alike_partial",
    "C24_max_first_partial",
    "C24_max_first_refuted",
    "C24_mixed_refuted",
    "C24_die_min_first_partial",
    "C24_die_max_first_partial"
   ],
   "note": "The pair is set when one of the two single steps is in order for all requested CPUs, in particular when the CPUs are alike and the minimum is given first. Refuted: maximum first is never retried because of the misspelt property name 'mim_freq'; CPUs with different frequencies may fail in both orders."
  },
  {
   "property": "C25",
   "status": "proved",
   "theorems": [
    "C25_cpus",
    "C25_dies"
   ],
   "note": "For CPUs (sysfs) and dies; the restore command has no transaction over the sysfs writes, as in _PepcPStates.py, so start/commit are no-ops. From any state with limits unchanged, both orders of the two properties, with other properties before, between and after."
  },
  {
   "property": "C26",
   "status": "partial",
   "theorems": [
    "C26_roundtrip",
    "C26_floor_partial",
    "C26_pcore_refuted"
   ],
   "note": "Multiples of the bus clock are read back exactly. For other frequencies the bound 'not above' is proved for CPUs that are not P-cores and refuted for P-cores (C26_pcore_refuted: 2.39 GHz reads back as 2.4 GHz)."
  },
  {
   "property": "C27",
   "status": "partial",
   "theorems": [
    "C27_read_freq",
    "C27_read_epp",
    "C27_read_only",
    "C27_set_freq_partial",
    "C27_mixed_refuted",
    "C27_set_others_partial",
    "C27_set_others_refuted",
    "C27_set_failed",
    "C27_epp",
    "C27_epp_others",
    "C27_get_succeeds",
    "C27_set_succeeds",
    "C27_epp_succeeds"
   ],
   "note": "Complete for EPP and for reading; getting, setting and EPP succeed if the registers are there and I/O works (C27_get_succeeds, C27_set_succeeds, C27_epp_succeeds). Setting a frequency: CPUs that leave a setting to their package change when another CPU is set (C27_set_others_refuted), and with package control known to only some CPUs the set may have no effect (C27_mixed_refuted)."
  },
  {
   "property": "C28",
   "status": "partial",
   "theorems": [
    "C28_last_set_partial",
    "C28_sysfs_partial",
    "C28_reads_partial",
    "C28_others",
    "C28_each_once",
    "C28_set_works",
    "C28_rejected",
    "C28_get_works",
    "C28_sysfs_stale_refuted",
    "C28_msr_stale_refuted",
    "C28_alias_refuted",
    "C28_shared_refuted",
    "C28_package_refuted",
    "C28_twice_refuted",
    "C28_revert_refuted"
   ],
   "note": "Proved: the last set value is read back (number or name, through either mechanism) without caches for every history of both mechanisms, and with caches when only MSR or only sysfs sets; reads are pure and right; other registers and CPUs are untouched; liveness through sysfs. Refuted for mixed mechanisms with caches (stale sysfs/MSR caches), shared EPB registers, aliases that differ between CPUs, package-controlled EPP; several mechanisms may yield a CPU twice; an MSR write to another field may revert a kernel change."
  },
  {
   "property": "C29",
   "status": "proved",
   "theorems": [
    "C29_ordered",
    "C29_accepted",
    "C29_rejected",
    "C29_available",
    "C29_failed",
    "C29_reported",
    "C29_tdp",
    "C29_switch"
   ],
   "note": "All histories of limit settings, enable/clamp switches, reads and foreign MSR calls that do not write the power registers, with any I/O failures and with or without transactions (shared registers addressed through one CPU, as in C05). Values are rationals; the arithmetic of the code is exact on them. The unit is that of the first online CPU, as in the code. Time windows are not modelled. C29_available: what is acceptable is not refused."
  },
  {
   "property": "C30",
   "status": "proved",
   "theorems": [
    "C30_locked",
    "C30_set",
    "C30_set_failed",
    "C30_reported",
    "C30_set_then_get",
    "C30_is_msr_call",
    "C30_tables",
    "C30_set_succeeds",
    "C30_read_succeeds"
   ],
   "note": "Limit register model over the MSR model: lock check before the first write, all lock patterns and CPU lists, after any disciplined MSR history (see C05 for 'disciplined')."
  },
  {
   "property": "C31",
   "status": "partial",
   "theorems": [
    "C31_info_partial",
    "C31_info_frame",
    "C31_info_succeeds",
    "C31_toggle_partial",
    "C31_toggle_frame",
    "C31_toggle_succeeds",
    "C31_refused",
    "C31_all_refuted",
    "C31_all_fails_refuted",
    "C31_single_refuted",
    "C31_none_refuted",
    "C31_nocache_refuted",
    "C31_cpu0_refuted",
    "C31_stale_refuted",
    "C31_no_driver",
    "C31_blank_driver"
   ],
   "note": "Listing is exact after any history without read errors, toggling is exact under any I/O errors and its frame holds for every outcome. Assumes CPU 0 online, at least two C-states per CPU, caching on, and for 'all' the same C-state names on every CPU; outside of that the claim is false (seven refutations)."
  },
  {
   "property": "C32",
   "status": "partial",
   "theorems": [
    "C32_restore_partial",
    "C32_save_frame",
    "C32_save_succeeds",
    "C32_restore_succeeds",
    "C32_restore_frame",
    "C32_mixed",
    "C32_mixed_refuted",
    "C32_all"
   ],
   "note": "Round trip, frames and liveness are proved for C-states with the same names on the saved CPUs. A file in which a C-state is on for some CPUs and off for others is never restored (C32_mixed, C32_mixed_refuted): the printer writes the second value as a bare number. The properties in the same file are not part of this model."
  },
  {
   "property": "C33",
   "status": "partial",
   "theorems": [
    "C33_cstates",
    "C33_cstates_exact",
    "C33_exact",
    "C33_partition",
    "C33_exists",
    "C33_succeeds",
    "C33_text",
    "C33_text_succeeds",
    "C33_lines",
    "C33_lines_succeed",
    "C33_uneven_dies_refuted",
    "C33_no_package0_refuted"
   ],
   "note": "The grouping, the per-CPU fallback, the text after 'for' and the lines are modelled; C33_cstates covers the C-state printer. Refuted: with one die in package 0 and several in another, dies print alike (C33_uneven_dies_refuted); with package 0 offline nothing is printed about dies (C33_no_package0_refuted). A class has to give one value per CPU (C28_twice shows one that does not). Not modelled: how a value itself is written (units, lists)."
  },
  {
   "property": "C34",
   "status": "proved",
   "theorems": [
    "C34_read_any_word",
    "C34_nothing_else",
    "C34_instances"
   ],
   "note": "Every word of every well-formed dump, read through a map built from an earlier dump of the same layout; nothing else can be read."
  },
  {
   "property": "C35",
   "status": "partial",
   "theorems": [
    "C35_field_text",
    "C35_field_text_rejected",
    "C35_tables",
    "C35_read",
    "C35_read_field",
    "C35_write",
    "C35_write_then_read",
    "C35_write_field_partial",
    "C35_value_too_large_for_field_refuted",
    "C35_rejects_value",
    "C35_rejects_unknown",
    "C35_failed_write_changes_nothing_partial",
    "C35_failed_write_changes_nothing_refuted"
   ],
   "note": "Proved for every reachable state: reads, full-register writes and field writes whose value fits. Findings: a field value that fits the register but not the field clobbers neighbour fields; a 64-bit register cut off by the end of the device is half written before the error."
  },
  {
   "property": "C36",
   "status": "partial",
   "theorems": [
    "C36_devices_found",
    "C36_iter_sound",
    "C36_iter_complete_partial",
    "C36_differing_instances_refuted",
    "C36_iter_once",
    "C36_iter_all_succeeds",
    "C36_iter_rejects"
   ],
   "note": "The constructor's device map, soundness, no duplicates and rejections proved in full. Completeness holds with explicit instances or equal instances on all devices; refuted for devices with different instances."
  },
  {
   "property": "C37",
   "status": "partial",
   "theorems": [
    "C37_roundtrip",
    "C37_distinct",
    "C37_dies_found",
    "C37_die_directory",
    "C37_distinct_files",
    "C37_duplicates_refuted",
    "C37_suffix_refuted"
   ],
   "note": "Naming, discovery and file separation proved for drivers where every die has one directory; refuted otherwise: with the new interface two directories with the same package and domain are listed as one die twice and one of them is never used; a legacy name with anything after the die number is accepted as that die."
  },
  {
   "property": "C38",
   "status": "partial",
   "theorems": [
    "C38_kernel_behaves",
    "C38_sysfs_behaves",
    "C38_unlock_keeps",
    "C38_unlock_frame",
    "C38_unlock_unlocks",
    "C38_unlock_succeeds",
    "C38_unlock_once",
    "C38_unlock_failure_partial",
    "C38_unlock_failure_refuted"
   ],
   "note": "Proved for successful unlocking, over any kernel whose writes may also change related files. A failure in the middle leaves dies changed (refuted); then only the limits and the retry are proved."
  },
  {
   "property": "C39",
   "status": "proved",
   "theorems": [
    "C39_accepts",
    "C39_components",
    "C39_compare",
    "C39_irreflexive",
    "C39_asymmetric",
    "C39_transitive",
    "C39_total",
    "C39_release_candidate",
    "C39_reject"
   ],
   "note": "Proved in full for ASCII texts; the accepted texts are characterised exactly."
  },
  {
   "property": "C40",
   "status": "proved",
   "theorems": [
    "C40_distance",
    "C40_zero",
    "C40_symmetric",
    "C40_suggestion",
    "C40_total",
    "C40_none",
    "C40_empty_option_refuted",
    "C40_case",
    "C40_triangle_refuted"
   ],
   "note": "Proved in full for ASCII texts; C40_empty_option_refuted and C40_triangle_refuted record where more than the claim would be false (an empty option is never suggested and hides the others)."
  },
  {
   "property": "C41",
   "status": "proved",
   "theorems": [
    "C41_valid",
    "C41_cpus",
    "C41_cpus_found",
    "C41_no_target"
   ],
   "note": ""
  },
  {
   "property": "C42",
   "status": "partial",
   "theorems": [
    "C42_dies",
    "C42_dies_refused",
    "C42_packages",
    "C42_packages_refused",
    "C42_scope",
    "C42_io_die_package_refuted",
    "C42_filtered_package_refuted",
    "C42_strict_refuted"
   ],
   "note": "Dies and packages targeted, strictness and fall-back to CPUs proved for all topologies, option combinations and question histories. Refuted parts: packages that only qualify an I/O die are targeted; a sibling filter leaving no CPU still targets all packages; strict is ignored after a non-strict question (cache)."
  },
  {
   "property": "C43",
   "status": "partial",
   "theorems": [
    "C43_cache_contract",
    "C43_global_remove_refuted"
   ],
   "note": "Contract proved for all histories over all scopes; removal with the 'global' scope raises KeyError for an uncached name (finding)."
  },
  {
   "property": "C44",
   "status": "partial",
   "theorems": [
    "C44_write",
    "C44_write_failed",
    "C44_other_features",
    "C44_read",
    "C44_write_then_read",
    "C44_same_name",
    "C44_same_number",
    "C44_unambiguous",
    "C44_enabled",
    "C44_enable",
    "C44_read_is_msr_call",
    "C44_write_is_msr_call",
    "C44_rejected",
    "C44_read_rejected",
    "C44_validated",
    "C44_supported",
    "C44_tables",
    "C44_unnamed_code",
    "C44_unnamed_refuted",
    "C44_bits_str_refuted",
    "C44_uncore_ratio_refuted",
    "C44_mixed_scope_refuted",
    "C44_read_succeeds",
    "C44_write_succeeds"
   ],
   "note": "Proved for every register table of the code (all CPU models), any topology, any history of MSR and feature calls, inside and outside transactions: a write stores the code of the named value on every CPU asked for and changes no other bit, register or CPU; a later read returns the same name; unknown feature, offline or unsupported CPU, read-only feature and unknown name are refused with the state unchanged; tables are sound. Refuted: msr_bits_str() always raises KeyError; the uncore ratio limit features have no I/O scope and can be neither read nor written with the cache on; codes without names make reads fail; MiscFeatureControl mixes scopes in one register so a read can return a stale value. Strings of digits for numeric features, and the classes with own get/set methods (PCStateConfigCtl limit, PackagePowerLimit, RAPL units) are not covered here (see C29, C30)."
  },
  {
   "property": "C45",
   "status": "proved",
   "theorems": [
    "C45_roundtrip",
    "C45_kernel",
    "C45_other_cpus",
    "C45_frame",
    "C45_succeeds",
    "C45_global",
    "C45_global_prop",
    "C45_not_supported"
   ],
   "note": "Values are exact rationals; floating-point rounding is not modelled."
  },
  {
   "property": "C46",
   "status": "partial",
   "theorems": [
    "C46_parse",
    "C46_parse_bare",
    "C46_parse_time",
    "C46_parse_meaning",
    "C46_format",
    "C46_format_prefixed_partial",
    "C46_prefixed_refuted",
    "C46_prefixed_scaled_refuted",
    "C46_blank_refuted",
    "C46_duration",
    "C46_days_refuted",
    "C46_negative_refuted"
   ],
   "note": "Parsing is proved both ways (C46_parse, C46_parse_bare, C46_parse_time, C46_parse_meaning) and formatting of units without a prefix reads back to half a unit of the last place (C46_format), over exact rationals. For units with a prefix the claim is false in general (C46_prefixed_refuted, C46_prefixed_scaled_refuted) and proved where it holds (C46_format_prefixed_partial). Durations below a day read back (C46_duration); longer and negative ones do not (refuted)."
  },
  {
   "property": "C47",
   "status": "proved",
   "theorems": [
    "C47_packages_agree",
    "C47_dies_agree"
   ],
   "note": "Both readers."
  },
  {
   "property": "C48",
   "status": "partial",
   "theorems": [
    "C48_files",
    "C48_roundtrip",
    "C48_frame",
    "C48_succeeds",
    "C48_get",
    "C48_cpus_frame",
    "C48_cpus_get",
    "C48_cpus_roundtrip",
    "C48_cpus_succeeds",
    "C48_cpus_refuted"
   ],
   "note": "Set/get/frame/success proved for dies; refuted for setting by CPU: that path does not unlock the per-die interface."
  },
  {
   "property": "C49",
   "status": "partial",
   "theorems": [
    "C49_read",
    "C49_set",
    "C49_last_set",
    "C49_frame",
    "C49_refused",
    "C49_set_succeeds",
    "C49_get_succeeds",
    "C49_unnoticed_refuted"
   ],
   "note": "Proved for kernels that store what they accept; the code does not read back, so a kernel that silently keeps its governor goes unnoticed (C49_unnoticed_refuted)."
  },
  {
   "property": "C50",
   "status": "partial",
   "theorems": [
    "C50_file",
    "C50_restore",
    "C50_restore_succeeds",
    "C50_round_trip",
    "C50_all_locked",
    "C50_none_locked",
    "C50_some_locked_refuted"
   ],
   "note": "The setter is any function that sets what it is told to set and nothing else (setter_law); the YAML library is taken to read back what it wrote. Refuted: if the package C-state limit is locked on some of the CPUs only, saving crashes (C50_some_locked_refuted)."
  },
  {
   "property": "C51",
   "status": "proved",
   "theorems": [
    "C51_get",
    "C51_set",
    "C51_roundtrip",
    "C51_fails",
    "C51_unsupported",
    "C51_mode_off",
    "C51_succeeds"
   ],
   "note": "In a transaction the write is buffered; what the commit does with it is C08 and C09. The directory of intel_pstate does not come or go while the tool runs."
  },
  {
   "property": "C52",
   "status": "partial",
   "theorems": [
    "C52_get",
    "C52_available",
    "C52_set",
    "C52_roundtrip",
    "C52_fails",
    "C52_refused",
    "C52_atomic_refuted",
    "C52_succeeds"
   ],
   "note": "Refuted: all or nothing (C52_atomic_refuted). Lists of governors are names separated by single spaces."
  },
  {
   "property": "C53",
   "status": "partial",
   "theorems": [
    "C53_driver",
    "C53_get",
    "C53_set",
    "C53_roundtrip",
    "C53_fails",
    "C53_bad_mode",
    "C53_unsupported",
    "C53_succeeds",
    "C53_off_again",
    "C53_off_transaction_refuted",
    "C53_off_hwp_refuted"
   ],
   "note": "Refuted: switching off twice in a transaction (C53_off_transaction_refuted); the message about HWP (C53_off_hwp_refuted)."
  },
  {
   "property": "C54",
   "status": "partial",
   "theorems": [
    "C54_base",
    "C54_base_file",
    "C54_base_bios",
    "C54_base_refuted",
    "C54_cppc",
    "C54_cppc_direct",
    "C54_cppc_computed",
    "C54_cppc_order",
    "C54_duplicates_refuted"
   ],
   "note": "Refuted for CPUs that differ in what files they have (C54_base_refuted, C54_duplicates_refuted). The MSR readings are not in here."
  },
  {
   "property": "C55",
   "status": "proved",
   "theorems": [
    "C55_sysfs",
    "C55_doc"
   ],
   "note": "The bus clock and the frequencies are given to the loop."
  },
  {
   "property": "C56",
   "status": "partial",
   "theorems": [
    "C56_read",
    "C56_succeeds",
    "C56_stable",
    "C56_read_only",
    "C56_hwp",
    "C56_hwp_succeeds",
    "C56_clock",
    "C56_clock_succeeds",
    "C56_hwp_off_refuted"
   ],
   "note": "The frequencies of CPUs with HWP come from the capabilities register, of the others from the platform information and turbo ratio registers. A CPU that has HWP switched off is told not to be supported (C56_hwp_off_refuted). Which CPU models have which registers is a parameter (table of supported features)."
  },
  {
   "property": "C57",
   "status": "partial",
   "theorems": [
    "C57_output",
    "C57_lines",
    "C57_limits",
    "C57_exit",
    "C57_raises",
    "C57_succeeds",
    "C57_no_capture",
    "C57_last_line_refuted",
    "C57_lines_refuted",
    "C57_status_refuted"
   ],
   "note": "Proved for everything up to the last line end. False: output after the last line end is lost, carriage returns make the lines depend on the cutting, a late exit status is never reported (the three _refuted theorems). The environment (what the reader threads have queued, what the system says) is universally quantified; the threads themselves are not modelled."
  },
  {
   "property": "C58",
   "status": "partial",
   "theorems": [
    "C58_command",
    "C58_raises",
    "C58_succeeds",
    "C58_hang_refuted",
    "C58_lost_refuted",
    "C58_stderr_refuted",
    "C58_not_found_refuted",
    "C58_bogus",
    "C58_closed"
   ],
   "note": "Proved for output that is empty or ends with a newline and does not contain the marker. False otherwise, and for stderr that arrives after the marker (the four _refuted theorems). The random marker is any text that does not occur in the output."
  },
  {
   "property": "C59",
   "status": "proved",
   "theorems": [
    "C59_table",
    "C59_succeeds",
    "C59_io",
    "C59_stale_refuted",
    "C59_history_refuted",
    "C59_missing",
    "C59_files"
   ],
   "note": "the refuted statements show what happens without the condition on the first request about dies"
  },
  {
   "property": "C60",
   "status": "proved",
   "theorems": [
    "C60_lines",
    "C60_succeeds",
    "C60_each",
    "C60_readable",
    "C60_io_die_refuted",
    "C60_columns_refuted",
    "C60_io_core_refuted",
    "C60_order_refuted"
   ],
   "note": "The output is specified completely; the four refutations are deviations from the documentation."
  },
  {
   "property": "C61",
   "status": "proved",
   "theorems": [
    "C61_nothing",
    "C61_each",
    "C61_all",
    "C61_succeeds",
    "C61_failed",
    "C61_half_refuted",
    "C61_no_sysfs_transaction_refuted",
    "C61_flush_refuted"
   ],
   "note": "For setters with both transactions, as in 'pstates config'. Refuted: the two commits are not atomic together; commands without a sysfs transaction; features that flush."
  },
  {
   "property": "C62",
   "status": "proved",
   "theorems": [
    "C62_info",
    "C62_info_changes_nothing",
    "C62_config_reads",
    "C62_policy_set",
    "C62_policy_succeeds",
    "C62_policy_rejected",
    "C62_policy_failed",
    "C62_l1_set",
    "C62_l1_succeeds",
    "C62_l1_rejected",
    "C62_l1_failed",
    "C62_l1_missing",
    "C62_both",
    "C62_half_refuted",
    "C62_l1_unverified_refuted"
   ],
   "note": "The two statements that do not hold - both options as one change, and the L1 state read back - are refuted beside the theorems."
  },
  {
   "property": "C63",
   "status": "proved",
   "theorems": [
    "C63_info",
    "C63_online",
    "C63_online_all",
    "C63_online_succeeds",
    "C63_online_all_succeeds",
    "C63_online_missing",
    "C63_online_rejected",
    "C63_offline",
    "C63_offline_writes",
    "C63_offline_rejected",
    "C63_offline_unsupported",
    "C63_offline_succeeds",
    "C63_history",
    "C63_indirect_refuted",
    "C63_empty_list_refuted"
   ],
   "note": "All three commands, for every topology, set of online CPUs, option values and kernel refusals. The two refuted statements are about behaviour the documentation or a code comment suggests but the code does not have."
  },
  {
   "property": "C64",
   "status": "partial",
   "theorems": [
    "C64_write",
    "C64_write_all_partial",
    "C64_write_only",
    "C64_write_succeeds",
    "C64_write_rejected",
    "C64_read",
    "C64_read_all_partial",
    "C64_read_only",
    "C64_read_succeeds_partial",
    "C64_read_duplicate_refuted",
    "C64_write_nothing_refuted",
    "C64_write_halfway_refuted",
    "C64_write_skipped_refuted",
    "C64_write_too_large_refuted"
   ],
   "note": "Partial: completeness excludes devices with different instances (refuted there); liveness of reading is for named features."
  },
  {
   "property": "C65",
   "status": "partial",
   "theorems": [
    "C65_options_partial",
    "C65_command_partial",
    "C65_where",
    "C65_nothing_lost",
    "C65_unknown_refused",
    "C65_twice_refused",
    "C65_same_value_refuted",
    "C65_swapped_refuted",
    "C65_missing_value_refuted",
    "C65_dataset_host_refuted",
    "C65_emulation_refuted",
    "C65_quiet_debug_refuted"
   ],
   "note": "Partial: equal option values, host names beginning with emulation, and a data set with another host typed before the sub-command are excluded; each is refuted with a witness."
  },
  {
   "property": "C66",
   "status": "partial",
   "theorems": [
    "C66_config_partial",
    "C66_kept",
    "C66_only",
    "C66_properties",
    "C66_told_partial",
    "C66_lists_partial",
    "C66_listed",
    "C66_succeeds",
    "C66_refused",
    "C66_no_option",
    "C66_repeated_refuted",
    "C66_halfway_refuted"
   ],
   "note": "Partial: 'all' on CPUs with different C-states, and what is printed after read errors, are excluded (both refuted under C31)."
  },
  {
   "property": "C67",
   "status": "partial",
   "theorems": [
    "C67_load_partial",
    "C67_succeeds",
    "C67_repeated_refused",
    "C67_once",
    "C67_no_circle",
    "C67_terminates",
    "C67_reserved",
    "C67_missing",
    "C67_checked",
    "C67_restore",
    "C67_restore_all_or_nothing",
    "C67_nested_refuted",
    "C67_again_refuted",
    "C67_shared_refuted",
    "C67_endless_refuted",
    "C67_relative_refuted",
    "C67_list_refuted"
   ],
   "note": "The YAML text format is not modelled. The main theorem asks for documents without an include inside a value and without a repeated key; the other theorems say what happens otherwise."
  },
  {
   "property": "C68",
   "status": "proved",
   "theorems": [
    "C68_same",
    "C68_agree",
    "C68_effects",
    "C68_succeeds",
    "C68_verified",
    "C68_frame"
   ],
   "note": "Equality of the remote and the local object for every history of successful calls; C68_frame covers the failing ones. The text of the scripts is not modelled, only what they print and write."
  },
  {
   "property": "C69",
   "status": "partial",
   "theorems": [
    "C69_number",
    "C69_seconds",
    "C69_number_exact",
    "C69_list",
    "C69_list_exact",
    "C69_unambiguous",
    "C69_same_text",
    "C69_texts",
    "C69_printed",
    "C69_line",
    "C69_unsupported",
    "C69_latency",
    "C69_same_text_refuted",
    "C69_seconds_refuted",
    "C69_empty_refuted",
    "C69_latency_refuted"
   ],
   "note": "The defects are the refuted theorems; everything else of the statement is proved. Arithmetic is exact, so the last bit of floating point numbers is not covered."
  },
  {
   "property": "C70",
   "status": "partial",
   "theorems": [
    "C70_file",
    "C70_succeeds",
    "C70_scan",
    "C70_order",
    "C70_ids",
    "C70_known",
    "C70_unknown",
    "C70_devices",
    "C70_discovers",
    "C70_registers_partial",
    "C70_four_keys",
    "C70_ls",
    "C70_ls_succeeds",
    "C70_long",
    "C70_extension_refuted",
    "C70_override_refuted",
    "C70_same_id_refuted",
    "C70_fatal",
    "C70_unknown_once_refuted",
    "C70_indent_refuted"
   ],
   "note": "Known, unknown and listed features are exactly those of the spec files and the devices; registers under a naming convention the code does not check. C70_fatal: a spec file which is cut after two keys, or is not YAML, makes every TPMI command fail (AttributeError or YAML error, not Error), although four files in error are tolerated."
  },
  {
   "property": "C71",
   "status": "partial",
   "theorems": [
    "C71_cstates",
    "C71_cstates_succeeds",
    "C71_props",
    "C71_yaml",
    "C71_succeeds",
    "C71_yaml_dict",
    "C71_yaml_dict_refuted",
    "C71_mechanisms",
    "C71_mechanisms_used",
    "C71_mechanisms_text",
    "C71_mechanisms_unknown",
    "C71_mechanism_alone_refuted",
    "C71_command",
    "C71_no_cstates_refuted",
    "C71_latency_refuted"
   ],
   "note": "Proved with counterexamples for the clauses that are false of the code: '--mechanisms' without options, dictionary values in YAML, an empty '--csnames' list."
  },
  {
   "property": "C72",
   "status": "partial",
   "theorems": [
    "C72_set",
    "C72_restore",
    "C72_restorable",
    "C72_saved",
    "C72_round_trip",
    "C72_noop",
    "C72_succeeds",
    "C72_scope",
    "C72_disagree_refuted",
    "C72_subset_refuted"
   ],
   "note": "The round trip is proved for every machine, class and history; success is proved under the conditions stated, and two files that cannot be restored are refuted."
  },
  {
   "property": "C73",
   "status": "partial",
   "theorems": [
    "C73_reads",
    "C73_complete",
    "C73_cppc",
    "C73_frequencies",
    "C73_bus_clock",
    "C73_bus_clock_mechanisms",
    "C73_bus_clock_refused",
    "C73_unknown",
    "C73_sets",
    "C73_set_freq",
    "C73_set_freq_refused",
    "C73_set_freq_succeeds",
    "C73_set_uncore",
    "C73_set_uncore_refused",
    "C73_set_uncore_succeeds",
    "C73_epp",
    "C73_epp_error_refuted",
    "C73_uncore_cpus_refuted",
    "C73_scopes"
   ],
   "note": "Dispatching of every property of PStates, CStates, Power and PMQoS over abstract low-level objects; the refuted theorems are findings."
  },
  {
   "property": "C74",
   "status": "partial",
   "theorems": [
    "C74_action",
    "C74_action_succeeds",
    "C74_undone",
    "C74_restored",
    "C74_restored_anyway",
    "C74_restore_succeeds",
    "C74_restore_refuted",
    "C74_again_refuted",
    "C74_ntp_stopped",
    "C74_ntp_restored",
    "C74_ntp_succeeds",
    "C74_ntp_twice_refuted",
    "C74_timers_stopped",
    "C74_timers_restored",
    "C74_timers_succeeds",
    "C74_timers_failed_refuted"
   ],
   "note": "Proved for all systems and histories; four refutations: restoring a unit that was not active, restoring twice, stop_ntp() twice, stop_timers() failing half way."
  },
  {
   "property": "C75",
   "status": "partial",
   "theorems": [
    "C75_is_loaded",
    "C75_blank_lines",
    "C75_load",
    "C75_unload",
    "C75_reload",
    "C75_load_succeeds",
    "C75_wait_found",
    "C75_wait_failed",
    "C75_wait_at_once",
    "C75_msr_open",
    "C75_msr_restored",
    "C75_msr_untouched",
    "C75_msr_succeeds",
    "C75_msr_late_refuted",
    "C75_close_twice_refuted",
    "C75_uncore_open",
    "C75_uncore_restored",
    "C75_uncore_succeeds",
    "C75_uncore_unsupported",
    "C75_dependency_refuted",
    "C75_uncore_late_refuted",
    "C75_mount",
    "C75_tpmi_open",
    "C75_tpmi_unmount_refuted",
    "C75_tpmi_failed_refuted",
    "C75_mount_local_refuted"
   ],
   "note": "Proved for all hosts; seven refutations: late device files, closing twice, dependencies, debugfs never unmounted."
  },
  {
   "property": "C76",
   "status": "partial",
   "theorems": [
    "C76_close",
    "C76_close_succeeds",
    "C76_again",
    "C76_retry",
    "C76_missing",
    "C76_others",
    "C76_cpufreq_msr_refuted",
    "C76_dmesg_refuted",
    "C76_missing_refuted",
    "C76_failed_refuted"
   ],
   "note": "Proved for 25 class shapes covering 30 classes, all arguments and all histories; four genuine counterexamples are proved as refutations."
  },
  {
   "property": "C77",
   "status": "partial",
   "theorems": [
    "C77_get",
    "C77_is_cached",
    "C77_find",
    "C77_find_any",
    "C77_add",
    "C77_remove",
    "C77_remove_global",
    "C77_disabled",
    "C77_offline_refuted",
    "C77_remove_global_refuted"
   ],
   "note": "All histories; two genuine counterexamples proved as refutations."
  },
  {
   "property": "C78",
   "status": "partial",
   "theorems": [
    "C78_find",
    "C78_search",
    "C78_helper",
    "C78_helper_fails",
    "C78_tpmi_specs",
    "C78_dataset_dir",
    "C78_dataset_named",
    "C78_dataset_all",
    "C78_dataset_all_none",
    "C78_dataset_all_succeeds",
    "C78_remote_unset_refuted",
    "C78_remote_dot_refuted",
    "C78_all_variable_refuted",
    "C78_all_twice_refuted"
   ],
   "note": "Proved in full for the local host and for remote hosts that set the variables; refuted for unset variables over SSH and for two cases of '-D all'."
  },
  {
   "property": "C79",
   "status": "partial",
   "theorems": [
    "C79_list",
    "C79_list_names",
    "C79_emulation",
    "C79_model_decimal",
    "C79_model_0x",
    "C79_model_hex",
    "C79_model_bad",
    "C79_model_fails",
    "C79_tuned",
    "C79_pmqos_list_refuted",
    "C79_pmqos_emulation_refuted",
    "C79_emulation_leak_refuted",
    "C79_negative_model_refuted"
   ],
   "note": "Proved; refuted for pmqos (no mechanisms listed, no emulation), for a leak on other exceptions and for negative model numbers."
  },
  {
   "property": "C80",
   "status": "partial",
   "theorems": [
    "C80_field",
    "C80_base_freq",
    "C80_flags",
    "C80_hybrid",
    "C80_identifies",
    "C80_hex_refuted",
    "C80_name",
    "C80_codename",
    "C80_hybrid_cpus",
    "C80_not_hybrid",
    "C80_warned_once",
    "C80_warned_for",
    "C80_warns",
    "C80_warning_refuted",
    "C80_caches",
    "C80_caches_kept",
    "C80_caches_refuted",
    "C80_dies",
    "C80_dies_none"
   ],
   "note": "C80_field, _base_freq, _flags, _hybrid, _identifies, _name, _codename, _hybrid_cpus, _not_hybrid, _warned_once, _warned_for, _warns, _caches, _caches_kept, _dies, _dies_none hold in full; the refutations show a prefixed number, a processor with P-cores only, and a failed cache call."
  },
  {
   "property": "C81",
   "status": "partial",
   "theorems": [
    "C81_last_write",
    "C81_bias",
    "C81_policy",
    "C81_policy_refuted",
    "C81_read_mode",
    "C81_missing",
    "C81_write_mode",
    "C81_write_mode_refuted",
    "C81_online",
    "C81_toggle",
    "C81_read_only_refuted",
    "C81_register",
    "C81_other_registers",
    "C81_recorded",
    "C81_not_recorded"
   ],
   "note": "The emulated files: the last write wins, names of the bias, the ASPM policy, the list of online CPUs, registers; three findings where the emulation differs from the kernel or a refusal has an effect."
  },
  {
   "property": "C82",
   "status": "partial",
   "theorems": [
    "C82_id",
    "C82_name",
    "C82_remembered",
    "C82_found",
    "C82_search_fails",
    "C82_missing",
    "C82_package",
    "C82_equals_refuted",
    "C82_single_quotes_refuted",
    "C82_etc_refuted",
    "C82_search_once_refuted"
   ],
   "note": "os-release parsing exactly as a relation, the remembered OS ID, the search for tools and the suggested packages for all tools and systems; four findings."
  },
  {
   "property": "C83",
   "status": "partial",
   "theorems": [
    "C83_range",
    "C83_goes_up",
    "C83_bad_number",
    "C83_two_numbers",
    "C83_rounded_refuted",
    "C83_docstring_refuted",
    "C83_first_letter",
    "C83_left_alone",
    "C83_has_word",
    "C83_again",
    "C83_digits_refuted"
   ],
   "note": ""
  },
  {
   "property": "C84",
   "status": "partial",
   "theorems": [
    "C84_formatted",
    "C84_unformatted",
    "C84_nothing_else",
    "C84_history_refuted",
    "C84_leftover",
    "C84_skip",
    "C84_copy",
    "C84_list_refuted",
    "C84_value",
    "C84_range",
    "C84_assertion"
   ],
   "note": ""
  }
 ]
}