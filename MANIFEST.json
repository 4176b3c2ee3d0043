{
 "claims": [
  {
   "property": "C01",
   "status": "proved",
   "theorems": [
    "C01_get_latest"
   ],
   "note": "versions include trees filled by InplaceInsert"
  },
  {
   "property": "C02",
   "status": "proved",
   "theorems": [
    "C02_insert_no_write",
    "C02_answers_for_ever"
   ],
   "note": ""
  },
  {
   "property": "C03",
   "status": "proved",
   "theorems": [
    "C03_delete_no_write",
    "C02_answers_for_ever"
   ],
   "note": ""
  },
  {
   "property": "C04",
   "status": "proved",
   "theorems": [
    "C04_delete_exact"
   ],
   "note": ""
  },
  {
   "property": "C05",
   "status": "proved",
   "theorems": [
    "C05_enumerate_sorted",
    "C05_default_order"
   ],
   "note": "sequence of pairs sent; the channel is abstracted here"
  },
  {
   "property": "C06",
   "status": "proved",
   "theorems": [
    "C06_redblack",
    "C06_get_comparisons"
   ],
   "note": "InplaceInsert on unshared trees (SBuild)"
  },
  {
   "property": "C07",
   "status": "proved",
   "theorems": [
    "C07_inplace_insert"
   ],
   "note": ""
  },
  {
   "property": "C08",
   "status": "proved",
   "theorems": [
    "C08_total",
    "C08_dl_total",
    "C08_dl_panics",
    "C08_dl_dot"
   ],
   "note": "strtree and dltree, all histories; dltree text calls panic exactly on text with an inner dot (MakeLabel panics), which is also proved"
  },
  {
   "property": "C09",
   "status": "proved",
   "theorems": [
    "C09_key_spelling"
   ],
   "note": ""
  },
  {
   "property": "C10",
   "status": "proved",
   "theorems": [
    "C10_delete_missing",
    "C10_delete_new_object",
    "C10_same_object_refuted"
   ],
   "note": "content unchanged; the returned object is always a new one, contrary to the doc comment"
  },
  {
   "property": "C11",
   "status": "proved",
   "theorems": [
    "C11_is_empty"
   ],
   "note": ""
  },
  {
   "property": "C12",
   "status": "proved",
   "theorems": [
    "C12_get_latest",
    "C12_answers_for_ever",
    "C12_enumerate_sorted",
    "C12_delete_exact",
    "C12_no_write",
    "C12_get_comparisons",
    "C12_inplace_insert"
   ],
   "note": ""
  },
  {
   "property": "C13",
   "status": "proved",
   "theorems": [
    "C13_same_calls",
    "C13_insert_get"
   ],
   "note": ""
  },
  {
   "property": "C14",
   "status": "proved",
   "theorems": [
    "C14_isolated_refuted",
    "C14_invalid_is_empty"
   ],
   "note": "The property is false of the code: refuted with a witness, and the exact behaviour is proved (invalid text is the empty label)"
  },
  {
   "property": "C15",
   "status": "proved",
   "theorems": [
    "C15_reads_back",
    "C15_print"
   ],
   "note": ""
  },
  {
   "property": "C16",
   "status": "proved",
   "theorems": [
    "C16_label_roundtrip",
    "C16_canonical_roundtrip"
   ],
   "note": ""
  },
  {
   "property": "C17",
   "status": "proved",
   "theorems": [
    "C17_wellformed"
   ],
   "note": ""
  },
  {
   "property": "C18",
   "status": "proved",
   "theorems": [
    "C18_no_panic"
   ],
   "note": ""
  },
  {
   "property": "C19",
   "status": "proved",
   "theorems": [
    "C19_accepts",
    "C19_errors",
    "C19_unambiguous"
   ],
   "note": ""
  },
  {
   "property": "C20",
   "status": "proved",
   "theorems": [
    "C20_case_insensitive"
   ],
   "note": ""
  },
  {
   "property": "C21",
   "status": "proved",
   "theorems": [
    "C21_walk",
    "C21_outside"
   ],
   "note": ""
  },
  {
   "property": "C22",
   "status": "proved",
   "theorems": [
    "C22_total_refuted",
    "C22_panic_iff",
    "C22_result",
    "C22_no_panic"
   ],
   "note": "The plain claim is false of the code (refuted with a witness); the exact panic condition and the result otherwise are proved."
  },
  {
   "property": "C23",
   "status": "proved",
   "theorems": [
    "C23_panic_iff",
    "C23_accepts",
    "C23_errors"
   ],
   "note": ""
  },
  {
   "property": "C24",
   "status": "proved",
   "theorems": [
    "C24_names",
    "C24_get_closest",
    "C24_root_refuted"
   ],
   "note": "Get = value of the longest non-root suffix with a value, after any history; at the root the claim is false of the code (witness)"
  },
  {
   "property": "C25",
   "status": "proved",
   "theorems": [
    "C25_insert",
    "C25_answers_for_ever",
    "C25_no_write"
   ],
   "note": "after any history; whole memory of the model"
  },
  {
   "property": "C26",
   "status": "proved",
   "theorems": [
    "C26_delete"
   ],
   "note": "for every name but a stored one of 127 labels (there: C28)"
  },
  {
   "property": "C27",
   "status": "proved",
   "theorems": [
    "C27_delete_subdomains"
   ],
   "note": "for every name but a stored one of 127 labels (there: C28)"
  },
  {
   "property": "C28",
   "status": "proved",
   "theorems": [
    "C28_refuted",
    "C28_history",
    "C28_panics_iff"
   ],
   "note": "the claim is false of the code (witness); the exact condition of the panic is proved"
  },
  {
   "property": "C29",
   "status": "proved",
   "theorems": [
    "C29_enumerate"
   ],
   "note": ""
  },
  {
   "property": "C30",
   "status": "proved",
   "theorems": [
    "C30_refuted",
    "C30_inplace"
   ],
   "note": "the claim is false of the code (witness); proved for trees built in place only"
  },
  {
   "property": "C31",
   "status": "proved",
   "theorems": [
    "C31_no_dead_branches"
   ],
   "note": "about the cells of the model memory"
  },
  {
   "property": "C32",
   "status": "proved",
   "theorems": [
    "C32_match_longest_prefix",
    "C34_insert_persistent"
   ],
   "note": "for the 32- and the 64-bit tree, any version of any history"
  },
  {
   "property": "C33",
   "status": "proved",
   "theorems": [
    "C33_exact_match",
    "C33_find_node"
   ],
   "note": "ExactMatch and FindNode"
  },
  {
   "property": "C34",
   "status": "proved",
   "theorems": [
    "C34_insert_persistent"
   ],
   "note": "every result of every call on every version along any history is the one of immutable maps; no existing cell is written"
  },
  {
   "property": "C35",
   "status": "proved",
   "theorems": [
    "C35_delete"
   ],
   "note": ""
  },
  {
   "property": "C36",
   "status": "proved",
   "theorems": [
    "C36_enumerate_sorted"
   ],
   "note": "the channel is abstracted to the sequence of sent nodes here"
  },
  {
   "property": "C37",
   "status": "proved",
   "theorems": [
    "C37_inplace_build",
    "C37_inplace_insert"
   ],
   "note": ""
  },
  {
   "property": "C38",
   "status": "proved",
   "theorems": [
    "C38_compact"
   ],
   "note": ""
  },
  {
   "property": "C39",
   "status": "proved",
   "theorems": [
    "C39_history_independent"
   ],
   "note": ""
  },
  {
   "property": "C40",
   "status": "proved",
   "theorems": [
    "C40_get_longest"
   ],
   "note": "All histories of NewTree+InplaceInsert, Insert, Delete, Get, Enumerate by network or address; any memory."
  },
  {
   "property": "C41",
   "status": "proved",
   "theorems": [
    "C41_insert",
    "C41_answers_for_ever",
    "C41_no_write"
   ],
   "note": ""
  },
  {
   "property": "C42",
   "status": "proved",
   "theorems": [
    "C42_delete"
   ],
   "note": ""
  },
  {
   "property": "C43",
   "status": "proved",
   "theorems": [
    "C43_enumerate",
    "C43_canonical"
   ],
   "note": ""
  },
  {
   "property": "C44",
   "status": "proved",
   "theorems": [
    "C44_malformed",
    "C44_ignored",
    "C44_every_key",
    "C44_update_refuted"
   ],
   "note": "Insert, InplaceInsert, Get, Delete. UpdateDescendants(nil) panics: C44_update_refuted."
  },
  {
   "property": "C45",
   "status": "proved",
   "theorems": [
    "C45_mapped",
    "C45_addresses",
    "C45_other_lengths"
   ],
   "note": ""
  },
  {
   "property": "C46",
   "status": "proved",
   "theorems": [
    "C46_inplace",
    "C46_inplace_any",
    "C46_shared_refuted"
   ],
   "note": "C46_shared_refuted: with shared nodes older versions change, so the restriction to unshared trees is needed."
  },
  {
   "property": "C47",
   "status": "proved",
   "theorems": [
    "C47_update",
    "C47_short_targets",
    "C47_walk_unique",
    "C47_not_a_network",
    "C47_unstored_refuted",
    "C47_shared_refuted"
   ],
   "note": "Exact: accepted targets are characterised. The expectation that an unstored target is never accepted is refuted inside an IPv6 /64 (C47_unstored_refuted); outside it holds (C47_short_targets)."
  },
  {
   "property": "C48",
   "status": "proved",
   "theorems": [
    "C48_same_as_iptree",
    "C48_answers_for_ever",
    "C48_get_longest",
    "C48_insert",
    "C48_enumerate",
    "C48_no_write",
    "C48_ignored",
    "C48_inplace",
    "C48_inplace_any"
   ],
   "note": "One model stands for iptree8, 16, 32 and 64 (same text up to the value type)."
  },
  {
   "property": "C49",
   "status": "proved",
   "theorems": [
    "C49_delete",
    "C49_delete_exact",
    "C49_refuted"
   ],
   "note": "C49_delete: the claim where it holds; C49_delete_exact: what happens in every case; C49_refuted: the unrestricted claim is false."
  },
  {
   "property": "C50",
   "status": "proved",
   "theorems": [
    "C50_strtree",
    "C50_numtree",
    "C50_dltree",
    "C50_domaintree",
    "C50_iptree",
    "C50_uxtree",
    "C50_wait_free",
    "C50_inplace_refuted"
   ],
   "note": "Copy-on-write methods: any calls on any published versions, any number of goroutines and any interleaving of memory accesses. C50_inplace_refuted: two in-place insertions on a shared tree do race, so the restriction to copy-on-write methods is needed."
  },
  {
   "property": "C51",
   "status": "proved",
   "theorems": [
    "C51_strtree",
    "C51_dltree_raw",
    "C51_dltree",
    "C51_domaintree",
    "C51_numtree",
    "C51_iptree",
    "C51_uxtree",
    "C51_stops_early"
   ],
   "note": "All schedules, all receivers, other goroutines may meanwhile add memory; nested Enumerate goroutines of domaintree and iptree included."
  },
  {
   "property": "C52",
   "status": "proved",
   "theorems": [
    "C52_strtree",
    "C52_dltree",
    "C52_numtree",
    "C52_determines"
   ],
   "note": "Lines of the body as numbers and node contents; their text is the subject of C66."
  },
  {
   "property": "C53",
   "status": "proved",
   "theorems": [
    "C53_strtree",
    "C53_dltree",
    "C53_numtree",
    "C53_iptree",
    "C53_uxtree"
   ],
   "note": "domaintree: see C56."
  },
  {
   "property": "C54",
   "status": "proved",
   "theorems": [
    "C54_strtree",
    "C54_dltree",
    "C54_numtree",
    "C46_inplace_any",
    "C48_inplace_any"
   ],
   "note": "The iptree and uintX theorems are C46_inplace_any and C48_inplace_any."
  },
  {
   "property": "C55",
   "status": "proved",
   "theorems": [
    "C55_returns",
    "C55_text",
    "C55_bad_string",
    "C55_reflect_panic"
   ],
   "note": "Values of package reflect are modelled as the cases the function can tell apart; the texts of the panics are not modelled."
  },
  {
   "property": "C56",
   "status": "proved",
   "theorems": [
    "C56_inplace_any",
    "C56_mix",
    "C56_bare_leaf"
   ],
   "note": "C56_mix covers both panics (blocked names; C28)."
  },
  {
   "property": "C57",
   "status": "proved",
   "theorems": [
    "C57_strtree",
    "C57_strtree_inplace",
    "C57_dltree",
    "C57_domaintree",
    "C57_numtree",
    "C57_iptree",
    "C57_uxtree",
    "C57_counted"
   ],
   "note": "Accesses are loads, stores and allocations of structs (tree nodes, tree objects); comparing keys, converting names and addresses, and building domain labels are not counted. strtree with comparators that are not orders: C57_strtree; InplaceInsert: lawful ones. domaintree deletions: calls that do not panic (C28)."
  },
  {
   "property": "C58",
   "status": "proved",
   "theorems": [
    "C58_zero_tree"
   ],
   "note": "All sequences of calls on one handle starting from a tree whose comparison function is nil, against ZeroSpec.v."
  },
  {
   "property": "C59",
   "status": "proved",
   "theorems": [
    "C59_insert",
    "C59_inplace",
    "C59_strict"
   ],
   "note": "Comparison functions are arbitrary total functions of the two keys (no state, no panic). Looping for ever is: the model runs out of fuel for every fuel."
  },
  {
   "property": "C60",
   "status": "proved",
   "theorems": [
    "C60_full_split",
    "C60_rel_name",
    "C60_rel_name_total"
   ],
   "note": "filepath.Clean, Split, Abs, Join are modelled (Unix)."
  },
  {
   "property": "C61",
   "status": "proved",
   "theorems": [
    "C61_sel",
    "C61_sel_error"
   ],
   "note": "YAML decoding is not modelled; a value is a map or a leaf."
  },
  {
   "property": "C62",
   "status": "proved",
   "theorems": [
    "C62_execute",
    "C62_done_unique"
   ],
   "note": "Templates are parameters; errors of the file system are not modelled; directory entries have proper names."
  },
  {
   "property": "C63",
   "status": "proved",
   "theorems": [
    "C63_children",
    "C63_children_of_found",
    "C63_nav_unique"
   ],
   "note": ""
  },
  {
   "property": "C64",
   "status": "proved",
   "theorems": [
    "C64_update_schedules",
    "C64_refines"
   ],
   "note": "The callback is a function of its state and the pair; for callbacks that look at the tree see C67."
  },
  {
   "property": "C65",
   "status": "proved",
   "theorems": [
    "C65_enumerate",
    "C65_ux_enumerate",
    "C65_refines",
    "C65_update"
   ],
   "note": ""
  },
  {
   "property": "C66",
   "status": "proved",
   "theorems": [
    "C66_graph",
    "C66_num_graph",
    "C66_strtree",
    "C66_strtreeN",
    "C66_dltree",
    "C66_numtree"
   ],
   "note": "%#v and the table of printable characters are arbitrary functions."
  },
  {
   "property": "C67",
   "status": "proved",
   "theorems": [
    "C67_calling",
    "C67_schedules",
    "C67_walk_unique",
    "C67_pure"
   ],
   "note": "The callback may look up and enumerate the same tree; it does not insert, delete or update."
  },
  {
   "property": "C68",
   "status": "proved",
   "theorems": [
    "C68_working",
    "C68_walk_unique",
    "C68_copy"
   ],
   "note": "The callback's own trees are made during the calls; it derives none from the tree that is being updated."
  },
  {
   "property": "C69",
   "status": "proved",
   "theorems": [
    "C69_sharing",
    "C69_independent"
   ],
   "note": "The callback is a function of its state and the pair. Which of the values stored by one call do change depends on how the paths were copied: see C82."
  },
  {
   "property": "C70",
   "status": "proved",
   "theorems": [
    "C70_mixed",
    "C70_networks",
    "C70_no_updates"
   ],
   "note": "The client does not call UpdateDescendants on a nil tree. Callbacks are functions of their state and the pair."
  },
  {
   "property": "C71",
   "status": "proved",
   "theorems": [
    "C71_versions",
    "C71_strtree_refuted"
   ],
   "note": "The client stores the returned tree in the place of the old one. Refuted for strtree by a concrete history."
  },
  {
   "property": "C72",
   "status": "proved",
   "theorems": [
    "C72_versions",
    "C72_unrelated",
    "C72_elsewhere"
   ],
   "note": "The client does not call in-place insertion on a nil tree. Whether a related version gets the insertion depends on how its paths were copied (C80)."
  },
  {
   "property": "C73",
   "status": "proved",
   "theorems": [
    "C73_all",
    "C73_same_object",
    "C73_unrelated",
    "C73_values"
   ],
   "note": "Histories of all calls of iptree.Tree; callbacks of UpdateDescendants are functions with state that do not touch trees (C67 and C68 treat those that do)."
  },
  {
   "property": "C74",
   "status": "proved",
   "theorems": [
    "C74_strtree",
    "C74_dltree",
    "C74_stored",
    "C74_insert_refuted",
    "C74_inplace_refuted",
    "C74_get_refuted",
    "C74_domaintree_refuted"
   ],
   "note": "Proved when only the latest version is changed; that other changes are safe is refuted by concrete histories. Fuel polynomial in the number of calls."
  },
  {
   "property": "C75",
   "status": "proved",
   "theorems": [
    "C75_own",
    "C75_end",
    "C75_any"
   ],
   "note": "Sequentially consistent interleaving of single memory accesses. Clients are sequences of calls; callbacks of UpdateDescendants and of tree walks are as in the theorems named in the statement."
  },
  {
   "property": "C76",
   "status": "proved",
   "theorems": [
    "C76_versions",
    "C76_unrelated",
    "C76_elsewhere"
   ],
   "note": "The client does not call in-place insertion on a nil tree. Whether a related version gets the insertion depends on how its paths were copied (C81)."
  },
  {
   "property": "C77",
   "status": "proved",
   "theorems": [
    "C77_derive",
    "C77_keeps",
    "C77_same_object",
    "C77_values",
    "C77_computes"
   ],
   "note": "Callbacks make no in-place insertion, and updates are called on trees that are not nil. Sequential order of the walk; C78 treats its goroutines."
  },
  {
   "property": "C78",
   "status": "proved",
   "theorems": [
    "C78_schedules",
    "C78_same",
    "C78_reachable",
    "C78_terminates",
    "C78_inplace_refuted"
   ],
   "note": "Clients and callbacks as in C77. Sequentially consistent interleaving of single memory accesses; an Enumerate of the callback itself is read without goroutine (C51)."
  },
  {
   "property": "C79",
   "status": "proved",
   "theorems": [
    "C79_exact",
    "C79_results",
    "C79_parent"
   ],
   "note": "Histories of C71. Which calls made which part is stated on prefixes (StampSpec.v), without nodes or addresses."
  },
  {
   "property": "C80",
   "status": "proved",
   "theorems": [
    "C80_exact",
    "C80_results",
    "C80_reached",
    "C80_inserted",
    "C80_deleted",
    "C80_parent"
   ],
   "note": "Histories of C72 in which trees are made empty and filled call by call. Stated on networks (IpStampSpec.v), without nodes or addresses."
  },
  {
   "property": "C81",
   "status": "proved",
   "theorems": [
    "C81_exact",
    "C81_results",
    "C81_reached",
    "C81_inserted",
    "C81_deleted",
    "C81_parent",
    "C81_overwrite"
   ],
   "note": "Histories of C76 in which trees are made empty and filled call by call. Stated on networks (UxStampSpec.v), without nodes or addresses. That iptree differs is shown by one history (ux_overwrite_iptree)."
  },
  {
   "property": "C82",
   "status": "proved",
   "theorems": [
    "C82_exact",
    "C82_results",
    "C82_holds",
    "C82_itself",
    "C82_inserted",
    "C82_deleted",
    "C82_sym",
    "C82_child"
   ],
   "note": "Histories of C73 in which trees are made empty and filled call by call; callbacks as there. Stated on networks (IpRenewSpec.v), without nodes or addresses."
  },
  {
   "property": "C83",
   "status": "proved",
   "theorems": [
    "C83_exact",
    "C83_results",
    "C83_stays",
    "C83_reads",
    "C83_written",
    "C83_all",
    "C83_child"
   ],
   "note": "Histories of C79 with nodes kept by the client. The client reads and writes fields only of nodes that are not nil, and sets no field other than Value."
  },
  {
   "property": "C84",
   "status": "proved",
   "theorems": [
    "C84_schedules",
    "C84_itself",
    "C84_others",
    "C84_refines"
   ],
   "note": "Sequentially consistent interleaving of single memory accesses. The body of the loop is a function of its state and the entry; it calls nothing on trees."
  },
  {
   "property": "C85",
   "status": "proved",
   "theorems": [
    "C85_apart",
    "C85_ends",
    "C85_own",
    "C85_value",
    "C85_needed"
   ],
   "note": "Sequentially consistent interleaving of single memory accesses. One goroutine changes; the others read, each Enumerate as one goroutine that collects the nodes and reads their fields. C85_needed is the race that occurs without the condition."
  },
  {
   "property": "C86",
   "status": "proved",
   "theorems": [
    "C86_watch",
    "C86_persists",
    "C86_pairs",
    "C86_reader"
   ],
   "note": "Sequentially consistent interleaving of single memory accesses; one goroutine changes, the others read. That all runs end is C85_ends."
  }
 ]
}