{
 "claims": [
  {
   "property": "C01",
   "status": "proved",
   "theorems": [
    "C01_fresh_node_is_ordered_mapping",
    "C01_ordered_mapping"
   ],
   "note": "fresh nodes and every reachable content; classes with the behaviors of BaseNode or OrderedNode"
  },
  {
   "property": "C02",
   "status": "proved",
   "theorems": [
    "C02_assignment",
    "C02_deletion",
    "C02_refused_assignment",
    "C02_refused_deletion"
   ],
   "note": "success and refusal, for every combination of the tree behaviors"
  },
  {
   "property": "C03",
   "status": "proved",
   "theorems": [
    "C03_refuses",
    "C03_fresh",
    "C03_only_nodes"
   ],
   "note": "The refusal is proved for every plumbing with NodeChildValidate outermost in every state. The history theorem covers the classes built from the tree behaviors, any number of nodes, and all modelled calls except switching allow_non_node_childs on for the node itself; deepcopy while no GetattrChildren node exists."
  },
  {
   "property": "C04",
   "status": "proved",
   "theorems": [
    "C04_adoption"
   ],
   "note": "every combination of the tree behaviors with Adopt"
  },
  {
   "property": "C05",
   "status": "proved",
   "theorems": [
    "C05_refused_child_keeps_place",
    "C05_refused_child_keeps_place_node",
    "C05_other_exceptions_stick"
   ],
   "note": "for any computation below Adopt; the other exceptions are shown to stick"
  },
  {
   "property": "C06",
   "status": "proved",
   "theorems": [
    "C06_held_children_know_their_place",
    "C06_held_once",
    "C06_spaces_apart",
    "C06_place_undisciplined_refuted",
    "C06_undisciplined_refuted"
   ],
   "note": "Proved for every history, raising calls included, over classes of the tree behaviors with Adopt (adopting), of all modelled calls, invalidate and deepcopy included; deepcopy while no GetattrChildren node exists. The failure without the discipline is a witness."
  },
  {
   "property": "C07",
   "status": "proved",
   "theorems": [
    "C07_path_and_root",
    "C07_child",
    "C07_descendant",
    "C07_found",
    "C07_undisciplined_refuted"
   ],
   "note": "For the histories of C06; path, root, and lookup of the remaining path both ways; the endless walk of an undisciplined history is a witness for every fuel."
  },
  {
   "property": "C08",
   "status": "proved",
   "theorems": [
    "C08_detach",
    "C08_detach_missing",
    "C08_detach_present"
   ],
   "note": "presence, absence, and effect; that detaching from a Reference node succeeds is in C12"
  },
  {
   "property": "C09",
   "status": "proved",
   "theorems": [
    "C09_update_applies_a_prefix",
    "C09_update_arguments"
   ],
   "note": "every class"
  },
  {
   "property": "C10",
   "status": "proved",
   "theorems": [
    "C10_reading",
    "C10_dunder_calls_keep_children",
    "C10_other_calls_keep_nodespaces",
    "C10_untouched_keys",
    "C10_never_iterated",
    "C10_children",
    "C10_ordered_insertion_refuted"
   ],
   "note": "Proved for all classes of the tree behaviors and all histories of calls except ordered insertion; deepcopy while no GetattrChildren node exists. C10_ordered_insertion_refuted shows that ordered insertion of a dunder-named node makes it iterable."
  },
  {
   "property": "C11",
   "status": "proved",
   "theorems": [
    "C11_attrs_is_a_nodespace",
    "C11_same_object",
    "C11_attributes_keep_children",
    "C11_name_and_parent",
    "C11_refused_without"
   ],
   "note": "Stability, equality with the nodespace and isolation of the children over all plain histories; name and parent over careful histories of adopting classes (the same discipline as C06)."
  },
  {
   "property": "C12",
   "status": "proved",
   "theorems": [
    "C12_index_exact",
    "C12_shared_index",
    "C12_node_finds",
    "C12_node_unknown",
    "C12_uuids_differ",
    "C12_child_once",
    "C12_no_cycle",
    "C12_created_listed",
    "C12_stays_listed",
    "C12_assign",
    "C12_delete",
    "C12_detach",
    "C12_deepcopy"
   ],
   "note": "All histories of the modelled calls, raising ones included, in which nodes are assigned with care (childless, free-standing, uuid new, under a string key that holds no node, an unused one for ordered insertion; by item assignment, setdefault, update with different keys and uuids, insertbefore/after/first/last), other values replace no node, nodes are deleted, detached, invalidated (plain Invalidate), deepcopied, given uuids; for every listed node. C12_deepcopy: the copies are found from the copy, the originals from the original."
  },
  {
   "property": "C13",
   "status": "proved",
   "theorems": [
    "C13_used_uuid_refused",
    "C13_uuid_rekeyed",
    "C13_refused_iff_in_tree",
    "C13_zero_uuid_refuted"
   ],
   "note": "Every reachable state, node and uuid; uuid with integer 0 is filed under None (C13_zero_uuid_refuted)."
  },
  {
   "property": "C14",
   "status": "proved",
   "theorems": [
    "C14_subtree_splits_index",
    "C14_overwrite_leaves_stale_entry",
    "C14_childless_node_twice",
    "C14_deleted_node_imports_index",
    "C14_uuid_clash"
   ],
   "note": "Witness histories on the full model."
  },
  {
   "property": "C15",
   "status": "proved",
   "theorems": [
    "C15_insert_beside",
    "C15_insert_at_end"
   ],
   "note": "tree classes (including Nodespaces, Reference, Lifecycle); inserting under a name that is already a key is left to odict and not modelled"
  },
  {
   "property": "C16",
   "status": "proved",
   "theorems": [
    "C16_unnamed_refused",
    "C16_known_refused",
    "C16_absent_refused",
    "C16_no_odict_refused",
    "C16_stranger_accepted_refuted",
    "C16_late_failure_refuted",
    "C16_unnamed_at_end_refuted"
   ],
   "note": "the three refusals proved; violations are witness theorems: late failure leaves the node in the entries, insertfirst/insertlast on an empty node skip the name check, only the name of the reference node is looked at"
  },
  {
   "property": "C17",
   "status": "proved",
   "theorems": [
    "C17_swap",
    "C17_swap_twice",
    "C17_swap_refused",
    "C17_no_odict_refused"
   ],
   "note": "every storage class"
  },
  {
   "property": "C18",
   "status": "proved",
   "theorems": [
    "C18_created",
    "C18_added",
    "C18_removed",
    "C18_detached",
    "C18_detach_failed",
    "C18_update",
    "C18_setdefault",
    "C18_pop",
    "C18_popitem",
    "C18_clear",
    "C18_nodespace_silent_refuted",
    "C18_failing_detach_sends_refuted"
   ],
   "note": "Classes of tree behaviours with one Lifecycle; keys that go to the nodespaces are excluded (witness that LifecycleNode is silent there); a failing detach can send when Reference is plumbed before Lifecycle (witness)."
  },
  {
   "property": "C19",
   "status": "proved",
   "theorems": [
    "C19_failing_detach_silences_refuted",
    "C19_silent_exactly",
    "C19_detach_ends_silence"
   ],
   "note": "The claim is false (witness); the suppressed state is characterised exactly over all histories for a Lifecycle not wrapped by a Reference."
  },
  {
   "property": "C20",
   "status": "proved",
   "theorems": [
    "C20_set_modified",
    "C20_del_modified",
    "C20_failed_set_stores_refuted"
   ],
   "note": "Attribute classes of plain behaviours around AttributesLifecycle; without a Lifecycle owner every call fails, after the value was stored (witness)."
  },
  {
   "property": "C21",
   "status": "proved",
   "theorems": [
    "C21_caching_history",
    "C21_cache_is_transparent",
    "C21_unhashable_keys_refuted"
   ],
   "note": "Cache transparent for every history over hashable keys, for any class of mapping behaviors with Cache; for unhashable keys the exception differs (refuted with witnesses)."
  },
  {
   "property": "C22",
   "status": "proved",
   "theorems": [
    "C22_invalidate_all",
    "C22_children_survive_refuted"
   ],
   "note": "Exact effect of invalidate() for every cache and storage content; the claim that every child is invalidated is refuted generally."
  },
  {
   "property": "C23",
   "status": "proved",
   "theorems": [
    "C23_volatile_key",
    "C23_volatile_all",
    "C23_invalidate_key",
    "C23_invalidate_missing",
    "C23_invalidate_present",
    "C23_invalidate_all"
   ],
   "note": "VolatileStorageInvalidate for any class with storage; Invalidate for all tree classes."
  },
  {
   "property": "C24",
   "status": "proved",
   "theorems": [
    "C24_iter_yields_factories",
    "C24_first_access_creates",
    "C24_first_access_outcome",
    "C24_once",
    "C24_unknown_key"
   ],
   "note": "Classes of mapping behaviors with exactly one ChildFactory above a dict storage. Access to a declared key succeeds if the declared class has no FixedChildren (whose own construction may fail); C24_first_access_outcome covers the rest. Children created earlier and then deleted are made anew on the next access. The key order clause needs ChildFactory before the storage (factory_first)."
  },
  {
   "property": "C25",
   "status": "proved",
   "theorems": [
    "C25_construction",
    "C25_immutable",
    "C25_adopting_names_refuted"
   ],
   "note": "Construction and immutability are proved; the name clause is refuted for classes that also adopt (C25_adopting_names_refuted): a refused assignment still renames the value passed. Without Adopt nothing at all changes (C25_immutable)."
  },
  {
   "property": "C26",
   "status": "proved",
   "theorems": [
    "C26_unalias_inverts_alias",
    "C26_alias_inverts_unalias",
    "C26_unalias_fails_off_the_image",
    "C26_affixes",
    "C26_strict_dict_domain",
    "C26_loose_dict",
    "C26_empty_suffix",
    "C26_no_suffix_refuted"
   ],
   "note": "inversion both ways, domain, KeyError; the empty suffix and the loose dictionary are shown not to invert"
  },
  {
   "property": "C27",
   "status": "proved",
   "theorems": [
    "C27_aliased_node",
    "C27_keys_stay_aliasable",
    "C27_inverting_aliasers"
   ],
   "note": "simulation by an ordered dictionary under renamed keys, for Alias anywhere among plain behaviors"
  },
  {
   "property": "C28",
   "status": "proved",
   "theorems": [
    "C28_own_value_first",
    "C28_search_outcome",
    "C28_search_complete",
    "C28_nearest_fallback_first",
    "C28_missing_fallback_key",
    "C28_unhashable_key",
    "C28_every_replacement_tried_refuted"
   ],
   "note": "fallback lookups in every tree of the tree behaviors and Fallback (consistent, acyclic): own value first, sound and complete outcome of the search, nearest fallback first, missing fallback key; refuted: replacements where the literal child is missing are not tried"
  },
  {
   "property": "C29",
   "status": "proved",
   "theorems": [
    "C29_search_ends",
    "C29_counter_restored",
    "C29_counter_restored_by_every_call",
    "C29_no_search_between_calls",
    "C29_nested_lookups_do_not_search",
    "C29_nested_lookup_is_item_access"
   ],
   "note": "termination in trees within (n+2)^2 steps; counter restored for every class, state and outcome; nested lookups never search"
  },
  {
   "property": "C30",
   "status": "proved",
   "theorems": [
    "C30_serialize",
    "C30_deserialize",
    "C30_round_trip",
    "C30_round_trip_here",
    "C30_deep_copy_serializes_refuted"
   ],
   "note": "Trees whose classes resolve by name and whose attributes are plain values (C31) or trees of nodes again (the class of the attributes node then has Adopt and not Reference, as NodeAttributes). The JSON text itself is modelled as the tree it denotes (json module trusted)."
  },
  {
   "property": "C31",
   "status": "proved",
   "theorems": [
    "C31_values_survive",
    "C31_nothing_else",
    "C31_unset_string",
    "C31_uuid_string",
    "C31_unset_in_dict",
    "C31_int_keys",
    "C31_ob_key"
   ],
   "note": "Both directions: plain values survive, and only they do (among values without nodes or foreign objects). Floats, tuples and bytes are not modelled as values."
  },
  {
   "property": "C32",
   "status": "proved",
   "theorems": [
    "C32_non_nodes_lost",
    "C32_uuids_not_carried",
    "C32_simple_mode"
   ],
   "note": "Full format of simple mode is json_tree true incl; see also C30_serialize."
  },
  {
   "property": "C33",
   "status": "proved",
   "theorems": [
    "C33_decode_after_encode",
    "C33_encode_idempotent",
    "C33_decoded_leaves",
    "C33_encoded_leaves",
    "C33_decode_succeeds",
    "C33_decode_fails",
    "C33_decode_needs_readable",
    "C33_utf8_inverts"
   ],
   "note": "pure model of StrCodec over arbitrary nested data; UTF-8 encoder and decoder included"
  },
  {
   "property": "C34",
   "status": "proved",
   "theorems": [
    "C34_bind",
    "C34_unbind",
    "C34_bound_once",
    "C34_dispatch",
    "C34_dispatch_nobody",
    "C34_subclass_attribute_on_base_refuted"
   ],
   "note": "bind/unbind/dispatch for all reachable states; dispatch exact under subscribers that leave the event's own list alone, arbitrary otherwise; witness that a subclass' event attribute becomes declared on its base"
  },
  {
   "property": "C35",
   "status": "proved",
   "theorems": [
    "C35_self_unbind_skips_next",
    "C35_bound_during_dispatch_is_called"
   ],
   "note": "the undisturbed case is C34_dispatch; the two disturbed cases hold for every list"
  },
  {
   "property": "C36",
   "status": "proved",
   "theorems": [
    "C36_set",
    "C36_delete",
    "C36_value_kept",
    "C36_decorators_only_own_attribute"
   ],
   "note": "set, delete, frame and origin of decorator calls"
  },
  {
   "property": "C37",
   "status": "proved",
   "theorems": [
    "C37_restored",
    "C37_held_back",
    "C37_delivered",
    "C37_leaving_succeeds",
    "C37_unentered_object_refuted",
    "C37_reentered_object_refuted"
   ],
   "note": "scoping, delivery inside nested blocks; the claims about objects created but not entered, or entered twice, are refuted by general witnesses"
  },
  {
   "property": "C38",
   "status": "proved",
   "theorems": [
    "C38_dispatch_refuted",
    "C38_suppress_refuted",
    "C38_fallback_elsewhere_refuted"
   ],
   "note": "the claim that they work in every thread is refuted: proved to fail in every other thread in every history; the fallback part is with C28/C29"
  },
  {
   "property": "C39",
   "status": "proved",
   "theorems": [
    "C39_tree_lock_excludes",
    "C39_one_holder",
    "C39_no_deadlock",
    "C39_first_use_races_refuted"
   ],
   "note": "every schedule of any number of threads, programs with nested blocks, exceptions and re-rooting; the race on first use is a proved witness for every such configuration"
  },
  {
   "property": "C40",
   "status": "proved",
   "theorems": [
    "C40_release",
    "C40_no_runtime_error",
    "C40_balanced",
    "C40_block_neutral",
    "C40_finished"
   ],
   "note": "release step proved for every reachable configuration and every way of leaving"
  },
  {
   "property": "C41",
   "status": "proved",
   "theorems": [
    "C41_copy",
    "C41_shared_entries",
    "C41_shared_calls",
    "C41_separate_calls",
    "C41_copy_in_index_refuted"
   ],
   "note": "Copies of classes with GetattrChildren are excluded: copying probes the instance for __setstate__ through __getattr__, which raises KeyError there. The call-by-call theorems are for classes of storage, validation, adoption and other plain behaviors; the entries theorem is for all classes. The copy of a node with an index is not in the index (refuted theorem)."
  },
  {
   "property": "C42",
   "status": "proved",
   "theorems": [
    "C42_deepcopy",
    "C42_unset_kept_refuted",
    "C42_objects"
   ],
   "note": "Every object graph of the model. Opaque objects and UNSET are replaced by other objects (C42_objects, C42_unset_kept_refuted). Classes with GetattrChildren are excluded (see C41)."
  },
  {
   "property": "C43",
   "status": "proved",
   "theorems": [
    "C43_copy_raises",
    "C43_deepcopy",
    "C43_deepcopy_flat",
    "C43_detach",
    "C43_value_child_refuted"
   ],
   "note": "The recursive case is for trees of nodes without cycles and without Reference; a child that is no node makes deepcopy raise AttributeError (refuted theorem)."
  },
  {
   "property": "C44",
   "status": "proved",
   "theorems": [
    "C44_treerepr_prints_the_tree",
    "C44_line_count",
    "C44_sorted",
    "C44_canonical",
    "C44_string_keys"
   ],
   "note": "printed text, line count, sort order and canonicity for finite trees of tree-behavior classes"
  },
  {
   "property": "C45",
   "status": "proved",
   "theorems": [
    "C45_acquire_finds",
    "C45_acquire_none",
    "C45_acquire_changes_nothing",
    "C45_acquire_in_trees",
    "C45_itself_refuted",
    "C45_cycle_refuted"
   ],
   "note": "Exact characterisation of acquire for every reachable state, parent cycles included. The predicate stands for interface.providedBy / isinstance and may look at the node object only."
  },
  {
   "property": "C46",
   "status": "proved",
   "theorems": [
    "C46_filteredvalues",
    "C46_filters_values"
   ],
   "note": "filtereditervalues is modelled by the list it yields when consumed at once."
  },
  {
   "property": "C47",
   "status": "proved",
   "theorems": [
    "C47_getitem",
    "C47_get",
    "C47_contains",
    "C47_keys_values_items_len",
    "C47_inverse",
    "C47_nodes"
   ],
   "note": "any context acting like an entry list, and nodes"
  },
  {
   "property": "C48",
   "status": "proved",
   "theorems": [
    "C48_read",
    "C48_no_key_error",
    "C48_write"
   ],
   "note": "every class of the tree behaviors"
  },
  {
   "property": "C49",
   "status": "proved",
   "theorems": [
    "C49_cached",
    "C49_failing",
    "C49_first_success"
   ],
   "note": "interleaved reads of several properties on several objects"
  },
  {
   "property": "C50",
   "status": "proved",
   "theorems": [
    "C50_follows_keys",
    "C50_list",
    "C50_joined",
    "C50_every_string",
    "C50_empty_path"
   ],
   "note": "list paths, all strings, missing keys"
  },
  {
   "property": "C51",
   "status": "proved",
   "theorems": [
    "C51_abstract_node"
   ],
   "note": "every call"
  },
  {
   "property": "C52",
   "status": "proved",
   "theorems": [
    "C52_serialize",
    "C52_deserialize",
    "C52_due",
    "C52_no_node"
   ],
   "note": "For every registry history and any environment; isinstance and providedBy are a parameter."
  },
  {
   "property": "C53",
   "status": "proved",
   "theorems": [
    "C53_ordered_mapping",
    "C53_fresh_node_is_ordered_mapping",
    "C53_careless_refuted"
   ],
   "note": "C53_ordered_mapping from any state a tidy history leads to, C53_fresh_node_is_ordered_mapping for a new node; careful calls are defined in SpecNode.careful_call, state by state. C53_careless_refuted: a node assigned twice cannot be deleted twice."
  },
  {
   "property": "C54",
   "status": "proved",
   "theorems": [
    "C54_ordered_mapping",
    "C54_fresh_node_is_ordered_mapping",
    "C54_composition_does_not_show",
    "C54_order_shows_refuted"
   ],
   "note": "All classes of the tree behaviors without Reference (C53 covers Node, which has it). UUIDAware classes are covered in any state, but their constructor only in C43. C54_order_shows_refuted: outside the usable keys the exception depends on the order."
  },
  {
   "property": "C55",
   "status": "proved",
   "theorems": [
    "C55_read",
    "C55_stale_read",
    "C55_delete",
    "C55_write",
    "C55_write_then_read"
   ],
   "note": "cache and storage arbitrary; Cache anywhere among storage, validation, adoption and passive behaviors"
  },
  {
   "property": "C56",
   "status": "proved",
   "theorems": [
    "C56_update_shares",
    "C56_merged_entries",
    "C56_with_itself",
    "C56_reach",
    "C56_held_by_both",
    "C56_no_tree_refuted"
   ],
   "note": "update_from is Model.update applied to the items of the other node. C56_reach puts the state afterwards back into the histories of the other theorems. The updated node has no Reference (with it the uuid index decides, C12-C14)."
  },
  {
   "property": "C57",
   "status": "proved",
   "theorems": [
    "C57_children_as_attributes",
    "C57_shadowed",
    "C57_other_classes",
    "C57_hasattr_never_false",
    "C57_attrs_written",
    "C57_attrs_read",
    "C57_optional_attribute_refuted"
   ],
   "note": "own is an arbitrary set of names: which names normal lookup finds is Python's business. Writes through GetattrChildren are plain Python attributes and not modelled."
  },
  {
   "property": "C58",
   "status": "proved",
   "theorems": [
    "C58_no_subscriber",
    "C58_added",
    "C58_adopted",
    "C58_removed",
    "C58_detached",
    "C58_created",
    "C58_set_modified",
    "C58_del_modified",
    "C58_histories",
    "C58_refusal_undoes_refuted"
   ],
   "note": "Subscribers are one function from the event to any program; nested notifications are part of that program. In C58_adopted the subscriber must not delete the object of the child."
  },
  {
   "property": "C59",
   "status": "proved",
   "theorems": [
    "C59_no_collision",
    "C59_possible",
    "C59_setitem",
    "C59_getitem",
    "C59_delitem",
    "C59_iter",
    "C59_iterkeys",
    "C59_init",
    "C59_detach",
    "C59_copy",
    "C59_deepcopy",
    "C59_invalidate",
    "C59_setdefault",
    "C59_undisturbed"
   ],
   "note": "The rules of plumber and the table of declarations are trusted to be read correctly; what each hook and body does is the model's."
  },
  {
   "property": "C60",
   "status": "proved",
   "theorems": [
    "C60_undisturbed",
    "C60_dict_changed",
    "C60_odict_follows",
    "C60_odict_adds",
    "C60_ended",
    "C60_keys",
    "C60_values_and_items",
    "C60_deleting"
   ],
   "note": "Iterators of dict and odict are modelled after CPython and odict; the generator of Alias is C69; the static iterators of ChildFactory and FixedChildren are not included."
  },
  {
   "property": "C61",
   "status": "proved",
   "theorems": [
    "C61_blocks_run_in_turn",
    "C61_inside_alone",
    "C61_invariant",
    "C61_node_calls",
    "C61_node_calls_whole",
    "C61_counting",
    "C61_first_use_refuted"
   ],
   "note": "TreeLock steps with arbitrary data and code; first use of a lock refuted by a lost update."
  },
  {
   "property": "C62",
   "status": "proved",
   "theorems": [
    "C62_same_for_nodes",
    "C62_calls_anything_refuted",
    "C62_arguments_decoded_refuted",
    "C62_arguments_plain",
    "C62_nothing_called"
   ],
   "note": "the unsafe reading and the undecoded arguments are findings (refuted expectations); agreement with the decoder of C30-C32 proved for every text that decoder settles"
  },
  {
   "property": "C63",
   "status": "proved",
   "theorems": [
    "C63_separate_trees",
    "C63_new_objects_separate",
    "C63_old_nodes_kept",
    "C63_detached_separate_refuted",
    "C63_shallow_copy_separate_refuted"
   ],
   "note": "nodes inside of lists and dicts that are held as values are assumed to exist (sound); reach guarantees it of all other references"
  },
  {
   "property": "C64",
   "status": "proved",
   "theorems": [
    "C64_lock_prevents_deepcopy",
    "C64_deepcopy_without_lock",
    "C64_locked_for_good",
    "C64_own_lock_each",
    "C64_copy_takes_lock",
    "C64_getattr_children_refuted"
   ],
   "note": "that no class of the library has an attribute _treelock of its own, and that copy.deepcopy of an RLock raises TypeError, are read off the code and Python"
  },
  {
   "property": "C65",
   "status": "proved",
   "theorems": [
    "C65_reports",
    "C65_adopting_passes",
    "C65_fresh",
    "C65_place",
    "C65_restores_refuted",
    "C65_used_node_refuted",
    "C65_passing_suffices_refuted"
   ],
   "note": "Contexts and child classes made of storage, adoption, validation and passive behaviors (no Nodespaces, Reference, Alias); Node and OrderableNode by closed computation (C65_shipped)."
  },
  {
   "property": "C66",
   "status": "proved",
   "theorems": [
    "C66_copy_fails",
    "C66_copy_without",
    "C66_deepcopy_fails",
    "C66_deepcopy_without",
    "C66_order_exists",
    "C66_sibling_refuted"
   ],
   "note": "Nodes whose classes are made of the tree behaviors; the contents of the copy module are stated in AttrCopy.v."
  },
  {
   "property": "C67",
   "status": "proved",
   "theorems": [
    "C67_concert",
    "C67_others",
    "C67_order_irrelevant"
   ],
   "note": "Classes of mapping behaviors with or without Cache and with an invalidator (as in C21); caches up to date at the start."
  },
  {
   "property": "C68",
   "status": "proved",
   "theorems": [
    "C68_history",
    "C68_both_ways",
    "C68_as_in_dict",
    "C68_attribute_access_refuted"
   ],
   "note": "The attributes node is of mapping behaviors (with or without Cache; no AttributesLifecycle); what a dispatch does is C34-C37."
  },
  {
   "property": "C69",
   "status": "proved",
   "theorems": [
    "C69_undisturbed",
    "C69_dict_changed",
    "C69_odict_follows",
    "C69_ended",
    "C69_keys"
   ],
   "note": "One Alias before the iterator of a storage; C69_odict_follows needs an aliaser that gives no name twice."
  },
  {
   "property": "C70",
   "status": "proved",
   "theorems": [
    "C70_forever",
    "C70_answers",
    "C70_loop",
    "C70_keys"
   ],
   "note": "The children are those of C25. The shallow copy of copy.py shares _children with the original (C42) and is not an operation of these histories; assigning to the private _children is not modelled."
  },
  {
   "property": "C71",
   "status": "proved",
   "theorems": [
    "C71_reads",
    "C71_caching",
    "C71_order",
    "C71_cache_refuted",
    "C71_factory_refuted"
   ],
   "note": "No ChildFactory, and no Fallback right of Cache in any class of the tree; without these conditions it is refuted by C71_cache_refuted and C71_factory_refuted (findings). C71_reads: trees without Cache, nothing that can be seen changes (names, parents, classes, entries, nodespaces, cached and fixed children, uuids, indexes, the event log). C71_caching: with Cache, only the caches change."
  },
  {
   "property": "C72",
   "status": "proved",
   "theorems": [
    "C72_arrange",
    "C72_move",
    "C72_back",
    "C72_arrange_reference",
    "C72_move_reference",
    "C72_subtree_refuted"
   ],
   "note": "with Reference for children without children; for subtrees the lookup by uuid fails afterwards (C72_subtree_refuted, C14)"
  }
 ]
}