{"claims": [
  {"property": "C01", "status": "proved", "theorems": ["C01_streams_are_byte_arrays", "C01_streams_are_byte_arrays_from"], "note": "Quantifies over all finite operation lists from a new file of either sector size (StreamRun.run over StreamInit.fresh) or any state satisfying R.  The run may stop with Overflow, which the model raises only where a table would pass 2^32-6 entries (grow_fat, grow_minifat); one handle per stream (two handles: C27). Growth by truncate leaves the new bytes unspecified here (C04)."},
  {"property": "C02", "status": "proved", "theorems": ["C02_streams_isolated"], "note": "Any operations on other streams, including create, remove and reset, leave the bytes of stream j unchanged."},
  {"property": "C03", "status": "proved", "theorems": ["C03_threshold_class", "C03_crossing_keeps_content"], "note": "Storage class is a function of the size, the chain has exactly ceil(size/sector) sectors, so nothing is leaked or lost on crossing; content and cursor by C01."},
  {"property": "C04", "status": "partial", "theorems": ["C04_truncate_grow_zero_refuted", "C04_truncate_partial"], "note": "The property is false of the code: truncate to a larger size shows stale bytes of the last sector or of reused sectors (witness). Proved instead: requested length and old prefix."},
  {"property": "C05", "status": "proved", "theorems": ["C05_sectors_owned_once"], "note": "Ownership is total: every table entry is in exactly one list or is a FAT/DIFAT/range-lock mark."},
  {"property": "C06", "status": "proved", "theorems": ["C06_reserved_sectors", "C06_full_table_grows"], "note": ""},
  {"property": "C07", "status": "proved", "theorems": ["C07_mini_sector_backed"], "note": "From a new file; reopened files through the invariant R (C25)."},
  {"property": "C08", "status": "proved", "theorems": ["C08_chain_exact", "C08_chain_distinct_in_table", "C08_chain_special"], "note": "Two-pointer loop of get_fat_chain over arbitrary tables."},
  {"property": "C09", "status": "proved", "theorems": ["C09_round", "C09_refused", "C09_reencode"], "note": "header codec of write_header/read_header (cfb.py 1240-1349)"},
  {"property": "C10", "status": "proved", "theorems": ["C10_tables", "C10_reachable"], "note": "general over all tables that fit their sectors, incl. rows beyond the header; hypothesis shown to hold in every reachable state"},
  {"property": "C11", "status": "proved", "theorems": ["C11_set", "C11_image", "C11_any_order", "C11_refused", "C11_blank", "C11_modify_time_refuted", "C11_zero_class_refuted", "C11_sid_mark_refuted"], "note": "From any 128-byte image with a name length of at most 64: every listed field reads back as set, the others keep their values, in any order of assignments, and the image alone decodes to the same fields. Outside the listed fields: modify_time has a setter that always raises; the zero AUID and sector number 0xFFFFFFFF are accepted but read back as None."},
  {"property": "C12", "status": "proved", "theorems": ["C12_round", "C12_refused", "C12_nul_refuted", "C12_read"], "note": "Round trip for all names of at most 32 UTF-16 units without NUL over any previous image; longer names raise AssertionError. A name containing NUL (excluded by the property) is cut in the image."},
  {"property": "C13", "status": "proved", "theorems": ["C13_cached_read_is_current", "C13_cache_coherent"], "note": "Directory flushes are covered in C14."},
  {"property": "C14", "status": "partial", "theorems": ["C14_updates_kept_partial", "C14_flushed_partial", "C14_readonly_refuted", "C14_blank_partial"], "note": "Proved for files open for writing: any interleaving of accesses, setters, creations, removals, dropped references, collections, flushes, directory growth and other sector traffic answers as a map from ids to 128-byte strings. In read-only mode the property is false: mark_modified returns early, so a set field is lost when the object is collected (C14_readonly_refuted)."},
  {"property": "C15", "status": "proved", "theorems": ["C15_lru_is_recency_list", "C15_lru_no_stale_value", "C15_lru_retains_recent", "C15_lru_bounded"], "note": "Pointer-level model of LRUCacheDict; capacity is size+1 nodes as in the code."},
  {"property": "C16", "status": "proved", "theorems": ["C16_new_ids_are_fresh"], "note": ""},
  {"property": "C17", "status": "proved", "theorems": ["C17_add_child", "C17_after_removals_refuted"], "note": "Proved for trees with black root and no red-red pair (in particular red-black trees). C17_after_removals_refuted: outside that, after removals, insertion can fail and lose the folder."},
  {"property": "C18", "status": "proved", "theorems": ["C18_remove_child"], "note": ""},
  {"property": "C19", "status": "partial", "theorems": ["C19_removal_unbalances_refuted"], "note": "The property is false of the code: removing an entry can leave unequal black counts (the wrong sibling is taken at line 912). That removal keeps search order and a black root is in C18."},
  {"property": "C20", "status": "partial", "theorems": ["C20_namespace_partial", "C20_namespace_any_partial", "C20_growing_partial", "C20_doubled_slash_refuted", "C20_after_removals_refuted"], "note": "The property is false of the code: a doubled slash hides an existing entry from create, and after some removals a creation fails inside insert and the folder loses its children. Proved: every history of find, exists, listdir, create, makedirs, touch, remove, move and rmtree over clean paths and names that do not differ only by case refines the tree of names up to a failure inside the tree code, which needs an earlier removal or move."},
  {"property": "C21", "status": "partial", "theorems": ["C21_move_partial", "C21_move_done_partial", "C21_into_itself_refuted", "C21_long_name_refuted", "C21_depth_refuted"], "note": "The property is false of the code for a destination inside the source, for a new name the format cannot hold, and for destinations deeper than the cache of listings. Proved for every other move, up to a failure inside the tree code, which is excluded for balanced folders and different parents."},
  {"property": "C22", "status": "partial", "theorems": ["C22_rmtree_partial", "C22_root_refuted"], "note": "The property is false of the code for the root: everything is released, then the call fails and a stale listing stays. Proved for every other path. The release of a sector chain is recorded as a call of free_fat_chain; what that does is C10."},
  {"property": "C23", "status": "partial", "theorems": ["C23_order_partial", "C23_removable_partial", "C23_case_variant_refuted"], "note": "The property is false of the code: case variants are accepted, and removing one can fail inside pop. Proved: strict order and removability for every stored tree, which every legal history (C20) gives."},
  {"property": "C24", "status": "partial", "theorems": ["C24_path_find_partial", "C24_clean_partial", "C24_root_name_refuted"], "note": "The property is false of the code below a storage called Root Entry. Proved for all other entries of every stored tree. The model gives an entry that is read again the same parent attribute."},
  {"property": "C25", "status": "proved", "theorems": ["C25_same_file", "C25_sessions", "C25_content"], "note": "any number of close/reopen sessions refine byte strings and entry fields"},
  {"property": "C26", "status": "proved", "theorems": ["C26_scan", "C26_file_end", "C26_nothing_lost"], "note": "scan and end of file for any tables; all chains kept in every reachable state"},
  {"property": "C27", "status": "partial", "theorems": ["C27_two_handles_refuted"], "note": "The property is false of the code: a second handle keeps the old sector list and overwrites another stream (witness). With one handle per stream C02 holds."},
  {"property": "C28", "status": "proved", "theorems": ["C28_roundtrip"], "note": "Distinct property ids and known storage formats, which property_entries guarantees."},
  {"property": "C29", "status": "proved", "theorems": ["C29_refuses"], "note": "Exact: saving succeeds if and only if every field fits; otherwise the stream keeps its old bytes."},
  {"property": "C30", "status": "partial", "theorems": ["C30_list_partial", "C30_loaded_partial", "C30_negative_refuted", "C30_insert_past_end_refuted", "C30_insert_negative_refuted", "C30_insert_new_refuted", "C30_insert_attached_refuted", "C30_extend_twice_refuted"], "note": "The property is false of the code for indices before the first element (element 0 is used instead of IndexError) and, beyond the statement, for insert at negative or too large indices, into a property its owner does not have yet, or of an attached object. Every other history agrees with a list, including attaching and detaching the owner, weak cache entries disappearing, and refusals."},
  {"property": "C31", "status": "proved", "theorems": ["C31_distinct"], "note": "For all histories with any arguments, also when operations raise; names compared in upper case."},
  {"property": "C32", "status": "proved", "theorems": ["C32_vector", "C32_vector_total", "C32_set", "C32_weak_array", "C32_weak_value", "C32_key_size_refuted", "C32_set_total", "C32_weak_array_total", "C32_weak_value_total", "C32_set_exact"], "note": "Keys have the size recorded in the index; C32_key_size_refuted shows what happens otherwise."},
  {"property": "C33", "status": "proved", "theorems": ["C33_map", "C33_loaded", "C33_locals"], "note": "Objects put into the set have a unique key; SKey on a member of a set that is not part of the file and swaps onto a present key are C34. C33_nokey_extend records what an object without key does to extend."},
  {"property": "C34", "status": "partial", "theorems": ["C34_swap_partial", "C34_assign_partial", "C34_collision_refuted", "C34_unattached_refuted"], "note": "The property is false of the code: changing an id to one already present drops the other object, and while the set is not part of the file the set keeps the old id. Proved for ids no other object of the set has."},
  {"property": "C35", "status": "proved", "theorems": ["C35_index", "C35_stable", "C35_table"], "note": ""},
  {"property": "C36", "status": "partial", "theorems": ["C36_length_partial", "C36_fits_partial", "C36_distinct_partial", "C36_all_distinct_partial", "C36_weak_vector_refuted"], "note": "The property is false of the code for weak reference vectors added through add_typedef_weakref_vector_property (made for 32 characters instead of 22); proved for every other name, also under the case-insensitive comparison of the directory. Lengths are counted in characters, so names with characters outside the BMP are not covered."},
  {"property": "C37", "status": "proved", "theorems": ["C37_int_meaning", "C37_auid_roundtrips", "C37_auid_of_int", "C37_auid_of_hex", "C37_auid_order", "C37_short_auid_refuted", "C37_hex_refused"], "note": "All forms of all 16-byte identifiers convert losslessly; C37_short_auid_refuted records that text with blanks is accepted and gives fewer than 16 bytes."},
  {"property": "C38", "status": "proved", "theorems": ["C38_mobid_roundtrips", "C38_mobid_of_int", "C38_dict_roundtrip", "C38_setters", "C38_mobid_order", "C38_int_wraps", "C38_int_refuted"], "note": "All 32-byte identifiers; C38_int_wraps/C38_int_refuted record that integers outside 256 bits are truncated instead of refused. Dictionaries with missing keys are not modelled."},
  {"property": "C39", "status": "partial", "theorems": ["C39_urn_roundtrip_iff_partial", "C39_urn_roundtrip_partial", "C39_urn_refuted", "C39_length_partial"], "note": "The property is false of the code: C39_urn_roundtrip_iff_partial gives exactly the identifiers for which it holds, C39_urn_refuted a counterexample."},
  {"property": "C40", "status": "proved", "theorems": ["C40_int_roundtrip", "C40_int_refused", "C40_int_decode_total", "C40_bool", "C40_size_refused"], "note": "All four sizes, signed and unsigned; encode refuses exactly the values out of range, decode accepts exactly the buffers of the right size and inverts encode both ways."},
  {"property": "C41", "status": "partial", "theorems": ["C41_int_array_roundtrip_partial", "C41_array_roundtrip_partial", "C41_set_roundtrip_partial", "C41_fixed_int_array_partial", "C41_fixed_array_refuted", "C41_fixed_array_full_partial", "C41_fixed_too_many_partial", "C41_fixed_empty_partial", "C41_uuid_array_refuted", "C41_fixed_read_partial"], "note": "The property is false of the code for fixed arrays: encode pads one element too many, so integer fixed arrays read back one element longer (C41_fixed_int_array_partial gives the exact result) and the built-in array of 16 byte identifiers is corrupted. Proved for variable arrays and sets of any element type, and for full fixed arrays of non-integer elements."},
  {"property": "C42", "status": "partial", "theorems": ["C42_string_roundtrip_partial", "C42_string_nul_partial", "C42_string_refused_partial", "C42_string_array_roundtrip_partial", "C42_string_array_refuted"], "note": "Strings proved, with the exact treatment of NULs and surrogates. The property is false of the code for string arrays of the built-in type: the encoder tests for the type name Character while the built-in type is named aafCharacter; proved for a type so named."},
  {"property": "C43", "status": "proved", "theorems": ["C43_enum_names", "C43_register_keeps", "C43_boolean", "C43_extenum_names", "C43_ext_register_keeps"], "note": "Tables of any size with NUL-free names; distinct names (for extendible enumerations: distinct up to lower casing, for any lower)."},
  {"property": "C44", "status": "partial", "theorems": ["C44_value_roundtrip_partial", "C44_special_records_partial", "C44_plain_record_partial", "C44_time_fraction_refuted", "C44_no_date_partial"], "note": "Proved by induction over all types of any nesting, and instantiated at the built-in date, time, timestamp, rational, AUID and MobID records. The property is false of the code for times with a fraction of a second, which is dropped."},
  {"property": "C45", "status": "proved", "theorems": ["C45_rational_unreduced", "C45_rational_quotient", "C45_rational_zero", "C45_rational_stored"], "note": "Construction from integers and rationals and 32 bit storage, including the exact result for zero denominators; construction from floats, decimals and strings is not modelled."},
  {"property": "C46", "status": "partial", "theorems": ["C46_lookup_partial", "C46_add_sorted_partial", "C46_history_sorted_partial", "C46_add_before_first_refuted", "C46_rounding_refuted", "C46_value_at_partial"], "note": "The property is false of the code: a keyframe before the first one is always inserted second, and a time given as an exact rational whose double is larger is inserted beside the existing point. Proved: the lookup on increasing points, insertion at any time not before the first (and any history of such insertions), constant and linear evaluation in exact arithmetic."},
  {"property": "C47", "status": "partial", "theorems": ["C47_positions_partial", "C47_positions_count_partial", "C47_slot_length_partial", "C47_nested_length_refuted", "C47_index_partial", "C47_index_unique_partial", "C47_index_transition_partial", "C47_index_outside_partial", "C47_boundary_refuted"], "note": "The property is false of the code at cuts (the component that ends there is returned) and for nested scopes (length 0). Proved: positions are running sums; the component found covers the time, with intervals open on the left, for all sequences whose transitions fit the component before them."},
  {"property": "C48", "status": "partial", "theorems": ["C48_chosen_partial", "C48_fresh_iff_partial", "C48_refuted", "C48_automatic_partial", "C48_explicit_partial", "C48_slot_at_partial"], "note": "The property is false of the code: the loop never stops at the first gap, so the id is always the slot count plus one and can collide. Proved: the exact id chosen, when it is unused, that automatic numbering alone never collides, and that given ids are refused exactly when in use."},
  {"property": "C49", "status": "partial", "theorems": ["C49_terminates_iff_partial", "C49_dependencies_partial", "C49_cycle_refuted"], "note": "The property is false of the code on cyclic reference graphs: the traversal never ends (C49_cycle_refuted, for every cycle). Proved: it ends exactly on graphs without an infinite chain from the mob, and then the report is complete, without repetition and in dependency order."},
  {"property": "C50", "status": "partial", "theorems": ["C50_fresh_partial", "C50_history_partial", "C50_exhausted_refuted"], "note": "The property is false of the code after all 32768 ids are used: ids below 0x8000 are handed out. Proved for every history of at most 32767 registrations."},
  {"property": "C51", "status": "partial", "theorems": ["C51_accepts_partial", "C51_answers_partial", "C51_key_size_partial", "C51_key_size_refuted"], "note": "The acceptance check is proved for all hierarchies. The related key size query is asked the wrong way round (32 for the ancestors of Mob, 16 for its subclasses): refuted, with the exact result proved."},
  {"property": "C52", "status": "proved", "theorems": ["C52_scan", "C52_terminates", "C52_decode"], "note": "Scan of encoded packets in every BER form, converse, and termination on every byte string. Files below 2^63 bytes (seek overflow is modelled)."},
  {"property": "C53", "status": "partial", "theorems": ["C53_items_partial", "C53_terminates_partial", "C53_decode_partial", "C53_primer_partial", "C53_empty_refuted", "C53_overrun_refuted"], "note": "The property is false of the code for items with an empty value, which are dropped, and for values that overrun the set. Exact for all other items; the parser always ends; the primer pack round trips."},
  {"property": "C54", "status": "partial", "theorems": ["C54_round_refuted", "C54_round_partial", "C54_zero_partial", "C54_header_refuted"], "note": "The property is false of the code: off-grid positions give pos + kag, which is not on the grid. The exact error is proved."},
  {"property": "C55", "status": "partial", "theorems": ["C55_frame_size_partial", "C55_frames_partial", "C55_any_partial", "C55_prefix_partial", "C55_truncated_refuted"], "note": "The property is false of the code for a last frame cut by the end of the stream, which is yielded short. Everything else is proved for all byte streams."},
  {"property": "C56", "status": "proved", "theorems": ["C56_wave", "C56_aifc", "C56_terminates", "C56_sound"], "note": "Chunks padded to even length; both scans end on every byte string."},
  {"property": "C57", "status": "partial", "theorems": ["C57_freesect_partial", "C57_endofchain_refuted"], "note": "The property is false of the code: decode_sid maps only 0xFFFFFFFF to None, so a stream whose empty chain is stored as ENDOFCHAIN never gets the sector of its first write recorded, and after close and reopen the data cannot be read (C57_endofchain_refuted). Proved for every state of a file this library wrote, where the empty chain is FREESECT."},
  {"property": "C58", "status": "proved", "theorems": ["C58_indirect_roundtrip", "C58_chosen"], "note": "Any type lookup, any type chosen or given, any value of that type."},
  {"property": "C59", "status": "partial", "theorems": ["C59_classes", "C59_aliases", "C59_lookups", "C59_type_names", "C59_types", "C59_formats", "C59_paths", "C59_ref_class", "C59_value_types", "C59_enums", "C59_ext_enums", "C59_keys_partial", "C59_keyless_refuted", "C59_subclass_key_refuted", "C59_position_array_refuted"], "note": "Proved for the base model and the model with extensions: classes, chains, properties, types, weak-reference paths (each followed from the root to a set of the right class), enumerations, and the keys of all set types but one. The property is false of the code for the set of DescriptiveObjects, whose class has no unique key. Also shown: the key size of a class below Mob is computed as 16 though its key has 32 bytes, and aafPositionArray holds bytes. The tables are finite, so these are evaluated in the kernel for every entry."},
  {"property": "C60", "status": "partial", "theorems": ["C60_lookups_agree", "C60_registered_stays", "C60_dynamic_ids", "C60_own_name", "C60_new_class", "C60_new_name_refuted", "C60_same_name_refuted", "C60_given_id_refuted", "C60_stored", "C60_alias", "C60_alias_unknown", "C60_new_type", "C60_known_enum", "C60_known_ext_enum", "C60_again"], "note": "Proved for every sequence of registrations whose dynamic ids are left to the library. The property is false of the code in three places: renaming a known class raises KeyError, a new identifier under a known name silently returns the old class, and an explicit id of 0x8000 or above is not checked."},
  {"property": "C61", "status": "partial", "theorems": ["C61_lookups_agree", "C61_class_arrives", "C61_nothing_lost", "C61_new_property", "C61_type_partial", "C61_type_name_refuted", "C61_set_refuted", "C61_weak_refuted", "C61_record_refuted", "C61_self_refuted", "C61_enum_merged", "C61_parts"], "note": "The property is false of the code for names of copied types, records, set types, weak references with a path, and classes that refer to themselves. Proved for every pair of dictionaries reached by registrations and copies: lookups stay consistent, nothing is lost, classes and properties arrive with their attributes, and a copied type has the identifier and kind of the original."},
  {"property": "C62", "status": "proved", "theorems": ["C62_by_id", "C62_by_identifier", "C62_by_name", "C62_no_name", "C62_required", "C62_format"], "note": "For every dictionary built by registration and every class whose chain has distinct ids, names and identifiers, as C59_classes shows for the built-in model. Not modelled: the propertydef cache of a Property object."},
  {"property": "C63", "status": "proved", "theorems": ["C63_roundtrip", "C63_library", "C63_saves"], "note": "Directories and objects are trees; names, data and index streams as in the code. Sizes must fit their fields (2^32 elements, 65536 properties)."},
  {"property": "C64", "status": "partial", "theorems": ["C64_same", "C64_other", "C64_popped_refuted", "C64_foreign_refuted", "C64_weak_key_refuted", "C64_empty_set_refuted", "C64_empty_weak_refuted", "C64_empty_vector_refuted", "C64_missing_target_refuted"], "note": "The property is false of the code in seven ways, each with a witness. Proved: copies within a file of objects whose vectors had nothing removed, and copies to another file of objects without empty sets and weak reference arrays and without empty vectors whose name differs there. Not modelled: copying into a given directory, and copying the target of a single weak reference."},
  {"property": "C65", "status": "partial", "theorems": ["C65_session", "C65_effect", "C65_stream_effect", "C65_detach", "C65_removed", "C65_removes", "C65_new_tidy", "C65_saves", "C65_stream_refuted", "C65_insert_refuted", "C65_unloaded_refuted", "C65_none_refuted"], "note": "Proved for all sessions whose arguments fit and in which a stream is first opened on an object that is marked as modified; taking out what is there and saving never fail (C65_removes, C65_saves). The property is false of the code in general: StreamProperty.open does not mark the object as modified, so a stream property opened on a saved object is lost (C65_stream_refuted); insert into a vector without entry is lost (C65_insert_refuted); replacing an object that has a stream fails when it is not in memory or the reference was set to None before (C65_unloaded_refuted, C65_none_refuted)."},
  {"property": "C66", "status": "partial", "theorems": ["C66_get", "C66_memory", "C66_collect", "C66_kept", "C66_save", "C66_save_fails", "C66_readonly", "C66_set_ref", "C66_none_refuted", "C66_forgotten_refuted"], "note": "Proved for all histories in which an object is attached only where no other object is attached. The property is false of the code in general: the setter of a reference detaches only the object its weak reference knows, so after value = None, or when the property was read again while the program kept the object, the old object stays attached to the same storage and its changes are saved instead of the new object (C66_none_refuted, C66_forgotten_refuted). What an object holds is one value; how objects hang together is C65."},
  {"property": "C67", "status": "partial", "theorems": ["C67_file", "C67_by_id", "C67_by_other_id", "C67_built_in", "C67_kept", "C67_ids", "C67_stored", "C67_opens", "C67_char", "C67_register", "C67_extensions", "C67_registered", "C67_modes", "C67_alias_refuted", "C67_extensions_refuted", "C67_by_id_refuted", "C67_opens_refuted", "C67_file_refuted", "C67_claim_refuted", "C67_types_refuted", "C67_renamed_refuted"], "note": "The property is false of the code in corner cases, each with a witness: other names of replaced classes are stale, extensions can displace a file's class or type or fail, stale entries of renumbered ids, files with the generic character class but without the built-in character type, explicit ids equal to kept ones. Proved for all sound files otherwise: the file's definitions are kept exactly, built-in ones up to dynamic ids that the file uses, lookups by other ids are right, ids are distinct also after registrations and the extensions, everything is stored, opening succeeds with up to 32000 dynamic ids. What the file stores is given as lists of definitions; reading the objects is C63."},
  {"property": "C68", "status": "partial", "theorems": ["C68_accepts", "C68_refused", "C68_set", "C68_dangling", "C68_found", "C68_saved", "C68_array", "C68_assign", "C68_array_accepts", "C68_array_refused", "C68_again", "C68_item_missing", "C68_array_form", "C68_builtin", "C68_types", "C68_unattached_refuted", "C68_iterator_refuted", "C68_duplicate_refuted", "C68_property_refuted", "C68_classes_refuted", "C68_interchange_refuted"], "note": "The property is false of the code in these cases, each with a theorem: an object that is in no set is accepted and reading the reference is then a KeyError; extend with an iterator adds nothing; sets take duplicates; references to property definitions never resolve; the constant for class definitions is the identifier of InterchangeObject. Proved otherwise for all trees, tables and types: set-then-read for single references, arrays and assignment, under any later table and tree and after saving and reading, the refusals, that nothing else is found, and that every built-in reference type meets the hypotheses. The saved case of arrays follows from C63 and C68_array and is not stated."},
  {"property": "C69", "status": "partial", "theorems": ["C69_by_id", "C69_by_name", "C69_by_object", "C69_register", "C69_update", "C69_update_iff", "C69_update_again", "C69_copied", "C69_operation_refuted", "C69_empty_refuted", "C69_name_refuted", "C69_unnamed_refuted", "C69_plugin_refuted", "C69_foreign_refuted"], "note": "The property is false of the code in these cases, each with a theorem: the parameters of an operation that is in both dictionaries are not merged, the update raises; an empty array of parameters makes it raise if there is no set of parameter definitions; a definition hidden by an earlier one of the same short name is not found by its name; the empty name finds a definition without a name; plugin definitions cannot be registered; an object of another file is returned as found. Proved otherwise for all dictionaries: lookups, registration, the exact result and soundness of the merge, an equivalence for its success, and that a second merge changes nothing."},
  {"property": "C70", "status": "partial", "theorems": ["C70_walk", "C70_raises", "C70_going", "C70_stops_iff", "C70_begins", "C70_cycle_refuted", "C70_offset_refuted", "C70_cut_refuted", "C70_transition_refuted"], "note": "The property is false of the code in these cases, each with a theorem: cyclic references are followed for ever; how far into a clip the walk is gets lost, so it leaves the point of time; at a cut the clip that ends there is taken; within a transition it fails. Proved otherwise for all contents with sequences without transitions and negative lengths: what it yields is exactly the chain, it raises exactly where a clip cannot be followed, it stops if and only if the chain is finite, and it stays at the point of time if the clips start at their beginning."},
  {"property": "C71", "status": "partial", "theorems": ["C71_read", "C71_set", "C71_history", "C71_refused", "C71_types", "C71_half_refuted", "C71_none_refuted", "C71_nul_refuted", "C71_append_refuted"], "note": "The property is false of the code in these cases, each with a theorem: an assignment of a value that cannot be stored leaves a new name behind, without a value; None takes the value away but not the name; a name with NUL in it is cut and not found again; append takes a name that is there. Proved otherwise for all lists and all sequences of assignments of text without NUL, 32-bit integers and fractions: the map, the order of names, and that a failing assignment to a name that is there changes nothing."},
  {"property": "C72", "status": "partial", "theorems": ["C72_refs", "C72_rational", "C72_line_map", "C72_line_map_size", "C72_layout", "C72_time", "C72_mob", "C72_reverse", "C72_name", "C72_tagged", "C72_refs_refuted", "C72_rational_refuted", "C72_time_refuted", "C72_mob_refuted"], "note": "The property is false of the code in these cases, each with a witness: references that are missing at the end read as None instead of an error, negative numerators and denominators read as large numbers, a UMID with a half swapped material number and another one read as the same MobID, invalid times read as the present time and the fraction of a second is lost. Proved for all other inputs. The rational is the pair of numbers rather than the text made of them; decode_datadef's table is not modelled."}
]}
