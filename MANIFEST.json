{"claims": [
 {"property": "C01", "status": "proved", "theorems": ["C01_next_unpadded", "C01_next_padded", "C01_next_all_strings", "C01_parse_next", "C01_parse_all_strings", "C01_first", "C01_first_out_of_range"], "note": "names ending in one newline are accepted by the regex and covered by C01_next_all_strings"},
 {"property": "C02", "status": "proved", "theorems": ["C02_numbering", "C02_earlier_blocks", "C02_limit"], "note": "The limit is 10^(w-1)-1 versions for padded names; unpadded, 100000 versions can be added (the last name has six digits) and the next call fails."},
 {"property": "C03", "status": "proved", "theorems": ["C03_make_unused_filepath"], "note": ""},
 {"property": "C04", "status": "proved", "theorems": ["C04_flat_direct", "C04_flat_direct_unique"], "note": ""},
 {"property": "C05", "status": "proved", "theorems": ["C05_shape", "C05_total", "C05_unique", "C05_not_nested", "C05_exact", "C05_encoded"], "note": "hash output format is a hypothesis (hash_ok); C05_exact says the name character by character"},
 {"property": "C06", "status": "partial", "theorems": ["C06_reversible", "C06_unique", "C06_safe_partial", "C06_safe_refuted", "C06_exact"], "note": "identifiers '.' and '..' are accepted and name the storage root and its parent (refuted); all others are safe; C06_exact says which name each identifier gets"},
 {"property": "C07", "status": "partial", "theorems": ["C07_accepts_partial", "C07_shape", "C07_unique_partial", "C07_unique_refuted", "C07_not_nested"], "note": "an identifier followed by one newline is accepted and shares the path of the one without (refuted); otherwise unique"},
 {"property": "C08", "status": "partial", "theorems": ["C08_shape", "C08_unique", "C08_nested_exactly_partial", "C08_not_nested_refuted"], "note": "object paths can be nested (refuted); the exact condition is proved; the pairtree encoder is a parameter"},
 {"property": "C09", "status": "partial", "theorems": ["C09_0003_accepts", "C09_tuple_tree_accepts", "C09_uuid_accepts", "C09_only_layout_exceptions", "C09_config_roundtrip", "C09_accepted_params_ok", "C09_no_params_refuted"], "note": "proved for all layouts with parameters; layouts without parameters raise AttributeError on any configuration (refuted)"},
 {"property": "C10", "status": "partial", "theorems": ["C10_partial", "C10_structure", "C10_succeeds", "C10_written", "C10_tuple_tree_refuted"], "note": "C10_partial holds for every registered layout but the tuple tree, whose written name is not registered, so that its storage roots cannot be opened again (C10_tuple_tree_refuted). For the uuid quadtree the prefix must be text without pairs of surrogates. C10_succeeds says when initialize succeeds, C10_written which files it writes."},
 {"property": "C100", "status": "partial", "theorems": ["C100_codes", "C100_text", "C100_table", "C100_link_refuted"], "note": "Full for the classes Code and Codes. Refuted for the links: the slash after the directory is missing, so that no link is to the file. How lines are matched and the output file are not modelled."},
 {"property": "C11", "status": "proved", "theorems": ["C11_blocks_irrelevant", "C11_file_digest"], "note": ""},
 {"property": "C12", "status": "partial", "theorems": ["C12_digest_matches_regex_partial", "C12_sha512_spec_ex_refuted"], "note": "holds for every type except sha512-spec-ex, whose computed digest never matches its own regex (refuted)"},
 {"property": "C13", "status": "partial", "theorems": ["C13_files_identical", "C13_missing", "C13_never_true", "C13_true", "C13_through_file_refuted", "C13_directory_refuted"], "note": "For two existing files: True exactly when the bytes are equal, and a missing name gives FileNotFoundError. Refuted beyond that: the same directory given twice gives True although there is no file, and a name below a plain file gives NotADirectoryError, not FileNotFoundError. Local file systems only."},
 {"property": "C14", "status": "partial", "theorems": ["C14_copydir", "C14_when", "C14_kept", "C14_refused", "C14_file_in_the_way", "C14_trailing_slash_refuted", "C14_copy_onto_itself_refuted", "C14_copyfile", "C14_copyfile_interrupted"], "note": "Full statement for a source path not written with a slash at the end; success exactly for a source tree of plain files and a destination not below a plain file, and what there was is kept also if copying fails or is interrupted. Refuted with a slash at the end (an empty destination is left behind). Empty directories are not copied. One file: when copying succeeds, what it changes, and what is left if it is interrupted. Local, link-free file systems without I/O errors."},
 {"property": "C15", "status": "partial", "theorems": ["C15_walk_files", "C15_walk_ends", "C15_walk_dirs", "C15_trailing_slash", "C15_trailing_slash_refuted"], "note": "Full statement for every tree, every listing order and every start path not written with a slash at the end; with one, every non-empty directory raises ValueError (proved). Also proved with a consumer that prunes directories. Local, link-free file systems."},
 {"property": "C16", "status": "proved", "theorems": ["C16_add_file", "C16_unknown_version_refuted"], "note": "For versions of the inventory. For a version without block add_file raises KeyError after the manifest was changed (refuted)."},
 {"property": "C17", "status": "partial", "theorems": ["C17_delete", "C17_resolves_partial", "C17_resolves_refuted"], "note": "All but the last sentence is proved. Deleting in a version that is not the head can take away content used by later versions (witness); the partial theorem gives the condition under which nothing is lost."},
 {"property": "C18", "status": "partial", "theorems": ["C18_rename", "C18_content_partial", "C18_content_refuted"], "note": "Effect on states, manifest and failures is exact. A file added in the same version loses its content path when renamed (witness)."},
 {"property": "C19", "status": "proved", "theorems": ["C19_find"], "note": "For inventories whose version names have at most five digits (others raise ObjectException)."},
 {"property": "C20", "status": "proved", "theorems": ["C20_diff"], "note": "For inventories whose version names have at most five digits, with distinct numbers."},
 {"property": "C21", "status": "partial", "theorems": ["C21_normalize_partial", "C29_opened"], "note": "For valid inventories whose version names have at most five digits; with longer names normalize_digests raises, see C29_opens_refuted."},
 {"property": "C22", "status": "partial", "theorems": ["C22_exact", "C22_attributes", "C22_forced_type", "C22_sound_partial", "C22_type_refuted"], "note": "C22_exact says exactly what is accepted (lax_digests off); it differs from the specification where type is followed by junk, where text contains newlines or non-ASCII digits, and for path conflicts more than one level deep (C25)"},
 {"property": "C23", "status": "partial", "theorems": ["C22_exact", "C23_accepts_partial", "C23_date_refuted", "C23_width_refuted", "C23_newline_refuted"], "note": "false alarms: leap seconds, year 0000 and small t/z in dates, version names of more than 10 digits or more than 999999 versions, content file names starting with a newline"},
 {"property": "C24", "status": "partial", "theorems": ["C24_exact_partial", "C24_width_refuted"], "note": "exact for names of at most 10 digits and at most 999999 versions; wider names are refused"},
 {"property": "C25", "status": "partial", "theorems": ["C25_next_directory_partial", "C25_deep_refuted"], "note": "only the directory immediately above a path is compared"},
 {"property": "C26", "status": "partial", "theorems": ["C26_inside_partial", "C26_newline_refuted"], "note": "holds for content paths without newline; a newline hides the rest of the path"},
 {"property": "C27", "status": "partial", "theorems": ["C27_no_exception_partial", "C27_false_is_logged", "C27_raises_refuted"], "note": "no exception if there is a manifest, version blocks are objects and path arrays hold strings; other documents raise TypeError or AttributeError"},
 {"property": "C28", "status": "proved", "theorems": ["C28_exact", "C28_sound", "C28_no_exception"], "note": "for two inventories accepted by validate; the W011 warnings are the subject of C78"},
 {"property": "C29", "status": "partial", "theorems": ["C29_opens_partial", "C29_only_valid", "C29_opens_refuted", "C29_specification_refuted", "C29_read", "C29_read_others", "C29_read_unique", "C29_opened"], "note": "A valid inventory with version v000001 cannot be opened: parse_version_directory accepts five digits only. Proved for names of at most five digits; and only inventories that obey the rules are opened. C29_read and C29_read_unique: what the inventory that is read says about the JSON text. C29_opened: what is opened is the inventory in the file, with digests in lower case."},
 {"property": "C30", "status": "partial", "theorems": ["C30_exactly_intact", "C30_path", "C30_sound", "C30_declaration_text_refuted", "C30_stray_file_refuted"], "note": "Every item of the statement is proved (lax_digests off) but the exact content of the declaration: it is compared after dropping white space and mapping odd characters to underscores (refuted by witness). A plain file in the place of a version's content directory is accepted (refuted by witness). Local link-free file systems."},
 {"property": "C31", "status": "proved", "theorems": ["C31_same_inventory_same_content", "C31_detected"], "note": "lax_digests off; everything but the root inventory may change at the same time. Same digest means the digest of the inventory's algorithm."},
 {"property": "C32", "status": "proved", "theorems": ["C32_log", "C32_accepted_without", "C32_rejected_for_digest", "C32_intact"], "note": "C32_log, C32_accepted_without and C32_rejected_for_digest are for all options, also lax_digests. A run with checks may end with an exception instead of a result."},
 {"property": "C33", "status": "proved", "theorems": ["C33_log", "C33_log_options", "C33_validate", "C33_open_keeps", "C33_text"], "note": "The model of the validator is a function that only reads the tree, so that nothing is written is part of the modelling (each file operation of validator.py was read); C33_open_keeps proves it for the one step that could write. Message templates with only %s and %%, as in the data file. C33_text: what the text of a template with arguments is, all conversions other than %s and %% being taken as errors."},
 {"property": "C34", "status": "partial", "theorems": ["C34_created_valid_partial", "C34_empty_source_refuted", "C34_newline_refuted", "C34_content_directory_refuted", "C34_address_only_refuted", "C34_fixity_not_recorded_refuted"], "note": "Proved for every file system, source directory and setting as in create_call of ObjectSpec.v (at least one file, file names without newline unless they are normalized, a content directory not named like the inventory or sidecar). The cases left out are false, see the refuted theorems."},
 {"property": "C35", "status": "partial", "theorems": ["C35_updated_valid_partial", "C35_update_succeeds_partial", "C35_second_update_refuted"], "note": "Proved for every history of create and add_version_with_content calls (history in ObjectSpec.v), with other changes of the file system in between, also if the digest algorithm changes (then without digest collisions). Left out: names as in C34, and more than one update of an object made for version 1.0, for which the statement is false."},
 {"property": "C36", "status": "partial", "theorems": ["C36_extracted_as_added_partial", "C36_newline_refuted"], "note": "Proved for every history as in C35, every version and every free destination. False for file names that start with a newline."},
 {"property": "C37", "status": "partial", "theorems": ["C37_partial", "C37_add_version", "C37_dotdot_refuted"], "note": "Proved at every crash point for any object and any series of add, delete and rename whose source and content paths have no '..', and without any condition for add_version_with_content. False for an explicit content path with '..', which overwrites a file of an earlier version."},
 {"property": "C38", "status": "partial", "theorems": ["C38_partial", "C38_add_version_partial", "C38_empty_content_directory_refuted", "C42_json"], "note": "Proved for plain paths, the operations of C42_run_partial, an algorithm change that keeps contents apart and a content directory with a name. False for the content directory ''."},
 {"property": "C39", "status": "partial", "theorems": ["C39_stored_once_partial", "C39_once_per_version_partial", "C39_in_directory_partial"], "note": "Proved for every history as in C35, about the content files on disk and about the manifest."},
 {"property": "C40", "status": "partial", "theorems": ["C40_partial", "C40_intact", "C40_damaged_refuted"], "note": "Proved for every object and pair of algorithms if contents with different digests in the inventory have different new digests; this follows for objects with intact content files and no collisions (C40_intact). False for an object with an altered content file: digests are not checked, and logical paths are lost."},
 {"property": "C41", "status": "partial", "theorems": ["C41_sidecar_partial", "C41_other_digest_refuted", "C41_tool_refuted", "C41_tool", "C41_tool_ignored"], "note": "Proved for create and add_version_with_content (C41_sidecar_partial). False for write_new_version after start_new_version with another digest algorithm, and for the sidecar tool without --digest, which uses sha512 whatever the inventory says; C41_tool says exactly what the tool writes. build: see C47."},
 {"property": "C42", "status": "partial", "theorems": ["C42_run_partial", "C42_first_version", "C42_next_version", "C42_adds", "C42_written_partial", "C42_delete_refuted", "C42_twice_refuted", "C42_json"], "note": "Proved, up to the files after write_new_version, for runs in which no delete or rename takes content of the new version away and no source path is added twice without dedupe; both conditions are needed (witnesses). C42_json: the JSON that is written says what the inventory says."},
 {"property": "C43", "status": "partial", "theorems": ["C43_only_below", "C43_refused", "C43_inside_refuted"], "note": "At every crash point only places in the destination differ and everything that was there before is unchanged; refused with nothing changed if the destination is not empty or the version is not there. Refuted: a destination in the object directory modifies the object."},
 {"property": "C44", "status": "partial", "theorems": ["C44_partial", "C44_missing", "C44_only_file", "C44_as_added_partial", "C44_overwrites_refuted", "C44_onto_itself_refuted"], "note": "The file is written with the content of its digest, for objects of this library with the bytes that were added; a missing path raises ObjectException. Hypothesis: the destination file is not one of the content files of that digest. Refuted: an existing file of the same name is overwritten, and extraction onto the content file destroys it."},
 {"property": "C45", "status": "partial", "theorems": ["C45_no_difference_partial"], "note": "Proved for every object with a history as in C35."},
 {"property": "C46", "status": "partial", "theorems": ["C46_never_decreases_partial", "C46_declared_partial", "C46_declaration_refuted"], "note": "Proved for every history as in C35; the second part only for version 1.1 or one version, otherwise it is false."},
 {"property": "C47", "status": "partial", "theorems": ["C47_partial", "C47_extracted_partial", "C36_listed_partial", "C47_gap", "C47_dry_run", "C47_padded_refuted", "C47_mixed_refuted", "C47_twice_refuted", "C47_none_refuted", "C47_spec_version_refuted"], "note": "Proved for source directories with v1 to vn and no other version directories: the object has exactly these versions, each with exactly the files below its directory, it is valid, extracts as it was and can be updated; gaps in the numbering fail. Missing, because false of the code: zero-padded or line-feed names (AttributeError or invalid objects), two directories for one number, no version directories, more than two versions under specification version 1.0, a first version without files."},
 {"property": "C48", "status": "proved", "theorems": ["C48_when", "C48_exact", "C48_exists", "C48_kept", "C48_failed", "C48_copy_refuted", "C48_valid_refuted", "C48_extensions_refuted", "C48_nested_refuted", "C48_interrupted_refuted"], "note": "When adding succeeds (an exact condition), what it copies and where to, that everything else is unchanged, that nothing is done if the path exists or if adding fails for an object of plain files and directories, and that what there was stays also if it is interrupted. For an instance that has not read a layout yet, and local paths. The refuted theorems are about things that could also be expected: empty directories are not copied, objects are not validated, the object 'extensions' is stored where objects are not looked for, objects can be nested with nnnn-tuple-tree, and after an interruption the object cannot be added again."},
 {"property": "C49", "status": "partial", "theorems": ["C49_partial", "C49_declaration_refuted", "C49_unlogged", "C49_unlogged_refuted"], "note": "Proved for every tree: object_paths yields exactly the directories visited with a single declaration, each once, never nested, not in extensions/. Missing: with no log and an unknown extension directory the listing raises AttributeError (C49_unlogged, C49_unlogged_refuted); names such as 0=ocfl_object_1.0.old are taken for declarations (C49_declaration_refuted)."},
 {"property": "C50", "status": "partial", "theorems": ["C50_answer", "C50_counts", "C50_partial", "C50_intact", "C50_invalid_object_refuted", "C50_history_refuted", "C50_history", "C50_raises_refuted"], "note": "The full statement is false: True is returned although objects are invalid (C50_invalid_object_refuted), errors of earlier calls count (C50_history_refuted, C50_history), and some broken roots raise an exception (C50_raises_refuted). Proved: for a new instance True together with good_objects = num_objects is returned exactly if the structure is right, nothing is misplaced and every object is valid (C50_partial)."},
 {"property": "C51", "status": "partial", "theorems": ["C51_tvalue", "C51_tvalue_chars", "C51_written_passes", "C51_find", "C51_get", "C51_crlf_refuted", "C51_exact", "C51_missing", "C51_get_nowhere"], "note": "Tag values and find_namastes as stated (directories with the tag count too). A written file passes its own check for every encodable content without \"\\r\\n\"; with \"\\r\\n\" it can fail (refuted), because text files are read with universal newlines. C51_get: get_namaste, without fsw. All others only with fsw given. C51_exact: the check passes exactly when the file is there and its text gives the tag value; C51_missing: a missing file is reported."},
 {"property": "C52", "status": "partial", "theorems": ["C52_accepts_exactly_partial", "C52_utc_value", "C52_only_ValueError", "C52_refuted"], "note": "the accepted texts are exactly the W3C forms (plus a final newline); the offset is applied with the wrong sign, so texts with a non-zero offset get the wrong instant (refuted); float rounding of fractions is not modelled"},
 {"property": "C53", "status": "proved", "theorems": ["C53_roundtrip", "C53_text"], "note": ""},
 {"property": "C54", "status": "proved", "theorems": ["C54_round_trip", "C54_others", "C54_no_created_refuted"], "note": "Without created the current time is stored instead."},
 {"property": "C55", "status": "partial", "theorems": ["C55_tags", "C55_read", "C55_partial", "C55_round_trip", "C55_create", "C55_create_refused", "C55_empty_refuted", "C55_address_refuted", "C55_raises_refuted", "C55_lines_refuted", "C55_any_value"], "note": "For any bagit that keeps the tags it is given: each value comes back as bagit gives it back, empty values and addresses that are not mailto: do not come back, values given already are not replaced. Missing: empty values are lost (refuted). bagit is a parameter; with one that drops line ends, as its format must, messages with line ends change."},
 {"property": "C56", "status": "proved", "theorems": ["C56_round_trip", "C56_unicode", "C56_identical_files", "C56_different_files", "C56_ascii", "C56_reading_total", "C56_unsorted_round_trip", "C56_surrogates_refuted", "C56_long_integer_refuted"], "note": "For all JSON data with strings of Unicode text and integers of at most 4300 digits. A Python string with a high surrogate directly before a low one (not Unicode text) does not survive. Floats are their texts; nesting limits are not modelled."},
 {"property": "C57", "status": "proved", "theorems": ["C57_content_path", "C57_uri_injective", "C57_total", "C57_hidden_below_refuted", "C57_explicit_refuted", "C57_directory", "C57_in_directory"], "note": "For relative source paths without empty, . or .. elements, as found by walking a directory. Hidden names below the top level stay hidden; explicit content paths are only checked for their prefix."},
 {"property": "C58", "status": "partial", "theorems": ["C58_directory", "C58_not_directory", "C58_too_many", "C58_too_many_refuted"], "note": "As stated for local paths without \"://\" and up to ten 0= entries. Refuted above ten: NamasteException is raised instead of a text. A special file counts as a file."},
 {"property": "C59", "status": "proved", "theorems": ["C59_recorded_digests"], "note": "lax_digests off"},
 {"property": "C60", "status": "partial", "theorems": ["C60_inside", "C60_absolute_refuted", "C60_in_directory"], "note": "Holds for plain relative paths. An absolute logical path is used as content path unchanged (witness)."},
 {"property": "C61", "status": "partial", "theorems": ["C61_spec_mismatch_refuted", "C46_declared_partial"], "note": "False: nothing compares the two; shown by an object with declaration 1.0 and inventory type 1.1 that is accepted. For the objects this library makes with version 1.1, or with one version, the two agree (C46_declared_partial)."},
 {"property": "C62", "status": "partial", "theorems": ["C62_partial", "C62_path_partial", "C62_raises_refuted", "C62_conditions_refuted"], "note": "As stated it is false: eight kinds of damaged objects for which an exception is not caught. Proved for all orderly objects (RaisesSpec.v): entries that are files or directories, at most ten 0= names, declarations that are text files, inventories that are no JSON or have a manifest, states and known fixity algorithms, digest files that are files. All else can be wrong. Not covered: lax_digests."},
 {"property": "C63", "status": "proved", "theorems": ["C30_exactly_intact"], "note": "lax_digests off; intact is the specification of ValidatorSpec.v with the inventory rules as coded (differences from the OCFL rules are in C22 to C26)."},
 {"property": "C64", "status": "partial", "theorems": ["C64_partial", "C64_upper_case_refuted", "C64_no_paths_refuted", "C64_spec_refuted"], "note": "Proved for valid objects whose inventories are written with care (OtherSpec.v: lower case digests, plain version names, no members or digest algorithms the library does not know, every digest of a state with paths) and updates with the digest algorithm of the object. Missing: updates that change the digest algorithm, other inventories. False in general: objects with digests in upper case, with digests without paths, or with an earlier inventory of a later version of the specification are valid before the update and not after it."},
 {"property": "C65", "status": "partial", "theorems": ["C65_partial", "C65_not_valid_refuted", "C65_torn_refuted"], "note": "Proved: all content of earlier versions is read as before, and the object is opened as before as long as the root inventory has not been touched. False: after the first step of the update the object is not valid and cannot be updated again, and while the root inventory is written it cannot be opened. How such an object is repaired by copying files is the subject of C88."},
 {"property": "C66", "status": "partial", "theorems": ["C66_partial", "C66_conflict_refuted"], "note": "For every accepted object (digests checked, not lax) that can be opened, if no logical path is a directory of another one and the destination is free. Refuted without that: the validator accepts logical paths a and a/b/c, extraction fails after writing a part."},
 {"property": "C67", "status": "partial", "theorems": ["C67_partial", "C67_stops", "C67_refuted"], "note": "C67_partial: with an inventory.json of JSON object shape in every object root the listing has exactly the object roots, each once, with the identifier of a valid inventory and UNKNOWN-ID for an invalid one. C67_stops: one object root that has no inventory, or one that is not JSON or is badly shaped, ends the whole listing with an exception; C67_refuted shows four such roots."},
 {"property": "C68", "status": "partial", "theorems": ["C68_found", "C48_nested_refuted", "C48_extensions_refuted", "C48_valid_refuted"], "note": "For an object with one declaration that is stored where objects are looked for: not in extensions/, and not below a directory with files. Refuted without these conditions, which add does not check."},
 {"property": "C69", "status": "partial", "theorems": ["C69_stored", "C69_exact", "C69_level_0003", "C69_level_uuid", "C69_level_flat", "C69_declaration_refuted", "C48_nested_refuted", "C48_extensions_refuted"], "note": "C69_stored: for the layout 0003 with tuples, all sequences of adds (with anything happening outside of the storage root in between). C69_exact: for all layouts as long as the paths have the same number of directories and do not begin with names used for something else, which is so for nnnn-uuid-quadtree and for 0002 with identifiers other than 'extensions' and '0=...'. Refuted for these, and for nnnn-tuple-tree. The objects have one declaration each; adds that fail are of objects with plain files."},
 {"property": "C70", "status": "partial", "theorems": ["C70_sound", "C70_valid_partial", "C70_empty_version_refuted"], "note": "Proved for objects with a file in or below each version directory, for a local storage root, instances without a cached layout and the validator with checking of digests and without lax_digests. Without the condition on version directories it is false (C70_empty_version_refuted): an object with an empty version directory passes validation, but empty directories are not copied, and the copy fails."},
 {"property": "C71", "status": "partial", "theorems": ["C71_valid", "C71_stored"], "note": "C71_stored: storage root made by initialize with layout 0003 and at least one tuple, objects as in C70, new instances for add and validate. C71_valid: any storage root without objects at the start and any layout, if all paths that result have the same number of components (C69_level_0003, C69_level_uuid, C69_level_flat). For others it is false, see C48_nested_refuted, C48_extensions_refuted, C69_declaration_refuted."},
 {"property": "C72", "status": "partial", "theorems": ["C72_same", "C72_valid", "C72_extracted", "C72_path", "C72_whole", "C72_stored"], "note": "Histories as in C35 (now with the object copied in between: C72_same says that the copy has the same history, so that C34 to C46 apply to it), a local storage root and instances without a cached layout. C72_stored: a storage root to which only such objects were added passes validation."},
 {"property": "C73", "status": "partial", "theorems": ["C73_exit", "C73_root_refuted", "C73_no_paths"], "note": "C73_exit: status 0 exactly for paths that are each a valid object, a storage root with the right structure and nothing misplaced, or a valid inventory; any paths but URLs, without --lax-digests. That the objects of a storage root be valid is not required: C73_root_refuted (finding). Status 0 also for no paths."},
 {"property": "C74", "status": "partial", "theorems": ["C74_root", "C74_structure", "C74_root_status", "C74_object", "C74_status_refuted", "C74_inventory_refuted"], "note": "The verdicts are exact (C74_root, C74_structure, C74_object). The exit status is 0 for both verdicts: C74_status_refuted (finding). ocfl-root.py with --max_errors is not modelled (a text is compared with a number)."},
 {"property": "C75", "status": "partial", "theorems": ["C75_directory", "C75_bag"], "note": "C75_directory for directories. C75_bag for bags, with the library bagit as a parameter: the files are moved to data/, tags are kept; also the identifier, message and author come back if they are texts that come back from a bag (C55 has counterexamples for others). Versions without files, and file names as in C34, are left out: create then gives an invalid object, see C34."},
 {"property": "C76", "status": "proved", "theorems": ["C76_extracted_metadata", "C76_file_metadata"], "note": "Histories as in C35, also with build; metadata as in meta_ok of ObjectSpec.v (a valid time if one is given, no address without a name), without which the object cannot be opened again. For extract success is part of the theorem, for extract_file see C44."},
 {"property": "C77", "status": "partial", "theorems": ["C77_set", "C77_read", "C77_lost", "C77_add_if_not_present", "C77_content", "C77_fixity"], "note": "As stated for versions that are in the inventory. For others created, message and state are lost without an exception and the user attributes raise KeyError (C77_lost, a finding). The inversion of the manifest is exact for content paths listed under one digest."},
 {"property": "C78", "status": "proved", "theorems": ["C78_metadata"], "note": "For accepted inventories as the validator compares them. Equality of values is Python's (True equals 1, order of members ignored); floats are equal if their texts are."},
 {"property": "C79", "status": "partial", "theorems": ["C79_texts", "C79_codes", "C79_status", "C79_refuted", "C79_E070b_refuted"], "note": "Two codes that are logged have no text, E011 and E092 (C79_refuted); all others have one (C79_codes). The text of E070b takes one parameter of the two listed, all others fit (C79_texts, C79_E070b_refuted). Findings."},
 {"property": "C80", "status": "partial", "theorems": ["C80_sound", "C80_complete", "C80_registered_refuted"], "note": "C80_sound for all objects, C80_complete for valid objects (lax_digests=False) in which no directory takes the place of an inventory file and the content directory is not named so. That registered extensions give no W013 is false: C80_registered_refuted (finding)."},
 {"property": "C81", "status": "proved", "theorems": ["C81_same", "C81_exactly_intact", "C81_still_valid"], "note": "Closed under the global context. Objects with other algorithms can be valid with lax_digests only (C81_ex)."},
 {"property": "C82", "status": "partial", "theorems": ["C82_remove", "C82_relative", "C82_absolute_refuted"], "note": "C82_remove gives the result for every string. For absolute paths the first directory is not removed (C82_absolute_refuted, a finding)."},
 {"property": "C83", "status": "partial", "theorems": ["C83_back", "C83_inside", "C83_outside_partial", "C83_outside_refuted", "C83_given_root"], "note": "Paths below the root give the relative path; every result leads back to the path. Paths outside that begin with the letters of the root are not refused (finding)."},
 {"property": "C84", "status": "partial", "theorems": ["C84_tree", "C84_valid", "C84_missing", "C84_marks_refuted"], "note": "The lines and marks are exact (C84_tree, TreeSpec.v); for valid objects only logs and extensions are marked in the object root (C84_valid). These belong to valid objects, and two digest files in a version directory are not marked: C84_marks_refuted (findings)."},
 {"property": "C85", "status": "partial", "theorems": ["C85_reads", "C85_create", "C85_created", "C85_add", "C85_added", "C85_path", "C85_session", "C85_path_layout_refuted", "C85_show_refuted", "C85_validate_object_refuted", "C85_purge_refuted"], "note": "Proved for create, add, list, path and validate. False for the others: show looks for the object from the current directory and not in the storage root, validate-object always raises AttributeError, purge does nothing and exits with status 0; path with --layout ignores the layout of the storage root."},
 {"property": "C86", "status": "partial", "theorems": ["C86_reads", "C86_asked", "C86_session", "C86_create", "C86_build", "C86_update", "C86_validate", "C86_show", "C86_extract", "C86_extract_file", "C86_own_metadata", "C86_rebuild", "C86_create_shows", "C86_skip_refuted"], "note": "Proved for all the commands; the bag options are the subject of C75. False of the option --skip (files and directories to ignore): it has no influence, files named README.md are added although the option names them by default (finding)."},
 {"property": "C87", "status": "partial", "theorems": ["C87_only", "C87_written", "C87_ends", "C87_repairs", "C87_independent_refuted"], "note": "All but the last sentence is proved. That is false: without --digest an inventory that is no JSON ends the program with an exception, and the paths after it are not looked at (C87_independent_refuted). Which algorithm is used without --digest: see C41_tool_refuted."},
 {"property": "C88", "status": "partial", "theorems": ["C88_completed", "C88_undone_partial", "C88_completed_history_partial", "C88_again_partial"], "note": "Completing is proved for every object. Undoing and trying again are proved for the histories of C35: an object of other software need not have an inventory in the directory of its previous version, so there is nothing to copy."},
 {"property": "C89", "status": "partial", "theorems": ["C89_carried_partial", "C89_no_source_refuted", "C89_no_objdir_refuted"], "note": "The first sentence is proved for every object; if the digest algorithm is changed, under the assumption of C40. False: add_version_with_content without srcdir, and start_new_version without objdir, always end with an exception, with nothing written. File system instances given as objdir are not modelled."},
 {"property": "C90", "status": "partial", "theorems": ["C90_same_content", "C90_same_extracted", "C90_detected", "C90_all_files_refuted"], "note": "All but the last sentence is proved for every pair of valid objects (lax_digests off); extraction for versions without conflicting logical paths and free destinations, as in C66. The last sentence is false: inventories of version directories can be missing in one of the objects."},
 {"property": "C91", "status": "partial", "theorems": ["C91_only", "C91_refused", "C91_read_again", "C91_directory", "C91_repeat_refuted", "C91_version", "C91_check", "C91_default_refuted", "C91_config"], "note": "Reading again is proved for parameters the layout accepts, a prefix without surrogates and a new extension directory. Two sentences are false: writing that was interrupted after its directory was made is refused for ever (C91_directory, C91_repeat_refuted), and check_spec_version without a version raises an exception on an instance that has one, although its docstring says that the default is set (C91_default_refuted)."},
 {"property": "C92", "status": "partial", "theorems": ["C92_hidden", "C92_exactly", "C92_checked", "C92_known_refuted", "C92_text_refuted"], "note": "All but the last sentence is proved (the second for files in the manifest; the digest file if there is one such file). The last sentence is false: objects whose algorithm has a hyphen in its name, as the blake2b algorithms, never pass with digest checks (E058b, the name is not found in inventory.json.blake2b-512), and with lax_digests a number is accepted as digest algorithm of an inventory, after which validation of the object ends with TypeError."},
 {"property": "C93", "status": "partial", "theorems": ["C93_partial", "C93_determined", "C93_rest", "C93_last_refuted", "C93_strings_refuted", "C93_entries_refuted", "C93_exact"], "note": "Proved: apart from white space the output is the text with the two replacements, for every text; digests keep their last three characters. False: not six as the description says, so that different digests become the same key (C93_last_refuted); white space in strings is changed (C93_strings_refuted); of an array with three entries only two are put on one line (C93_entries_refuted). C93_exact: what is written, given by six replacements, each described without the patterns of the code."},
 {"property": "C94", "status": "proved", "theorems": ["C94_language", "C94_message", "C94_link", "C94_logged", "C94_status", "C33_text"], "note": "For tables whose templates have no conversions but %s and %%, which Properties_Codes.v proves of the table in the repository. Arguments are given as texts: str() of an argument and of the dict of arguments is not modelled."},
 {"property": "C95", "status": "partial", "theorems": ["C95_open", "C95_create", "C95_directory_refuted"], "note": "All but the last sentence. With create, a file that has the name is accepted and a file system opened at it (C95_directory_refuted, a finding). Local paths and file:// URLs only: temp, s3, zip and other methods are not modelled."},
 {"property": "C96", "status": "proved", "theorems": ["C96_reads", "C96_one_value", "C96_refused", "C96_file", "C96_written", "C96_utf8"], "note": "The grammar is in JsonGrammarSpec.v, without the parser. About CPython json as modelled in JsonTextModel.v: floats are their texts and RecursionError is left out."},
 {"property": "C97", "status": "proved", "theorems": ["C97_path", "C97_reads", "C97_lists", "C97_opens_for_writing", "C97_appends", "C97_writes_text", "C97_makes_directories", "C97_makes_directory", "C97_removes", "C97_stays_a_tree", "C97_write_interrupted", "C97_makedirs_interrupted"], "note": "about the model of fsspec and the operating system (FsModel.v), which all other properties of files rest on; links, permissions, I/O errors and other processes are not modelled, and .. is taken lexically"},
 {"property": "C98", "status": "proved", "theorems": ["C98_path", "C98_parameter", "C98_decodes", "C98_round_trip"], "note": "what Python substitutes for bytes that are no UTF-8 is a parameter without assumptions; opening S3 file systems is not modelled"},
 {"property": "C99", "status": "partial", "theorems": ["C99_recorded", "C99_at_most", "C99_same", "C99_number", "C99_default", "C99_option", "C99_option_refuted"], "note": "Full for the method with a number. Refuted for the option of ocfl-root.py: its value is a text, so with any value validation of a storage root that has an object ends with TypeError. C99_recorded and C99_at_most are for an instance not used before."}
]}
