{"id": "C01", "title": "Next version directory keeps the numbering style", "statement": "next_version_directory(v) returns the name whose number is one more than v's, in the same style: an unpadded name is followed by the unpadded decimal of n+1; a zero-padded name is followed by a name of exactly the same length that still starts with 'v0'. The only failures are ObjectException for a name that is not v<digits>, and for a zero-padded name whose successor no longer fits its width.", "quantifier": "every string passed as vdir", "why_tests_cant": "infinitely many names, carries at every length and padding width", "anchors": ["ocfl/object_utils.py:next_version_directory", "ocfl/object_utils.py:parse_version_directory"]}
{"id": "C02", "title": "Adding versions numbers them 1, 2, 3, ... with no gap", "statement": "Starting from an inventory without versions, any number of add_version() calls without an explicit name produces versions numbered exactly 1..n in one padding style, the head is always the last one added, and earlier version blocks are left unchanged; the only way to fail is exhausting the padding width (or the 5 digit limit on version names).", "quantifier": "every number of calls and every admissible zero_padded_width", "why_tests_cant": "the claim is about all histories; overflow happens only after 10^(w-1) calls", "anchors": ["ocfl/inventory.py:Inventory.add_version", "ocfl/inventory.py:Inventory._next_version_directory", "ocfl/object_utils.py:first_version_directory"]}
{"id": "C03", "title": "make_unused_filepath always finds an unused name", "statement": "make_unused_filepath(f, used, sep) terminates, returns a string not in used, returns f itself when f is unused, and otherwise returns f+sep+n for the smallest n >= 2 such that the result is unused.", "quantifier": "every path, separator and finite set of used paths", "why_tests_cant": "termination and minimality range over all sets of used names", "anchors": ["ocfl/object_utils.py:make_unused_filepath"]}
{"id": "C04", "title": "Flat-direct layout (0002) is the identity on safe identifiers and rejects the rest", "statement": "identifier_to_path returns the identifier unchanged when it is one safe path component (non-empty, not '.', not '..', no '/'), and raises LayoutException otherwise; hence different identifiers never share a path and no path leaves the storage root.", "quantifier": "every identifier string", "why_tests_cant": "all strings", "anchors": ["ocfl/layout_0002_flat_direct.py:Layout_0002_Flat_Direct.identifier_to_path"]}
{"id": "C05", "title": "Hashed n-tuple layout (0003): shape, safety and uniqueness of object paths", "statement": "For a configuration accepted by the layout, identifier_to_path returns numberOfTuples components of exactly tupleSize hex characters of the identifier's digest followed by one encapsulation directory made only of [A-Za-z0-9-_%]; no component is '.', '..' or contains '/'; the encapsulation directory is at most 100 characters plus '-' plus the digest; two different identifiers with the same path must have encoded forms longer than 100 characters that agree on the first 100 and have equal digests; no object path is inside another object's path (all for non-empty identifiers).", "quantifier": "every pair of non-empty identifiers and every accepted configuration", "why_tests_cant": "collisions and nesting are statements about all pairs of identifiers", "anchors": ["ocfl/layout_0003_hash_and_id_n_tuple.py:_id_to_path", "ocfl/layout_0003_hash_and_id_n_tuple.py:_get_encapsulation_directory", "ocfl/layout_0003_hash_and_id_n_tuple.py:_percent_encode"]}
{"id": "C06", "title": "Flat-quoted layout is reversible and yields one safe directory name", "statement": "For every non-empty identifier, identifier_to_path gives a single path component without '/' from which decode() recovers the identifier (so distinct identifiers get distinct paths), and the component never refers to the storage root itself or its parent.", "quantifier": "every non-empty identifier", "why_tests_cant": "all Unicode strings", "anchors": ["ocfl/layout_nnnn_flat_quoted.py", "ocfl/layout.py:Layout.encode", "ocfl/layout.py:Layout.decode"]}
{"id": "C07", "title": "UUID quadtree layout: unique paths of eight four-character components", "statement": "identifier_to_path accepts exactly prefix + a lower-case UUID, its path has eight four-character components which concatenate to the UUID without hyphens, no path is nested in another, and two different accepted identifiers never get the same path.", "quantifier": "every identifier and prefix", "why_tests_cant": "uniqueness is over all pairs of identifiers", "anchors": ["ocfl/layout_nnnn_uuid_quadtree.py:Layout_NNNN_UUID_Quadtree.identifier_to_path"]}
{"id": "C08", "title": "Tuple tree layout: unique and non-nested object paths", "statement": "For every non-empty identifier the path consists of the encoded identifier cut in non-empty tuples of at most tupleSize characters (all but the last exactly tupleSize) followed by the whole encoded identifier, so distinct encoded identifiers have distinct paths; and no object path lies inside another object's path.", "quantifier": "every pair of identifiers and every tuple size from 2 to 6", "why_tests_cant": "nesting is a statement about all pairs of identifiers", "anchors": ["ocfl/layout_nnnn_tuple_tree.py:Layout_NNNN_Tuple_Tree.identifier_to_path"]}
{"id": "C09", "title": "Layout configuration is checked and round-trips", "statement": "check_and_set_layout_params accepts a configuration exactly when the extension name matches and each parameter is in range (0003: supported digest, tupleSize and numberOfTuples integers in 0..32, both zero or both non-zero, product at most the digest length), on success the layout's own config reproduces the parameters, and feeding a layout's config back to it is accepted and changes nothing.", "quantifier": "every JSON configuration value", "why_tests_cant": "the parameter space is unbounded and includes values of every JSON type", "anchors": ["ocfl/layout.py:Layout.check_and_set_layout_params", "ocfl/layout_0003_hash_and_id_n_tuple.py:Layout_0003_Hash_And_Id_N_Tuple.check_full_config"]}
{"id": "C10", "title": "A storage root that was initialized can be opened again", "statement": "After StorageRoot.initialize succeeds with any registered layout name and supported specification version, opening the same root with check_root_structure succeeds, reports the same specification version and the same layout with the same parameters.", "quantifier": "every registered layout name, spec version and layout parameters", "why_tests_cant": "needs all layouts and all parameter values", "anchors": ["ocfl/storage_root.py:StorageRoot.initialize", "ocfl/storage_root.py:StorageRoot.check_root_structure", "ocfl/layout_registry.py"]}
{"id": "C11", "title": "file_digest is the digest of the whole file, however it is read", "statement": "file_digest(file, type) equals the digest of the complete byte content for every content length, i.e. reading in 64kB blocks changes nothing, and unsupported digest types raise ValueError.", "quantifier": "every file content and digest type", "why_tests_cant": "block boundary effects over all lengths", "anchors": ["ocfl/digest.py:file_digest", "ocfl/digest.py:_file_digest"]}
{"id": "C12", "title": "Computed digests are accepted by the validator's own digest format check", "statement": "For every digest type supported by file_digest, the value it computes matches digest_regex for the same type, and normalized_digest leaves it unchanged.", "quantifier": "every digest type and every file content", "why_tests_cant": "all contents", "anchors": ["ocfl/digest.py:DIGEST_REGEXES", "ocfl/digest.py:file_digest", "ocfl/digest.py:normalized_digest"]}
{"id": "C13", "title": "fsw_files_identical decides byte equality", "statement": "fsw_files_identical(f1, f2) returns True exactly when both files exist with identical byte content, for every content, and FileNotFoundError if either is missing.", "quantifier": "every pair of file contents", "why_tests_cant": "block boundary effects over all contents", "anchors": ["ocfl/fsw.py:fsw_files_identical"]}
{"id": "C14", "title": "Copying a directory copies every file exactly and nothing else", "statement": "fsw_copydir leaves every previously existing file of the destination unchanged, creates exactly the files of the source tree (same relative paths, same bytes) under the new destination, and refuses without changing anything when the destination already exists or the source is not a directory.", "quantifier": "every source tree and destination filesystem", "why_tests_cant": "all directory trees", "anchors": ["ocfl/fsw.py:fsw_copydir", "ocfl/fsw.py:fsw_copyfile", "ocfl/fsw.py:fsw_walk_files"]}
{"id": "C15", "title": "Walking a tree visits every file exactly once", "statement": "fsw_walk_files terminates on every finite tree and returns the relative path of every file below the start directory exactly once and nothing else.", "quantifier": "every finite directory tree, any listing order", "why_tests_cant": "all tree shapes", "anchors": ["ocfl/fsw.py:fsw_walk", "ocfl/fsw.py:fsw_walk_files", "ocfl/fsw.py:_fsw_relpath"]}
{"id": "C16", "title": "Adding a file keeps the inventory consistent", "statement": "Version.add_file adds exactly the given logical path with the given digest to that version's state, changes no other version's state, never reuses an existing content path, stores no second copy of content when dedupe is on, makes the logical path resolve to content with that digest, and raises InventoryException leaving the inventory unchanged if the logical path already exists in the version.", "quantifier": "every inventory, digest, path and dedupe setting", "why_tests_cant": "invariant over all operation sequences", "anchors": ["ocfl/inventory.py:Version.add_file", "ocfl/inventory.py:Inventory.add_file_to_manifest"]}
{"id": "C17", "title": "Deleting a logical path removes that path only", "statement": "Version.delete_logical_path removes exactly the given logical path from the version's state, returns its digest, leaves every other logical path of every version with the same digest, and removes content paths only from the current version's directory and only for the removed digest; it raises InventoryException if the path is absent. Every other logical path of every version still resolves to content.", "quantifier": "every inventory and path", "why_tests_cant": "all states and sharing patterns", "anchors": ["ocfl/inventory.py:Version.delete_logical_path"]}
{"id": "C18", "title": "Renaming keeps the content", "statement": "NewVersion.rename(old, new) makes new resolve to the same content as old did, removes old, and leaves all other logical paths as they were; it fails without change if old is absent or new already exists.", "quantifier": "every inventory state reachable with add, delete and rename", "why_tests_cant": "depends on where the content is stored, all histories", "anchors": ["ocfl/new_version.py:NewVersion.rename", "ocfl/inventory.py:Version.delete_logical_path"]}
{"id": "C19", "title": "find_logical_path returns the latest occurrence", "statement": "find_logical_path(p) returns the highest numbered version whose state contains p together with the first content path of its digest, and (None, None) exactly when no version contains p.", "quantifier": "every inventory and path", "why_tests_cant": "all version histories, ordering by number not by name", "anchors": ["ocfl/inventory.py:Inventory.find_logical_path", "ocfl/inventory.py:Inventory.version_directories"]}
{"id": "C20", "title": "diff_with_previous is exact", "statement": "diff_with_previous lists ('A', d, p) exactly for pairs in the current but not the previous state and ('D', d, p) exactly for pairs in the previous but not the current one; it is empty exactly if both states map the same logical paths to the same digests.", "quantifier": "every pair of states", "why_tests_cant": "all states", "anchors": ["ocfl/new_version.py:NewVersion.diff_with_previous"]}
{"id": "C21", "title": "Normalizing digests does not change what an inventory means", "statement": "For an inventory accepted by the validator, normalize_digests keeps, for every version and logical path, the content paths it resolves to, and leaves only lower-case digests with no entry lost or merged.", "quantifier": "every valid inventory", "why_tests_cant": "all mixtures of letter case", "anchors": ["ocfl/inventory.py:Inventory.normalize_digests", "ocfl/object.py:Object.parse_inventory"]}
{"id": "C22", "title": "A True from InventoryValidator.validate means the inventory obeys the OCFL rules", "statement": "If validate returns True then the inventory has a non-empty string id, a supported type, an allowed digest algorithm, a head equal to the last of a gap-free version sequence, well-formed and unique content and logical paths, every state digest is in the manifest with at least one content path and every manifest path's digest is used by a state, every content path starts with an existing version directory and the content directory, all created/user/message values are well formed, and fixity entries only mention manifest files.", "quantifier": "every JSON document", "why_tests_cant": "soundness over all documents", "anchors": ["ocfl/inventory_validator.py:InventoryValidator.validate"]}
{"id": "C23", "title": "Every inventory that obeys the OCFL rules is accepted", "statement": "validate returns True for every inventory that satisfies the rules of the OCFL specification the validator implements (no false alarms), without raising an exception.", "quantifier": "every well-formed inventory of any number of versions and files", "why_tests_cant": "completeness over all documents", "anchors": ["ocfl/inventory_validator.py:InventoryValidator.validate"]}
{"id": "C24", "title": "Version sequence check is exact", "statement": "The versions block passes the sequence check exactly when its keys are v1..vn, or v0..01..v0..0n in one zero-padded width with n < 10^(width-1), and then all_versions is that list in order.", "quantifier": "every set of version keys", "why_tests_cant": "all sets of names, all widths", "anchors": ["ocfl/inventory_validator.py:InventoryValidator._validate_version_sequence"]}
{"id": "C25", "title": "No path of an accepted inventory is a directory of another", "statement": "In an accepted inventory no content path (and, within one version, no logical path) is at the same time a directory prefix of another one.", "quantifier": "every accepted inventory, paths of every depth", "why_tests_cant": "depth is unbounded", "anchors": ["ocfl/inventory_validator.py:InventoryValidator._check_logical_path", "ocfl/inventory_validator.py:InventoryValidator._check_content_path"]}
{"id": "C26", "title": "Accepted content paths stay inside the object", "statement": "Every content path in an accepted inventory consists of a version directory, the content directory and further components none of which is empty, '.' or '..'.", "quantifier": "every accepted inventory", "why_tests_cant": "all strings, including control characters", "anchors": ["ocfl/inventory_validator.py:InventoryValidator._check_content_path"]}
{"id": "C27", "title": "Validating an inventory never raises an exception", "statement": "InventoryValidator.validate returns True or False for every JSON value and logs at least one error whenever it returns False; it never raises.", "quantifier": "every JSON value", "why_tests_cant": "all JSON values of every type at every position", "anchors": ["ocfl/inventory_validator.py:InventoryValidator.validate", "ocfl/inventory_validator.py:InventoryValidator._validate_versions"]}
{"id": "C28", "title": "Accepted prior inventories agree with the root inventory", "statement": "If validate_as_prior_version returns True then the prior inventory's versions are a proper subset of the root inventory's and for each of them both inventories list the same logical paths, each of whose prior content files is among the root inventory's content files for it.", "quantifier": "every pair of valid inventories, same or different digest algorithms", "why_tests_cant": "all pairs", "anchors": ["ocfl/inventory_validator.py:InventoryValidator.validate_as_prior_version"]}
{"id": "C29", "title": "Any valid inventory can be opened", "statement": "Object.parse_inventory succeeds on every root inventory that InventoryValidator accepts, and afterwards every logical path of every version resolves to a content path.", "quantifier": "every valid inventory", "why_tests_cant": "all widths of version names", "anchors": ["ocfl/object.py:Object.parse_inventory", "ocfl/object_utils.py:parse_version_directory"]}
{"id": "C30", "title": "A True from validate_object means the object is intact", "statement": "If validate_object with digest checks returns True then every content file listed in the manifest exists and its bytes have the recorded digest, no other file is present in any version's content directory, the root inventory matches its sidecar, the head version's inventory copy (if present) is byte identical with the root inventory, there is exactly one supported object declaration with the right content, and the object root contains only expected entries.", "quantifier": "every object directory tree", "why_tests_cant": "soundness over all trees", "anchors": ["ocfl/validator.py:Validator.validate_object", "ocfl/validator.py:Validator.validate_content"]}
{"id": "C31", "title": "Corruption is detected", "statement": "If any content file of an object that validates is changed, deleted or a file is added under a content directory, validation with digest checks returns False, unless the new content has the same digest as the old one.", "quantifier": "every valid object and every modification of content files", "why_tests_cant": "all modifications of all objects", "anchors": ["ocfl/validator.py:Validator.validate_content", "ocfl/validator.py:Validator.check_additional_digests"]}
{"id": "C32", "title": "Skipping digest checks only skips digest checks", "statement": "An object accepted with digest checks is accepted without them, and an object accepted without them is rejected with them only because of a digest or sidecar mismatch.", "quantifier": "every object tree", "why_tests_cant": "relation between two runs on every tree", "anchors": ["ocfl/validator.py:Validator.validate_object"]}
{"id": "C33", "title": "Validation never writes and does not depend on logging options", "statement": "validate_object leaves the filesystem unchanged, and its result and error count do not depend on log_warnings, log_errors or lang; num_errors equals the number of errors reported and is never decreased.", "quantifier": "every object tree and logging options", "why_tests_cant": "relation between runs", "anchors": ["ocfl/validation_logger.py:ValidationLogger", "ocfl/validator.py:Validator.validate_object"]}
{"id": "C34", "title": "A created object is valid", "statement": "Object.create from any source directory, with an identifier and well formed metadata, writes an object that validate_object accepts (digests included).", "quantifier": "every source tree, options dedupe / normalization / content directory / sha512 or sha256", "why_tests_cant": "all source trees", "anchors": ["ocfl/object.py:Object.create", "ocfl/new_version.py:NewVersion.first_version"]}
{"id": "C35", "title": "An updated object is valid", "statement": "add_version_with_content on a valid object produced by this library yields an object that validate_object accepts (digests included).", "quantifier": "every object history and source tree", "why_tests_cant": "all histories", "anchors": ["ocfl/object.py:Object.add_version_with_content", "ocfl/object.py:Object.write_new_version"]}
{"id": "C36", "title": "Every version can be extracted exactly as it was added", "statement": "After any history of create and add_version_with_content, extracting version k yields exactly the files of the k-th source directory with the same bytes, for every k, as long as no two different contents have the same digest.", "quantifier": "every history of source trees and every version", "why_tests_cant": "all histories of all lengths", "anchors": ["ocfl/object.py:Object.extract", "ocfl/object.py:Object.create", "ocfl/object.py:Object.add_version_with_content"]}
{"id": "C37", "title": "Old versions are immutable", "statement": "write_new_version changes no file below an existing version directory: it only creates files below the new version directory and replaces the root inventory and sidecar.", "quantifier": "every object and every new version built through the API", "why_tests_cant": "all operation sequences and content paths", "anchors": ["ocfl/object.py:Object.write_new_version", "ocfl/new_version.py:NewVersion.add"]}
{"id": "C38", "title": "An interrupted update never loses an old version", "statement": "If write_new_version is interrupted at any point, all files of earlier versions are still intact, and whenever the root inventory is the new one, all content files it mentions and the new version's own inventory have been completely written.", "quantifier": "every crash point, including partial writes", "why_tests_cant": "all crash points of all updates", "anchors": ["ocfl/object.py:Object.write_new_version", "ocfl/object.py:Object.write_inventory_and_sidecar"]}
{"id": "C39", "title": "Deduplication and forward delta store content once", "statement": "With dedupe and forward delta on, an update copies a source file only if no file with the same digest exists in the object, so every digest has at most one content path per history; with forward delta off, at most one per version.", "quantifier": "every history of source trees", "why_tests_cant": "all histories", "anchors": ["ocfl/new_version.py:NewVersion.add"]}
{"id": "C40", "title": "Changing the digest algorithm keeps all versions", "statement": "start_new_version with a different digest algorithm keeps, for every existing version and logical path, the content paths it resolves to, provided no two different contents collide under the new algorithm.", "quantifier": "every object and pair of digest algorithms", "why_tests_cant": "all inventories", "anchors": ["ocfl/object.py:Object.start_new_version"]}
{"id": "C41", "title": "The inventory sidecar always belongs to the inventory's digest algorithm", "statement": "After create, build, write_new_version or running the sidecar tool, the root sidecar file is named after the inventory's digestAlgorithm and contains the digest of the inventory file.", "quantifier": "every object and every digest algorithm setting of Object", "why_tests_cant": "depends on all combinations of object and instance settings", "anchors": ["ocfl/object.py:Object.write_inventory_and_sidecar", "ocfl/object.py:Object.write_new_version", "ocfl-sidecar.py:create_sidecar"]}
{"id": "C42", "title": "A new version built with add, delete and rename is consistent when written", "statement": "For every sequence of NewVersion add, delete and rename calls that does not raise, after write_new_version every content path in the manifest for the new version has been copied from a source file with that digest, and every file copied is in the manifest.", "quantifier": "every sequence of operations", "why_tests_cant": "all operation sequences", "anchors": ["ocfl/new_version.py:NewVersion.add", "ocfl/new_version.py:NewVersion.delete", "ocfl/new_version.py:NewVersion.rename", "ocfl/object.py:Object.write_new_version"]}
{"id": "C43", "title": "Extraction never overwrites existing data", "statement": "extract raises ObjectException, leaving everything unchanged, if the destination directory exists and is not empty or the version does not exist; otherwise it writes only below the destination directory, and never modifies the object.", "quantifier": "every object, version and destination", "why_tests_cant": "all filesystems", "anchors": ["ocfl/object.py:Object.extract", "ocfl/object.py:Object._extract_setup"]}
{"id": "C44", "title": "Extracting one file gives the bytes of that logical path", "statement": "extract_file writes exactly the content of the given logical path in the given version under its base name, and raises ObjectException if the path is not in that version.", "quantifier": "every object, version and logical path", "why_tests_cant": "all states and sharing patterns", "anchors": ["ocfl/object.py:Object.extract_file"]}
{"id": "C45", "title": "No new version without a difference when asked", "statement": "add_version_with_content(abort_if_no_difference=True) leaves the object unchanged and returns None exactly if the source directory has the same logical paths with the same digests as the head version.", "quantifier": "every object and source tree", "why_tests_cant": "all pairs of states", "anchors": ["ocfl/object.py:Object.add_version_with_content"]}
{"id": "C46", "title": "The specification version never decreases and matches the declaration", "statement": "A new version never has a lower specification version than the previous one, and after create, build or update the inventory's specification version is the one in the object's declaration file.", "quantifier": "every object and spec_version setting", "why_tests_cant": "all histories", "anchors": ["ocfl/new_version.py:NewVersion.next_version", "ocfl/object.py:Object.build", "ocfl/object.py:Object.write_object_declaration"]}
{"id": "C47", "title": "Building from version directories equals creating and updating", "statement": "Object.build on a source directory with version directories numbered 1..n yields an object whose version k state is exactly the content of the k-th directory, and raises ObjectException when the numbers have a gap.", "quantifier": "every source tree, number of versions and padding", "why_tests_cant": "all version directory sets", "anchors": ["ocfl/object.py:Object.build", "ocfl/object.py:Object.version_dirs_and_metadata"]}
{"id": "C48", "title": "Adding an object to a storage root is safe and exact", "statement": "StorageRoot.add copies the object to the path given by the layout for its identifier, byte for byte, leaves all other files unchanged, and fails without changing anything if that path exists.", "quantifier": "every storage root, layout and object", "why_tests_cant": "all trees", "anchors": ["ocfl/storage_root.py:StorageRoot.add"]}
{"id": "C49", "title": "Listing a storage root finds exactly the object roots", "statement": "object_paths yields exactly the directories below the root that hold a single supported object declaration and have no ancestor directory (other than the root) containing files, each once; yielded objects are never nested; extensions/ is skipped.", "quantifier": "every storage root tree", "why_tests_cant": "all trees of all depths", "anchors": ["ocfl/storage_root.py:StorageRoot.object_paths"]}
{"id": "C50", "title": "A True from StorageRoot.validate means all objects are valid", "statement": "validate returns True exactly if the root structure is correct, no traversal error was found and every object found is valid, independent of earlier calls on the same instance.", "quantifier": "every storage root and every sequence of calls", "why_tests_cant": "all trees and call histories", "anchors": ["ocfl/storage_root.py:StorageRoot.validate", "ocfl/storage_root.py:StorageRoot.validate_hierarchy", "ocfl-validate.py:do_validation"]}
{"id": "C51", "title": "Declaration files verify", "statement": "A Namaste file written for any content (with a non-empty tag value) passes its own content check, its tag value has at most 40 characters drawn from word characters, '.', '-', ':' and '_', and find_namastes returns exactly the files with the tag, sorted, or raises if there are more than the limit.", "quantifier": "every content string", "why_tests_cant": "all strings", "anchors": ["ocfl/namaste.py:content_to_tvalue", "ocfl/namaste.py:Namaste.check_content", "ocfl/namaste.py:find_namastes"]}
{"id": "C52", "title": "Datetime strings denote the right instant", "statement": "str_to_datetime accepts exactly the W3C datetime forms with valid calendar values, and returns the POSIX time of the instant denoted (RFC 3339 semantics, including the UTC offset); any two strings denoting the same instant give the same value.", "quantifier": "every string", "why_tests_cant": "all dates, offsets and leap years", "anchors": ["ocfl/w3c_datetime.py:str_to_datetime"]}
{"id": "C53", "title": "Writing then reading a time is the identity", "statement": "str_to_datetime(datetime_to_str(t, no_fractions=True)) = t for every integer time t from year 1 to 9999.", "quantifier": "every integer number of seconds in the range of datetime", "why_tests_cant": "about 3*10^11 values including leap years and century rules", "anchors": ["ocfl/w3c_datetime.py:datetime_to_str", "ocfl/w3c_datetime.py:str_to_datetime"]}
{"id": "C54", "title": "Version metadata round-trips through an inventory", "statement": "Metadata added with add_version(metadata=m) and read back with VersionMetadata(inventory, version) has the same created, message, name and address (when created is set); metadata of other versions is unaffected.", "quantifier": "every metadata value and inventory", "why_tests_cant": "all combinations of present and absent values", "anchors": ["ocfl/version_metadata.py:VersionMetadata.as_dict", "ocfl/version_metadata.py:VersionMetadata.from_inventory"]}
{"id": "C55", "title": "Bag metadata round-trips", "statement": "Metadata written to a bag by bag_extracted_version and read back by bag_as_source into empty metadata reproduces id, message and name, and the address if it is a mailto: address.", "quantifier": "every metadata value", "why_tests_cant": "all values, including empty ones", "anchors": ["ocfl/bagger.py:bag_as_source", "ocfl/bagger.py:bag_extracted_version"]}
{"id": "C56", "title": "Inventories survive being written and read", "statement": "json.load(write_json(inv)) gives an inventory with the same value for every key at every level, for all Unicode strings; keys are written in sorted order so equal inventories produce identical files.", "quantifier": "every inventory with arbitrary Unicode content", "why_tests_cant": "all strings and nesting", "anchors": ["ocfl/inventory.py:Inventory.write_json", "ocfl/inventory.py:Inventory.as_json"]}
{"id": "C57", "title": "Content paths produced from source paths are inside the version and never clash", "statement": "For every source path found in a source directory, the content path chosen by NewVersion.add starts with head/contentDirectory/, is unused so far, and (uri normalization) is the injective percent-encoding of the source path with no hidden file name at the top level.", "quantifier": "every set of source paths and every normalization setting", "why_tests_cant": "all strings and collisions", "anchors": ["ocfl/new_version.py:NewVersion._map_filepath", "ocfl/new_version.py:NewVersion.add"]}
{"id": "C58", "title": "Path type detection", "statement": "find_path_type returns 'object' or 'root' exactly according to the first OCFL-shaped 0= declaration file in name order, 'file' for a plain file, and an explanatory text otherwise.", "quantifier": "every directory tree", "why_tests_cant": "all sets of declaration files", "anchors": ["ocfl/object_utils.py:find_path_type"]}
{"id": "C59", "title": "Prior inventories and fixity are checked against the content", "statement": "If validate_object with digest checks returns True, then every digest recorded for a root manifest file in any readable version inventory's manifest or fixity block, and in the root fixity block, is the digest of that file's bytes under the stated algorithm.", "quantifier": "every object tree with any number of version inventories", "why_tests_cant": "soundness over all trees and all blocks", "anchors": ["ocfl/validator.py:Validator.validate_version_inventories", "ocfl/validator.py:Validator.check_additional_digests"]}
{"id": "C60", "title": "Content added with Version.add_file stays inside the version", "statement": "The content path Version.add_file puts into the manifest is below the content directory of that version (version/contentDirectory/...), with no '.' or '..' elements.", "quantifier": "every inventory, logical path, content path and dedupe setting", "why_tests_cant": "all logical and content path strings", "anchors": ["ocfl/inventory.py:Version.add_file", "ocfl/object_utils.py:make_unused_filepath"]}
{"id": "C61", "title": "The declaration and the inventory agree on the specification version", "statement": "If validate_object returns True then the specification version in the inventory's type is that of the object declaration.", "quantifier": "every object directory tree", "why_tests_cant": "soundness over all trees", "anchors": ["ocfl/validator.py:Validator.validate_object", "ocfl/inventory_validator.py:InventoryValidator.validate"]}
{"id": "C62", "title": "Validation reports instead of raising", "statement": "validate_object of any directory returns True or False and does not raise an exception, whatever the files in the directory are.", "quantifier": "every object directory tree", "why_tests_cant": "all trees, all malformed inventories", "anchors": ["ocfl/validator.py:Validator.validate_object", "ocfl/validator.py:Validator.validate_version_inventories"]}
{"id": "C63", "title": "Every intact object is accepted", "statement": "validate_object returns True for every object whose declaration, inventories, sidecars, content files and digests are right and which has nothing unexpected in it: there are no false alarms, for any number of versions, files and version inventories.", "quantifier": "every object directory tree", "why_tests_cant": "completeness over all trees", "anchors": ["ocfl/validator.py:Validator.validate_object"]}
{"id": "C64", "title": "Updating a valid object made by other software keeps it valid", "statement": "If validate_object accepts an object, whatever software wrote it, and add_version_with_content on it returns a new version, then validate_object accepts the object afterwards.", "quantifier": "every valid object and source tree", "why_tests_cant": "depends on how the inventories of the earlier versions were written", "anchors": ["ocfl/object.py:Object.add_version_with_content", "ocfl/inventory_validator.py:InventoryValidator.validate_as_prior_version"]}
{"id": "C65", "title": "An interrupted update leaves an object that can be used", "statement": "If add_version_with_content is interrupted at any point, the object can be opened afterwards with all earlier versions and their content, validate_object accepts it as the old or the new object, and the update can be tried again.", "quantifier": "every valid object, source tree and crash point, including partial writes", "why_tests_cant": "crash points between and inside file operations", "anchors": ["ocfl/object.py:Object.write_new_version", "ocfl/object.py:Object.add_version_with_content", "ocfl/object.py:Object.parse_inventory"]}
{"id": "C66", "title": "Versions of every valid object can be extracted", "statement": "For every object that validate_object accepts, whatever software wrote it, extract writes for each logical path of the version one file with content of the digest that the state has for the path, and nothing else.", "quantifier": "every valid object, version and destination", "why_tests_cant": "inventories and content layouts that this library does not write", "anchors": ["ocfl/object.py:Object.extract", "ocfl/validator.py:Validator.validate_object"]}
{"id": "C67", "title": "Listing a storage root names every object", "statement": "StorageRoot.list_objects of a well-formed storage root returns one line for each object root below it and no other, with the identifier from the inventory of the object if that inventory is valid, and UNKNOWN-ID otherwise.", "quantifier": "every storage root and every object in it, valid or not", "why_tests_cant": "all trees and all inventories", "anchors": ["ocfl/storage_root.py:StorageRoot.list_objects", "ocfl/object.py:Object.id_from_inventory"]}
{"id": "C68", "title": "An added object is found, and the others stay", "statement": "After StorageRoot.add of an object, the objects of the storage root are those before and the added one at its path, each with the same identifier as before or as in its source.", "quantifier": "every storage root, layout and object", "why_tests_cant": "all trees, layouts and identifiers", "anchors": ["ocfl/storage_root.py:StorageRoot.add", "ocfl/storage_root.py:StorageRoot.object_paths"]}
{"id": "C69", "title": "A storage root lists exactly what was added to it", "statement": "For a storage root made by initialize with one of the layouts and any sequence of successful and failed adds, list_objects returns exactly the objects added, each once, with their identifiers, no two with the same path or the same identifier.", "quantifier": "every layout, every sequence of objects", "why_tests_cant": "all sequences of operations and all identifiers", "anchors": ["ocfl/storage_root.py:StorageRoot.initialize", "ocfl/storage_root.py:StorageRoot.add", "ocfl/storage_root.py:StorageRoot.list_objects", "ocfl/layout.py:Layout.identifier_to_path"]}
{"id": "C70", "title": "A valid object is valid after it has been added to a storage root", "statement": "If an object that passes validation (digests included) is added to a storage root then what is at its path in the storage root passes validation.", "quantifier": "every object, every storage root, every layout, every content of the file system", "why_tests_cant": "all valid objects and all states of the file system; depends on exactly what is copied and on every rule of the validator", "anchors": ["ocfl/storage_root.py:StorageRoot.add", "ocfl/w_fs.py:fsw_copydir", "ocfl/validator.py:Validator.validate_object"]}
{"id": "C71", "title": "A storage root to which only valid objects have been added is valid", "statement": "A storage root made by initialize, after any sequence of successful adds of valid objects and failed adds, passes StorageRoot.validate with the answer True, with as many objects counted as were added, and all of them counted as good.", "quantifier": "every sequence of objects, every layout with tuples", "why_tests_cant": "all sequences of operations; every object stays valid and no directory is misplaced at every step", "anchors": ["ocfl/storage_root.py:StorageRoot.initialize", "ocfl/storage_root.py:StorageRoot.add", "ocfl/storage_root.py:StorageRoot.validate"]}
{"id": "C72", "title": "An object of this library is the same object after it has been added to a storage root", "statement": "If an object made by create, build and add_version_with_content is added to a storage root then everything below its path in the storage root is as in the original, it is valid there, every version extracted from there has exactly the files it was made from, and it can be updated there with the guarantees for updates.", "quantifier": "every history of calls, every object, every storage root and layout", "why_tests_cant": "all histories and all contents; combines creation, copying, validation and extraction", "anchors": ["ocfl/storage_root.py:StorageRoot.add", "ocfl/w_fs.py:fsw_copydir", "ocfl/object.py:Object.create", "ocfl/object.py:Object.add_version_with_content", "ocfl/object.py:Object.extract"]}
{"id": "C73", "title": "The exit status of ocfl-validate.py says whether all paths were valid", "statement": "ocfl-validate.py exits with status 0 exactly if every path given is a valid object, a storage root with the right structure and nothing misplaced whose objects are all valid, or a valid inventory file; in every other case, exceptions included, with a status other than 0.", "quantifier": "every list of paths, every content of the file system, digests checked or not", "why_tests_cant": "all paths (relative, absolute, with . and .. parts and slashes at the end) and all file systems; the answer combines type detection with every validator", "anchors": ["ocfl-validate.py:do_validation", "ocfl-validate.py:main", "ocfl/command_line_utils.py:find_path_type", "ocfl/object.py:Object.validate_inventory"]}
{"id": "C74", "title": "The command validate of ocfl-root.py and ocfl-object.py reports valid things as VALID and no others", "statement": "ocfl-root.py validate prints VALID exactly for a storage root with the right structure, nothing misplaced and (if asked for) only valid objects; ocfl-object.py validate exactly for a valid object; the exit status tells the two verdicts apart.", "quantifier": "every content of the file system, all options", "why_tests_cant": "all file systems and combinations of options", "anchors": ["ocfl-root.py:OCFLRoot.main", "ocfl-object.py:OCFLObject.main", "ocfl/command_line_utils.py:validate_object", "ocfl/storage_root.py:StorageRoot.validate"]}
{"id": "C75", "title": "A version extracted and used to create an object gives the same files again", "statement": "For every version of an object made by this library: the command extract into a directory (or a bag) followed by the command create from it succeeds, and gives an object with exactly the files of that version; nothing but the directory and the new object changes.", "quantifier": "every history of calls, every version, every choice of settings for the new object", "why_tests_cant": "all histories and all contents; combines extraction, the source walk, content naming and creation", "anchors": ["ocfl-object.py:OCFLObject.main", "ocfl/object.py:Object.extract", "ocfl/object.py:Object.create", "ocfl/bagger.py:bag_extracted_version", "ocfl/bagger.py:bag_as_source"]}
{"id": "C76", "title": "Extraction gives back the metadata each version was made with", "statement": "For every object made by create or build and updated by add_version_with_content, and for each of its versions: extract and extract_file return the message, author name and author address given for that version, the time given or else the time of the call, and the identifier of the object. Later versions and changes of digest algorithm do not alter the metadata of earlier versions.", "quantifier": "every history of calls, every metadata that may be written, every version", "why_tests_cant": "all histories and all texts; goes through writing and reading the inventory each time", "anchors": ["ocfl/version_metadata.py:VersionMetadata.as_dict", "ocfl/version_metadata.py:VersionMetadata.from_inventory", "ocfl/object.py:Object.extract", "ocfl/object.py:Object.extract_file", "ocfl/new_version.py:NewVersion.next_version"]}
{"id": "C77", "title": "Attributes of inventories and versions: set, read and add", "statement": "Setting created, message, state, user_name or user_address of a version changes exactly that attribute of that version and is read again; the add_if_not_present methods add an empty block only if there is none and change nothing else; content is the exact inversion of the manifest; add_fixity_data adds exactly one path.", "quantifier": "every inventory, version and value", "why_tests_cant": "all inventories; that nothing else changes is a statement about everything else", "anchors": ["ocfl/inventory.py:Version.created", "ocfl/inventory.py:Version.message", "ocfl/inventory.py:Version.state_add_if_not_present", "ocfl/inventory.py:Version.user_add_if_not_present", "ocfl/inventory.py:Inventory.content", "ocfl/inventory.py:Inventory.manifest_add_if_not_present", "ocfl/inventory.py:Inventory.add_fixity_data"]}
{"id": "C78", "title": "An earlier inventory with other metadata is warned about", "statement": "For two accepted inventories, one for fewer versions than the other: comparing them gives the warning W011 exactly if some version of the earlier one has another created date, message or user in the later one, compared as Python values; comparing gives no other warning.", "quantifier": "every pair of well-formed accepted inventories", "why_tests_cant": "all JSON values of any depth under message and user; that no difference is missed is a statement about all versions and keys", "anchors": ["ocfl/inventory_validator.py:InventoryValidator.validate_as_prior_version", "ocfl/inventory_validator.py:InventoryValidator._compare_states_for_version"]}
{"id": "C79", "title": "Every code that validation logs has a text, and the text fits its parameters", "statement": "Every entry that validation of an object logs has a code of the right kind (E or W) with a description in validation-errors.json; each description takes exactly the parameters listed for its code, so that formatting never fails; status_str shows all messages in order, independently of the order in which they came.", "quantifier": "every object on disk, every code, all parameters", "why_tests_cant": "all objects; needs every path of the validator that can log something", "anchors": ["ocfl/data/validation-errors.json", "ocfl/validation_logger.py:ValidationLogger.log", "ocfl/validation_logger.py:ValidationLogger.status_str", "ocfl/validator.py:Validator", "ocfl/inventory_validator.py:InventoryValidator"]}
{"id": "C80", "title": "Validation warns exactly about what deserves a warning", "statement": "Each warning that validation of an object logs has a reason in the object: an inventory with padded versions (W001), sha256 (W004), an id that is no URI (W005), a version without message or user (W007), without or with a strange address (W008, W009), other metadata (W011), a version without inventory (W010), directories besides content (W002), empty content (W003), extensions (W013). For valid objects every such reason gives the warning. Only extensions that are not registered give W013.", "quantifier": "every content of the file system, every object directory in it", "why_tests_cant": "all objects; completeness of the warnings depends on every loop reaching its end", "anchors": ["ocfl/validator.py:Validator.validate", "ocfl/validator.py:Validator.validate_extensions_dir", "ocfl/validator.py:Validator.validate_version_inventories", "ocfl/validator.py:Validator.validate_content", "ocfl/inventory_validator.py:InventoryValidator.validate"]}
{"id": "C81", "title": "lax_digests changes nothing for objects with standard digest algorithms", "statement": "For an object whose inventories name only sha512 or sha256 as digest algorithm and only known algorithms for fixity: validation with lax_digests gives the same result as without, exceptions included, and the same log but for the warnings about sha256. So with either setting it is valid exactly if it is intact; and whatever is valid without lax_digests is valid with it.", "quantifier": "every content of the file system, every object directory in it, digests checked or not", "why_tests_cant": "compares two runs on all objects, valid or not", "anchors": ["ocfl/inventory_validator.py:InventoryValidator.validate", "ocfl/inventory_validator.py:InventoryValidator._digest_regex", "ocfl/inventory_validator.py:InventoryValidator._validate_fixity", "ocfl/validator.py:Validator.validate"]}
{"id": "C82", "title": "Removing the first directory of a path", "statement": "remove_first_directory terminates for every path and returns the path without its first name, with single slashes between the other names and none at the end; for a path of one name it returns the empty string.", "quantifier": "every path string", "why_tests_cant": "all strings, any number of names and slashes", "anchors": ["ocfl/object_utils.py:remove_first_directory"]}
{"id": "C83", "title": "Removing the root from a path", "statement": "strip_root of a path below a root returns the path relative to the root; of any other path it raises LayoutException; joined to the root the result is the path again.", "quantifier": "every current directory, path and root", "why_tests_cant": "all strings and all roots", "anchors": ["ocfl/layout.py:Layout.strip_root"]}
{"id": "C84", "title": "Object.tree shows every entry once with the right mark", "statement": "For every directory for which validation ends without an exception, Object.tree returns a text with one line for each entry of the object root and of its version directories, in order and below one another as in the directory, and marks an entry exactly if it does not belong to a valid object.", "quantifier": "all directory trees, valid objects or not", "why_tests_cant": "all sets of names in object roots and version directories", "anchors": ["ocfl/object.py:Object.tree"]}
{"id": "C85", "title": "The commands of ocfl-root.py work together", "statement": "create makes a storage root exactly if layout, parameters and version are accepted and the place is free; add puts an object exactly where it belongs or changes nothing; the other commands change nothing. After any sequence of commands, list shows just the objects that were added, path shows for each of them where it is, and validate says that the storage root is valid.", "quantifier": "all file systems, all options without --layout (after create) and --lax-digests, all sequences of commands, with other programs at work outside of the storage root, every layout 0003 configuration with tuples", "why_tests_cant": "all sequences of commands and all contents of the file system", "anchors": ["ocfl-root.py:do_store_operation", "ocfl-root.py:get_storage_root", "ocfl-root.py:parse_arguments", "ocfl/storage_root.py:StorageRoot"]}
{"id": "C86", "title": "The commands of ocfl-object.py work together", "statement": "create, build and update make the versions that were asked for, with the metadata of the options or of the metadata file, and say so; show and validate change nothing, nor does any command without an object directory. After any sequence of commands validate says that the object is valid, show draws it, and extract writes the files of any version as they were given, or one of them, and says which version that was. An object built from the versions and the inventory of another has the same files and metadata.", "quantifier": "all file systems, all hash functions without collisions on the files, all options without --lax-digests, --srcbag and --dstbag, all sequences of commands with both digest algorithms, with other programs at work outside of the object", "why_tests_cant": "all sequences of commands, all contents of the file system and all metadata files", "anchors": ["ocfl-object.py:do_object_operation", "ocfl-object.py:print_inventory", "ocfl-object.py:parse_arguments", "ocfl/version_metadata.py:VersionMetadata.from_inventory"]}
{"id": "C87", "title": "ocfl-sidecar.py writes the sidecars it is called for and nothing else", "statement": "Each path, by default the current directory, stands for a directory: the path itself, or the directory of a file inventory.json. Whenever a run of ocfl-sidecar.py is stopped, only sidecars of the inventories in these directories have changed. If it comes to its end, each of them has the digest of the inventory file, and for each path it is shown whether its sidecar was written or why not. It comes to its end exactly if the digest algorithm is known, nothing but a file is in the way and, without --digest, each inventory can be read. A lost or damaged sidecar of an object of this library is written again as it was, if the algorithm used is that of the inventory. A path with which this fails does not prevent the others from being handled.", "quantifier": "all file systems, hash functions, digest options and lists of local paths, all points at which the run is stopped", "why_tests_cant": "all contents of the file system and all lists of paths, also those that name a directory twice or a sidecar", "anchors": ["ocfl-sidecar.py:main", "ocfl-sidecar.py:create_sidecar", "ocfl/object.py:Object.write_inventory_sidecar"]}
{"id": "C88", "title": "An interrupted update can be completed or undone by hand", "statement": "When add_version_with_content is interrupted after the root inventory has been touched, copying the inventory and its sidecar from the directory of the new version to the object root gives exactly what the complete update would have given. At whatever point it is interrupted, removing the directory of the new version, removing the root sidecar of the new digest algorithm if it is another one, and copying the inventory and its sidecar from the directory of the previous version to the object root gives back exactly what was there before the update, and the update can then be tried again.", "quantifier": "all objects, source directories, settings and metadata, all points at which the update is interrupted, also within the writing of a file", "why_tests_cant": "all points at which an update can be interrupted, for all objects", "anchors": ["ocfl/object.py:Object.add_version_with_content", "ocfl/object.py:Object.write_new_version", "ocfl/object.py:Object.write_inventory_and_sidecar"]}
{"id": "C89", "title": "A version without new content", "statement": "A new version that carries the content forward and to which nothing is done has exactly the logical paths of the last version, each with the same content files, and only an inventory and its sidecar are written in its directory. add_version_with_content without a source directory makes such a version (its docstring: the update will be just of metadata), and start_new_version without an object directory uses the object file system that is open (its docstring).", "quantifier": "all objects, settings, digest algorithms and metadata", "why_tests_cant": "all objects that can be updated", "anchors": ["ocfl/object.py:Object.start_new_version", "ocfl/object.py:Object.add_version_with_content", "ocfl/new_version.py:NewVersion.next_version"]}
{"id": "C90", "title": "The digest in the root sidecar fixes what an object has", "statement": "Two objects that pass validation with digest checks, wherever they are, and whose root sidecars have the same digest for the same algorithm have the same root inventory file and the same content files, and each version of the one is extracted to exactly the files to which that of the other is extracted, unless two different files of theirs have the same digest. So if inventory or content of a valid object are changed in any way and the digest in the root sidecar is not, validation fails. All other files of the objects are the same, too.", "quantifier": "all pairs of objects in all file systems, all hash functions, all versions and destinations", "why_tests_cant": "all changes of all objects, and all pairs of valid objects", "anchors": ["ocfl/validator.py:Validator.validate_object", "ocfl/validator.py:Validator.validate_inventory_digest", "ocfl/object.py:Object.extract"]}
{"id": "C91", "title": "Layout configuration files and specification versions of a storage root", "statement": "Writing the parameters of a layout never changes anything that is there, whenever it is stopped, and adds nothing but the configuration file and the directories it is in; if a configuration is there, LayoutException is raised and nothing is written. The configuration that is written is read again, by each instance of the layout, with the same parameters. Writing that was interrupted before the file was made can be repeated. A storage root takes the specification versions 1.0 and 1.1 and no others, and StorageRootException is raised for others; check_spec_version sets the version to the one given if it is good and to the default if none is given.", "quantifier": "all file systems, hash functions, layouts and parameters, all points at which writing is stopped, all version strings", "why_tests_cant": "all contents of the file system and all points at which writing can be stopped", "anchors": ["ocfl/layout.py:Layout.write_layout_params", "ocfl/layout.py:Layout.read_layout_params", "ocfl/storage_root.py:StorageRoot.__init__", "ocfl/storage_root.py:StorageRoot.check_spec_version"]}
{"id": "C92", "title": "What lax_digests lets pass", "statement": "If an inventory passes with lax_digests, then all errors found without it are about its digest algorithm (E025a) or about algorithms of its fixity block (E056b), and it passes without it exactly if it uses standard algorithms only. If an object passes with digest checks, with lax_digests or without, then each file of its manifest is there and has the digest of the manifest for the algorithm named in the inventory, and the digest file has the digest of the inventory. Any known digest algorithm can be used with lax_digests (help text of --lax-digests), and nothing but the name of an algorithm is accepted as one.", "quantifier": "all inventories, objects, hash functions and settings of the validator", "why_tests_cant": "all inventories and all names of algorithms", "anchors": ["ocfl/inventory_validator.py:InventoryValidator.validate", "ocfl/inventory_validator.py:InventoryValidator._digest_regex", "ocfl/validator.py:Validator.validate_inventory_digest_match", "ocfl/command_line_utils.py:add_object_args"]}
{"id": "C93", "title": "compactify_spec_examples.py changes digests and white space only", "statement": "compactify writes the text read with sha512-spec-ex replaced by sha512, with each long digest in quotation marks replaced by its first six characters, an ellipsis and its last six characters, and otherwise with changes of white space between the parts of the JSON text only; arrays are put on one line.", "quantifier": "every text", "why_tests_cant": "all texts", "anchors": ["compactify_spec_examples.py:compactify"]}
{"id": "C94", "title": "The text of validation messages", "statement": "A message has the description in the language asked for, else in English, else in the alphabetically first language, with each %s replaced by the next parameter (??? if it is not given) and, if their number is wrong, with all arguments shown instead; a code without description gives a message that says so. A link to the specification is added exactly for codes of E or W and three digits below 200. The text is stored as the last one for its code and kept if messages of its severity are kept, and the summary has the kept messages in alphabetical order.", "quantifier": "every table with templates of %s and %%, every language, call and log", "why_tests_cant": "all tables, languages, calls and logs", "anchors": ["ocfl/validation_logger.py:log", "ocfl/validation_logger.py:status_str"]}
{"id": "C95", "title": "Opening and creating directories", "statement": "fsw_openfs of a path, or of the same path behind file://, gives the directory there, or raises FileNotFoundError if there is none, and changes nothing. With create, it raises FileNotFoundError and changes nothing if the parent is not a directory, changes nothing if the name exists (FswException if exists_ok is not set), and otherwise makes this directory and changes nothing else. What it gives is a directory.", "quantifier": "every tree, current directory and local path or file:// URL", "why_tests_cant": "all trees and paths", "anchors": ["ocfl/fsw.py:fsw_openfs"]}
{"id": "C96", "title": "What is read from a JSON file is what the text says", "statement": "json.load gives a value exactly for the texts of the JSON grammar (with Python's additions: NaN, Infinity, -Infinity, single surrogates; integers of at most 4300 digits), and gives the value the grammar gives the text: of equal keys the last one counts. A text has one value. Files are read as UTF-8, with every line end as one newline. All other texts raise JSONDecodeError or ValueError. The files this library writes are texts of the grammar for the data.", "quantifier": "every text, every file and every value", "why_tests_cant": "all texts: escapes, surrogates, white space, numbers, nesting, repeated keys, malformed texts", "anchors": ["ocfl/object.py:Object.parse_inventory", "ocfl/validator.py:Validator.validate_inventory", "ocfl/inventory.py:Inventory.write_json", "ocfl/layout.py:Layout.read_layout_params"]}
{"id": "C97", "title": "Files and directories are read and changed as asked", "statement": "A path leads from a directory piece by piece: empty pieces and dots stay, two dots go up (at the top they stay), a name goes into it. Tests for existence and listings say what is there, each name once; a file is read as its bytes, a text as UTF-8 with every line end as one newline. Opening for writing gives an empty file where a file is or in an existing directory, writing adds at the end, makedirs makes exactly the directories that are missing on the way, rm removes one file. Each of them changes no other place, and changes nothing at all if it raises. Writing a text that is interrupted leaves what was there or the first bytes of the text, makedirs that is interrupted leaves some of the directories.", "quantifier": "every file system tree, directory, path and content", "why_tests_cant": "all trees and all paths, with dots, repeated slashes and things in the way", "anchors": ["ocfl/fsw.py:fsw_openfs", "ocfl/fsw.py:fsw_listdir_names", "ocfl/fsw.py:fsw_copyfile", "ocfl/object.py:Object.write_inventory_and_sidecar"]}
{"id": "C98", "title": "The parameters of S3 URLs are read as written", "statement": "_fsw_s3_urlparse gives a path without a question mark as it is, with no parameters; else the path ends before the first question mark, and each parameter has the value of the first field name=value with its name and a value that is not empty, both decoded: plus signs as spaces, percent signs with two hexadecimal digits as bytes of UTF-8. Parameters that are written as forms are, with different names and values that are not empty, are read again as they were.", "quantifier": "every path and list of fields, every list of parameters", "why_tests_cant": "all texts, escapes and repeated names", "anchors": ["ocfl/fsw.py:_fsw_s3_urlparse"]}
{"id": "C99", "title": "The limit on recorded errors changes nothing but the record", "statement": "Validating a storage root with max_errors = n records the messages of at most n objects, namely the first n of those of all objects with messages. The answer, the numbers of objects and of good objects, and everything else are the same for every n. The option --max_errors of ocfl-root.py sets this limit.", "quantifier": "every storage root, instance and limit", "why_tests_cant": "all storage roots and limits; runs with different limits are compared", "anchors": ["ocfl/storage_root.py:StorageRoot.validate_hierarchy", "ocfl/storage_root.py:StorageRoot.validate", "ocfl-root.py:validate"]}
{"id": "C100", "title": "The table of implemented codes says what was found", "statement": "The tables that extract_codes.py makes have the lines of each code of the specification, the strings file or the sources that begins with E or W, each code once and in order; for each suffix there are the links found, each once and in order, or that it is not implemented exactly if none was found, and the last text given. Each link is to the line of the file where the code was found.", "quantifier": "all lists of codes of the specification and of lines that name codes", "why_tests_cant": "all sequences of additions", "anchors": ["extract_codes.py:Code", "extract_codes.py:Codes", "extract_codes.py:main"]}
