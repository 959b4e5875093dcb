#!/usr/bin/env python3
"""Writes /verif/properties.jsonl (one JSON object per line)."""
import json, os
P = []
def p(title, statement, quantifier, why, anchors):
    P.append(dict(id="C%02d" % (len(P) + 1), title=title, statement=statement,
                  quantifier=quantifier, why_tests_cant=why, anchors=anchors))

# ---- version directories and names
p("Next version directory keeps the numbering style",
  "next_version_directory(v) returns the name whose number is one more than v's, in the same style: an unpadded name is followed by the unpadded decimal of n+1; a zero-padded name is followed by a name of exactly the same length that still starts with 'v0'. The only failures are ObjectException for a name that is not v<digits>, and for a zero-padded name whose successor no longer fits its width.",
  "every string passed as vdir", "infinitely many names, carries at every length and padding width",
  ["ocfl/object_utils.py:next_version_directory", "ocfl/object_utils.py:parse_version_directory"])
p("Adding versions numbers them 1, 2, 3, ... with no gap",
  "Starting from an inventory without versions, any number of add_version() calls without an explicit name produces versions numbered exactly 1..n in one padding style, the head is always the last one added, and earlier version blocks are left unchanged; the only way to fail is exhausting the padding width (or the 5 digit limit on version names).",
  "every number of calls and every admissible zero_padded_width", "the claim is about all histories; overflow happens only after 10^(w-1) calls",
  ["ocfl/inventory.py:Inventory.add_version", "ocfl/inventory.py:Inventory._next_version_directory", "ocfl/object_utils.py:first_version_directory"])
p("make_unused_filepath always finds an unused name",
  "make_unused_filepath(f, used, sep) terminates, returns a string not in used, returns f itself when f is unused, and otherwise returns f+sep+n for the smallest n >= 2 such that the result is unused.",
  "every path, separator and finite set of used paths", "termination and minimality range over all sets of used names",
  ["ocfl/object_utils.py:make_unused_filepath"])
# ---- layouts
p("Flat-direct layout (0002) is the identity on safe identifiers and rejects the rest",
  "identifier_to_path returns the identifier unchanged when it is one safe path component (non-empty, not '.', not '..', no '/'), and raises LayoutException otherwise; hence different identifiers never share a path and no path leaves the storage root.",
  "every identifier string", "all strings", ["ocfl/layout_0002_flat_direct.py:Layout_0002_Flat_Direct.identifier_to_path"])
p("Hashed n-tuple layout (0003): shape, safety and uniqueness of object paths",
  "For a configuration accepted by the layout, identifier_to_path returns numberOfTuples components of exactly tupleSize hex characters of the identifier's digest followed by one encapsulation directory made only of [A-Za-z0-9-_%]; no component is '.', '..' or contains '/'; the encapsulation directory is at most 100 characters plus '-' plus the digest; two different identifiers with the same path must have encoded forms longer than 100 characters that agree on the first 100 and have equal digests; no object path is inside another object's path (all for non-empty identifiers).",
  "every pair of non-empty identifiers and every accepted configuration", "collisions and nesting are statements about all pairs of identifiers",
  ["ocfl/layout_0003_hash_and_id_n_tuple.py:_id_to_path", "ocfl/layout_0003_hash_and_id_n_tuple.py:_get_encapsulation_directory", "ocfl/layout_0003_hash_and_id_n_tuple.py:_percent_encode"])
p("Flat-quoted layout is reversible and yields one safe directory name",
  "For every non-empty identifier, identifier_to_path gives a single path component without '/' from which decode() recovers the identifier (so distinct identifiers get distinct paths), and the component never refers to the storage root itself or its parent.",
  "every non-empty identifier", "all Unicode strings", ["ocfl/layout_nnnn_flat_quoted.py", "ocfl/layout.py:Layout.encode", "ocfl/layout.py:Layout.decode"])
p("UUID quadtree layout: unique paths of eight four-character components",
  "identifier_to_path accepts exactly prefix + a lower-case UUID, its path has eight four-character components which concatenate to the UUID without hyphens, no path is nested in another, and two different accepted identifiers never get the same path.",
  "every identifier and prefix", "uniqueness is over all pairs of identifiers", ["ocfl/layout_nnnn_uuid_quadtree.py:Layout_NNNN_UUID_Quadtree.identifier_to_path"])
p("Tuple tree layout: unique and non-nested object paths",
  "For every non-empty identifier the path consists of the encoded identifier cut in non-empty tuples of at most tupleSize characters (all but the last exactly tupleSize) followed by the whole encoded identifier, so distinct encoded identifiers have distinct paths; and no object path lies inside another object's path.",
  "every pair of identifiers and every tuple size from 2 to 6", "nesting is a statement about all pairs of identifiers", ["ocfl/layout_nnnn_tuple_tree.py:Layout_NNNN_Tuple_Tree.identifier_to_path"])
p("Layout configuration is checked and round-trips",
  "check_and_set_layout_params accepts a configuration exactly when the extension name matches and each parameter is in range (0003: supported digest, tupleSize and numberOfTuples integers in 0..32, both zero or both non-zero, product at most the digest length), on success the layout's own config reproduces the parameters, and feeding a layout's config back to it is accepted and changes nothing.",
  "every JSON configuration value", "the parameter space is unbounded and includes values of every JSON type", ["ocfl/layout.py:Layout.check_and_set_layout_params", "ocfl/layout_0003_hash_and_id_n_tuple.py:Layout_0003_Hash_And_Id_N_Tuple.check_full_config"])
p("A storage root that was initialized can be opened again",
  "After StorageRoot.initialize succeeds with any registered layout name and supported specification version, opening the same root with check_root_structure succeeds, reports the same specification version and the same layout with the same parameters.",
  "every registered layout name, spec version and layout parameters", "needs all layouts and all parameter values", ["ocfl/storage_root.py:StorageRoot.initialize", "ocfl/storage_root.py:StorageRoot.check_root_structure", "ocfl/layout_registry.py"])
# ---- digests and file primitives
p("file_digest is the digest of the whole file, however it is read",
  "file_digest(file, type) equals the digest of the complete byte content for every content length, i.e. reading in 64kB blocks changes nothing, and unsupported digest types raise ValueError.",
  "every file content and digest type", "block boundary effects over all lengths", ["ocfl/digest.py:file_digest", "ocfl/digest.py:_file_digest"])
p("Computed digests are accepted by the validator's own digest format check",
  "For every digest type supported by file_digest, the value it computes matches digest_regex for the same type, and normalized_digest leaves it unchanged.",
  "every digest type and every file content", "all contents", ["ocfl/digest.py:DIGEST_REGEXES", "ocfl/digest.py:file_digest", "ocfl/digest.py:normalized_digest"])
p("fsw_files_identical decides byte equality",
  "fsw_files_identical(f1, f2) returns True exactly when both files exist with identical byte content, for every content, and FileNotFoundError if either is missing.",
  "every pair of file contents", "block boundary effects over all contents", ["ocfl/fsw.py:fsw_files_identical"])
p("Copying a directory copies every file exactly and nothing else",
  "fsw_copydir leaves every previously existing file of the destination unchanged, creates exactly the files of the source tree (same relative paths, same bytes) under the new destination, and refuses without changing anything when the destination already exists or the source is not a directory.",
  "every source tree and destination filesystem", "all directory trees", ["ocfl/fsw.py:fsw_copydir", "ocfl/fsw.py:fsw_copyfile", "ocfl/fsw.py:fsw_walk_files"])
p("Walking a tree visits every file exactly once",
  "fsw_walk_files terminates on every finite tree and returns the relative path of every file below the start directory exactly once and nothing else.",
  "every finite directory tree, any listing order", "all tree shapes", ["ocfl/fsw.py:fsw_walk", "ocfl/fsw.py:fsw_walk_files", "ocfl/fsw.py:_fsw_relpath"])
# ---- inventory operations
p("Adding a file keeps the inventory consistent",
  "Version.add_file adds exactly the given logical path with the given digest to that version's state, changes no other version's state, never reuses an existing content path, stores no second copy of content when dedupe is on, makes the logical path resolve to content with that digest, and raises InventoryException leaving the inventory unchanged if the logical path already exists in the version.",
  "every inventory, digest, path and dedupe setting", "invariant over all operation sequences", ["ocfl/inventory.py:Version.add_file", "ocfl/inventory.py:Inventory.add_file_to_manifest"])
p("Deleting a logical path removes that path only",
  "Version.delete_logical_path removes exactly the given logical path from the version's state, returns its digest, leaves every other logical path of every version with the same digest, and removes content paths only from the current version's directory and only for the removed digest; it raises InventoryException if the path is absent. Every other logical path of every version still resolves to content.",
  "every inventory and path", "all states and sharing patterns", ["ocfl/inventory.py:Version.delete_logical_path"])
p("Renaming keeps the content",
  "NewVersion.rename(old, new) makes new resolve to the same content as old did, removes old, and leaves all other logical paths as they were; it fails without change if old is absent or new already exists.",
  "every inventory state reachable with add, delete and rename", "depends on where the content is stored, all histories", ["ocfl/new_version.py:NewVersion.rename", "ocfl/inventory.py:Version.delete_logical_path"])
p("find_logical_path returns the latest occurrence",
  "find_logical_path(p) returns the highest numbered version whose state contains p together with the first content path of its digest, and (None, None) exactly when no version contains p.",
  "every inventory and path", "all version histories, ordering by number not by name", ["ocfl/inventory.py:Inventory.find_logical_path", "ocfl/inventory.py:Inventory.version_directories"])
p("diff_with_previous is exact",
  "diff_with_previous lists ('A', d, p) exactly for pairs in the current but not the previous state and ('D', d, p) exactly for pairs in the previous but not the current one; it is empty exactly if both states map the same logical paths to the same digests.",
  "every pair of states", "all states", ["ocfl/new_version.py:NewVersion.diff_with_previous"])
p("Normalizing digests does not change what an inventory means",
  "For an inventory accepted by the validator, normalize_digests keeps, for every version and logical path, the content paths it resolves to, and leaves only lower-case digests with no entry lost or merged.",
  "every valid inventory", "all mixtures of letter case", ["ocfl/inventory.py:Inventory.normalize_digests", "ocfl/object.py:Object.parse_inventory"])
# ---- inventory validator
p("A True from InventoryValidator.validate means the inventory obeys the OCFL rules",
  "If validate returns True then the inventory has a non-empty string id, a supported type, an allowed digest algorithm, a head equal to the last of a gap-free version sequence, well-formed and unique content and logical paths, every state digest is in the manifest with at least one content path and every manifest path's digest is used by a state, every content path starts with an existing version directory and the content directory, all created/user/message values are well formed, and fixity entries only mention manifest files.",
  "every JSON document", "soundness over all documents", ["ocfl/inventory_validator.py:InventoryValidator.validate"])
p("Every inventory that obeys the OCFL rules is accepted",
  "validate returns True for every inventory that satisfies the rules of the OCFL specification the validator implements (no false alarms), without raising an exception.",
  "every well-formed inventory of any number of versions and files", "completeness over all documents", ["ocfl/inventory_validator.py:InventoryValidator.validate"])
p("Version sequence check is exact",
  "The versions block passes the sequence check exactly when its keys are v1..vn, or v0..01..v0..0n in one zero-padded width with n < 10^(width-1), and then all_versions is that list in order.",
  "every set of version keys", "all sets of names, all widths", ["ocfl/inventory_validator.py:InventoryValidator._validate_version_sequence"])
p("No path of an accepted inventory is a directory of another",
  "In an accepted inventory no content path (and, within one version, no logical path) is at the same time a directory prefix of another one.",
  "every accepted inventory, paths of every depth", "depth is unbounded", ["ocfl/inventory_validator.py:InventoryValidator._check_logical_path", "ocfl/inventory_validator.py:InventoryValidator._check_content_path"])
p("Accepted content paths stay inside the object",
  "Every content path in an accepted inventory consists of a version directory, the content directory and further components none of which is empty, '.' or '..'.",
  "every accepted inventory", "all strings, including control characters", ["ocfl/inventory_validator.py:InventoryValidator._check_content_path"])
p("Validating an inventory never raises an exception",
  "InventoryValidator.validate returns True or False for every JSON value and logs at least one error whenever it returns False; it never raises.",
  "every JSON value", "all JSON values of every type at every position", ["ocfl/inventory_validator.py:InventoryValidator.validate", "ocfl/inventory_validator.py:InventoryValidator._validate_versions"])
p("Accepted prior inventories agree with the root inventory",
  "If validate_as_prior_version returns True then the prior inventory's versions are a proper subset of the root inventory's and for each of them both inventories list the same logical paths, each of whose prior content files is among the root inventory's content files for it.",
  "every pair of valid inventories, same or different digest algorithms", "all pairs", ["ocfl/inventory_validator.py:InventoryValidator.validate_as_prior_version"])
p("Any valid inventory can be opened",
  "Object.parse_inventory succeeds on every root inventory that InventoryValidator accepts, and afterwards every logical path of every version resolves to a content path.",
  "every valid inventory", "all widths of version names", ["ocfl/object.py:Object.parse_inventory", "ocfl/object_utils.py:parse_version_directory"])
# ---- object validator
p("A True from validate_object means the object is intact",
  "If validate_object with digest checks returns True then every content file listed in the manifest exists and its bytes have the recorded digest, no other file is present in any version's content directory, the root inventory matches its sidecar, the head version's inventory copy (if present) is byte identical with the root inventory, there is exactly one supported object declaration with the right content, and the object root contains only expected entries.",
  "every object directory tree", "soundness over all trees", ["ocfl/validator.py:Validator.validate_object", "ocfl/validator.py:Validator.validate_content"])
p("Corruption is detected",
  "If any content file of an object that validates is changed, deleted or a file is added under a content directory, validation with digest checks returns False, unless the new content has the same digest as the old one.",
  "every valid object and every modification of content files", "all modifications of all objects", ["ocfl/validator.py:Validator.validate_content", "ocfl/validator.py:Validator.check_additional_digests"])
p("Skipping digest checks only skips digest checks",
  "An object accepted with digest checks is accepted without them, and an object accepted without them is rejected with them only because of a digest or sidecar mismatch.",
  "every object tree", "relation between two runs on every tree", ["ocfl/validator.py:Validator.validate_object"])
p("Validation never writes and does not depend on logging options",
  "validate_object leaves the filesystem unchanged, and its result and error count do not depend on log_warnings, log_errors or lang; num_errors equals the number of errors reported and is never decreased.",
  "every object tree and logging options", "relation between runs", ["ocfl/validation_logger.py:ValidationLogger", "ocfl/validator.py:Validator.validate_object"])
# ---- object life cycle
p("A created object is valid",
  "Object.create from any source directory, with an identifier and well formed metadata, writes an object that validate_object accepts (digests included).",
  "every source tree, options dedupe / normalization / content directory / sha512 or sha256", "all source trees", ["ocfl/object.py:Object.create", "ocfl/new_version.py:NewVersion.first_version"])
p("An updated object is valid",
  "add_version_with_content on a valid object produced by this library yields an object that validate_object accepts (digests included).",
  "every object history and source tree", "all histories", ["ocfl/object.py:Object.add_version_with_content", "ocfl/object.py:Object.write_new_version"])
p("Every version can be extracted exactly as it was added",
  "After any history of create and add_version_with_content, extracting version k yields exactly the files of the k-th source directory with the same bytes, for every k, as long as no two different contents have the same digest.",
  "every history of source trees and every version", "all histories of all lengths", ["ocfl/object.py:Object.extract", "ocfl/object.py:Object.create", "ocfl/object.py:Object.add_version_with_content"])
p("Old versions are immutable",
  "write_new_version changes no file below an existing version directory: it only creates files below the new version directory and replaces the root inventory and sidecar.",
  "every object and every new version built through the API", "all operation sequences and content paths", ["ocfl/object.py:Object.write_new_version", "ocfl/new_version.py:NewVersion.add"])
p("An interrupted update never loses an old version",
  "If write_new_version is interrupted at any point, all files of earlier versions are still intact, and whenever the root inventory is the new one, all content files it mentions and the new version's own inventory have been completely written.",
  "every crash point, including partial writes", "all crash points of all updates", ["ocfl/object.py:Object.write_new_version", "ocfl/object.py:Object.write_inventory_and_sidecar"])
p("Deduplication and forward delta store content once",
  "With dedupe and forward delta on, an update copies a source file only if no file with the same digest exists in the object, so every digest has at most one content path per history; with forward delta off, at most one per version.",
  "every history of source trees", "all histories", ["ocfl/new_version.py:NewVersion.add"])
p("Changing the digest algorithm keeps all versions",
  "start_new_version with a different digest algorithm keeps, for every existing version and logical path, the content paths it resolves to, provided no two different contents collide under the new algorithm.",
  "every object and pair of digest algorithms", "all inventories", ["ocfl/object.py:Object.start_new_version"])
p("The inventory sidecar always belongs to the inventory's digest algorithm",
  "After create, build, write_new_version or running the sidecar tool, the root sidecar file is named after the inventory's digestAlgorithm and contains the digest of the inventory file.",
  "every object and every digest algorithm setting of Object", "depends on all combinations of object and instance settings", ["ocfl/object.py:Object.write_inventory_and_sidecar", "ocfl/object.py:Object.write_new_version", "ocfl-sidecar.py:create_sidecar"])
p("A new version built with add, delete and rename is consistent when written",
  "For every sequence of NewVersion add, delete and rename calls that does not raise, after write_new_version every content path in the manifest for the new version has been copied from a source file with that digest, and every file copied is in the manifest.",
  "every sequence of operations", "all operation sequences", ["ocfl/new_version.py:NewVersion.add", "ocfl/new_version.py:NewVersion.delete", "ocfl/new_version.py:NewVersion.rename", "ocfl/object.py:Object.write_new_version"])
p("Extraction never overwrites existing data",
  "extract raises ObjectException, leaving everything unchanged, if the destination directory exists and is not empty or the version does not exist; otherwise it writes only below the destination directory, and never modifies the object.",
  "every object, version and destination", "all filesystems", ["ocfl/object.py:Object.extract", "ocfl/object.py:Object._extract_setup"])
p("Extracting one file gives the bytes of that logical path",
  "extract_file writes exactly the content of the given logical path in the given version under its base name, and raises ObjectException if the path is not in that version.",
  "every object, version and logical path", "all states and sharing patterns", ["ocfl/object.py:Object.extract_file"])
p("No new version without a difference when asked",
  "add_version_with_content(abort_if_no_difference=True) leaves the object unchanged and returns None exactly if the source directory has the same logical paths with the same digests as the head version.",
  "every object and source tree", "all pairs of states", ["ocfl/object.py:Object.add_version_with_content"])
p("The specification version never decreases and matches the declaration",
  "A new version never has a lower specification version than the previous one, and after create, build or update the inventory's specification version is the one in the object's declaration file.",
  "every object and spec_version setting", "all histories", ["ocfl/new_version.py:NewVersion.next_version", "ocfl/object.py:Object.build", "ocfl/object.py:Object.write_object_declaration"])
p("Building from version directories equals creating and updating",
  "Object.build on a source directory with version directories numbered 1..n yields an object whose version k state is exactly the content of the k-th directory, and raises ObjectException when the numbers have a gap.",
  "every source tree, number of versions and padding", "all version directory sets", ["ocfl/object.py:Object.build", "ocfl/object.py:Object.version_dirs_and_metadata"])
# ---- storage root
p("Adding an object to a storage root is safe and exact",
  "StorageRoot.add copies the object to the path given by the layout for its identifier, byte for byte, leaves all other files unchanged, and fails without changing anything if that path exists.",
  "every storage root, layout and object", "all trees", ["ocfl/storage_root.py:StorageRoot.add"])
p("Listing a storage root finds exactly the object roots",
  "object_paths yields exactly the directories below the root that hold a single supported object declaration and have no ancestor directory (other than the root) containing files, each once; yielded objects are never nested; extensions/ is skipped.",
  "every storage root tree", "all trees of all depths", ["ocfl/storage_root.py:StorageRoot.object_paths"])
p("A True from StorageRoot.validate means all objects are valid",
  "validate returns True exactly if the root structure is correct, no traversal error was found and every object found is valid, independent of earlier calls on the same instance.",
  "every storage root and every sequence of calls", "all trees and call histories", ["ocfl/storage_root.py:StorageRoot.validate", "ocfl/storage_root.py:StorageRoot.validate_hierarchy", "ocfl-validate.py:do_validation"])
# ---- metadata and formats
p("Declaration files verify",
  "A Namaste file written for any content (with a non-empty tag value) passes its own content check, its tag value has at most 40 characters drawn from word characters, '.', '-', ':' and '_', and find_namastes returns exactly the files with the tag, sorted, or raises if there are more than the limit.",
  "every content string", "all strings", ["ocfl/namaste.py:content_to_tvalue", "ocfl/namaste.py:Namaste.check_content", "ocfl/namaste.py:find_namastes"])
p("Datetime strings denote the right instant",
  "str_to_datetime accepts exactly the W3C datetime forms with valid calendar values, and returns the POSIX time of the instant denoted (RFC 3339 semantics, including the UTC offset); any two strings denoting the same instant give the same value.",
  "every string", "all dates, offsets and leap years", ["ocfl/w3c_datetime.py:str_to_datetime"])
p("Writing then reading a time is the identity",
  "str_to_datetime(datetime_to_str(t, no_fractions=True)) = t for every integer time t from year 1 to 9999.",
  "every integer number of seconds in the range of datetime", "about 3*10^11 values including leap years and century rules", ["ocfl/w3c_datetime.py:datetime_to_str", "ocfl/w3c_datetime.py:str_to_datetime"])
p("Version metadata round-trips through an inventory",
  "Metadata added with add_version(metadata=m) and read back with VersionMetadata(inventory, version) has the same created, message, name and address (when created is set); metadata of other versions is unaffected.",
  "every metadata value and inventory", "all combinations of present and absent values", ["ocfl/version_metadata.py:VersionMetadata.as_dict", "ocfl/version_metadata.py:VersionMetadata.from_inventory"])
p("Bag metadata round-trips",
  "Metadata written to a bag by bag_extracted_version and read back by bag_as_source into empty metadata reproduces id, message and name, and the address if it is a mailto: address.",
  "every metadata value", "all values, including empty ones", ["ocfl/bagger.py:bag_as_source", "ocfl/bagger.py:bag_extracted_version"])
p("Inventories survive being written and read",
  "json.load(write_json(inv)) gives an inventory with the same value for every key at every level, for all Unicode strings; keys are written in sorted order so equal inventories produce identical files.",
  "every inventory with arbitrary Unicode content", "all strings and nesting", ["ocfl/inventory.py:Inventory.write_json", "ocfl/inventory.py:Inventory.as_json"])
p("Content paths produced from source paths are inside the version and never clash",
  "For every source path found in a source directory, the content path chosen by NewVersion.add starts with head/contentDirectory/, is unused so far, and (uri normalization) is the injective percent-encoding of the source path with no hidden file name at the top level.",
  "every set of source paths and every normalization setting", "all strings and collisions", ["ocfl/new_version.py:NewVersion._map_filepath", "ocfl/new_version.py:NewVersion.add"])
p("Path type detection",
  "find_path_type returns 'object' or 'root' exactly according to the first OCFL-shaped 0= declaration file in name order, 'file' for a plain file, and an explanatory text otherwise.",
  "every directory tree", "all sets of declaration files", ["ocfl/object_utils.py:find_path_type"])
p("Prior inventories and fixity are checked against the content",
  "If validate_object with digest checks returns True, then every digest recorded for a root manifest file in any readable version inventory's manifest or fixity block, and in the root fixity block, is the digest of that file's bytes under the stated algorithm.",
  "every object tree with any number of version inventories", "soundness over all trees and all blocks", ["ocfl/validator.py:Validator.validate_version_inventories", "ocfl/validator.py:Validator.check_additional_digests"])
with open(os.path.join(os.path.dirname(__file__), "..", "properties.jsonl"), "w") as fh:
    for x in P:
        fh.write(json.dumps(x) + "\n")
print(len(P))
