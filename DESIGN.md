# Formal model of ocfl-py: design

The target is the Python package in `/repo` (zimeon/ocfl-py at the pinned
commit). The model is written in Rocq/Coq 8.16.1, standard library only, in
`rocq/theories/`. `properties.jsonl` lists the claims, `MANIFEST.json` maps each
claim to its theorems, `seeded/LOG.jsonl` records the seeded-bug experiments.

## 1. Layers

| Layer | Files | Content |
|---|---|---|
| base | `Base.v`, `Utf8.v`, `Json.v`, `PyJson.v`, `Log.v`, `PathModel.v` | Python strings (lists of Unicode code points), dicts (insertion-ordered association lists), exceptions as values, decimal numbers, sorting |
| regex | `Regex.v`, `Unicode.v` | a backtracking matcher with Python's greedy semantics, captures and `$` (matches before a final newline too); proved sound and complete against a relational semantics; the regexes of the code are transcribed literally |
| model | `*Model.v` | one file per Python module, function by function |
| spec | `*Spec.v` | what the properties mean, written without the model's helpers |
| proofs | `*Proofs.v` | lemmas |
| properties | `Properties_*.v` | the theorems named in `MANIFEST.json`, their `Print Assumptions`, and concrete non-vacuity examples |

## 2. Modelling conventions

* **Strings.** `str = list N`, one element per code point. `\d`, `int()`, `\s`, `\w` use the Unicode 14 tables of CPython 3.11.
* **Exceptions.** A Python function that may raise returns `exc A = Ok a | Raise e`; `e` tells the Python exception class. Uncaught exceptions of the validator are therefore visible in the model.
* **Dicts.** Insertion-ordered association lists; every model operation keeps keys unique.
* **JSON.** Inductive `json`; numbers other than integers are kept as tokens. `json.load` never yields duplicate keys (`json_wf`).
* **File system.** A tree (`FsModel.v`): a node is a file with its bytes, a directory with named entries in any order (the listing order), or something else (neither). A place is a list of names; path strings are resolved as `os.path.normpath` and fsspec's `DirFileSystem` do. Reading is a pure function of the tree; a writing program (`io`) computes primitive steps (make directory, create or empty a file, append bytes, remove a file), so that crash states are the states after any prefix of the steps, with the last append possibly partial. Only local, case-sensitive, link-free file systems are modelled; fsspec's memory/zip/S3 back ends, permissions and I/O errors are not. A slash at the end of a `DirFileSystem` base path is ignored.
* **Hash functions.** An arbitrary function `H : algorithm -> bytes -> digest`, quantified in each theorem that needs it. Where the real functions' output format matters, the hypothesis says "lower-case hex of the right length". Freedom from collisions is never assumed globally (that would be unsatisfiable for fixed-length digests); theorems that need it say "no two of the contents occurring here collide".
* **JSON text.** Concrete printer and parser for what `json.dump(..., sort_keys=True, indent=2)` writes and `json.load` reads, with a round-trip theorem.
* **Time, users, logging text, command-line parsing**: not modelled, except where a property speaks about it. Log entries are (severity, code); how `ValidationLogger` makes texts of them is modelled separately (`LoggerModel.v`, `ValidationCodes.v`: C33, C79), without the arguments the validator gives.

## 3. Properties: what is modelled, how it is proved

| Id | Model | Proof |
|---|---|---|
| C01 | `object_utils` version directory functions over the regex engine | carry-free arithmetic on decimals; case analysis on the regex semantics |
| C02 | `Inventory.add_version`, `head`, `version_directories` | induction on the number of calls |
| C03 | `make_unused_filepath` with fuel bounded by the number of used names | pigeonhole + minimality by induction |
| C04-C08 | layouts, character by character; the pairtree encoder is a parameter (external library) | injectivity by decoding functions; nesting by depth counting; refutations by witness; the exact names by a separate spec (`Properties_LayoutExact.v`) |
| C09 | `check_and_set_layout_params`, per-parameter checks over JSON values | case analysis |
| C10 | `StorageRoot.initialize`, `check_root_structure` (`StorageRootModel.v`, `Properties_RootInit.v`) | the files written, step by step, then reading them with the JSON round trip |
| C48, C68, C69 | `StorageRoot.add`, `fsw_copydir` (`RootAddSpec.v`, `Properties_RootAdd.v`, `Properties_RootFill.v`) | success condition and files at every step; listing before and after; induction on the sequence of adds |
| C70-C72 | `StorageRoot.add`, `StorageRoot.validate` (`IntactCopyProofs.v`, `Properties_RootValid.v`, `Properties_RootObject.v`) | intactness depends only on files and on directories that have files; invariant of the sequence of adds |
| C49, C50, C67 | `object_paths`, `validate`, `list_objects` (`Properties_StorageRoot.v`, `Properties_RootList.v`) | invariant of the walk; refutations by witness |
| C11, C13 | chunked reading loops | induction on chunks |
| C12 | digest regexes on the engine | regex semantics; sha512-spec-ex refuted by witness |
| C14, C15 | `fsw_walk`, `fsw_copydir` over the file system | invariant of the work list |
| C16-C20 | typed inventory and `Version`/`NewVersion` operations | invariants (unique content paths, unique logical paths per version, resolution) |
| C21, C29 | `normalize_digests`, `parse_inventory`, the JSON of an inventory (`Properties_InventoryJson.v`, `Properties_Opened.v`) | validator soundness supplies the no-clash hypothesis; `C29_read`, `C42_json` compare inventory and JSON member by member with a specification of their own |
| C22-C27 | `InventoryValidator` on raw JSON, writer + exception monad | equivalence with a declarative specification; refutations by witness |
| C28 | `validate_as_prior_version` | set reasoning |
| C30-C33, C59, C61-C63 | `Validator.validate_object` over the file system, log entries and exceptions | equivalence with a declarative specification (`intact` in `ValidatorSpec.v`) by an invariant of each loop; C31 and C59 follow from it; C32 by a relation between two runs that holds step by step |
| C34-C47, C64-C66 | `Object` and `NewVersion` over the file system (`ObjectModel.v`, `NewVersionModel.v`; specifications `ObjectSpec.v`, `UpdateSpec.v`, `ExtractSpec.v`; theorems `Properties_Object.v`, `Properties_Update.v`, `Properties_Extract.v`, `Properties_Build.v`, counterexamples also in `Properties_ObjectFindings.v`) | `history`: all sequences of create, build and update with other changes in between; refinement to a list of snapshots; step-prefix invariants for crashes |
| C51 | `namaste` over the regex engine and file system (`Properties_Namaste.v`, `Properties_Declaration.v`) | string lemmas |
| C52, C53 | `w3c_datetime` with calendar arithmetic in Z | days-from-civil bijection by lia/nia and induction |
| C54 | `VersionMetadata` | case analysis |
| C55 | `bagger.py` (`BaggerModel.v`); the library bagit is a parameter with the behaviour stated in `Properties_Bagger.v` | case analysis |
| C56 | JSON printer and parser | structural induction |
| C57, C60, C39_in_directory_partial | `_map_filepath`, percent-encoding, `Version.add_file`, `content_directory_to_use` (`Properties_ContentDir.v`) | injectivity by decoding; path element lemmas |
| C58 | `find_path_type` over the file system | case analysis |
| C73, C74 | the scripts `ocfl-validate.py`, `ocfl-root.py` (validate), `ocfl-object.py` (validate) after their arguments have been parsed (`ToolModel.v`, `Properties_Tools.v`) | C30, C50, C58 and the inventory validator, one path after the other; refutations by witness |
| C75 | the commands extract and create of `ocfl-object.py` (`ToolModel.v`, `Properties_RoundTrip.v`, `Properties_BagRoundTrip.v`; bagit is a parameter) | C36, C76, C55 and C34 put together |
| C76 | version metadata from the calls to the results of extract and extract_file (`MetaSpec.v`, `MetaProofs.v`, `Properties_Metadata.v`) | an invariant on what the inventory says of each version, over histories |
| C77 | attributes of `Inventory` and `Version` (`InventoryModel.v`, `InventoryAccessModel.v`, `Properties_Accessors.v`) | case analysis, list lemmas |
| C78 | `compare_metadata` in `InventoryValidatorModel.v`, Python equality in `PyJson.v` (`WarningSpec.v`, `WarningProofs.v`) | induction on JSON values and on the versions |
| C79 | the table of codes `ValidationCodes.v` (from `validation-errors.json`), `LoggerModel.v`, every place that logs (`Properties_Codes.v`) | a predicate on logs kept by all parts of the validator; the table by computation |
| C80 | the whole validator (`WarningSpec.v`, `WarningProofs.v`, `WarningFullProofs.v`, `Properties_Warnings.v`) | a predicate on logs for soundness; for completeness that clean runs reach every turn of their loops |
| C81 | the whole validator, run twice (`LaxSpec.v`, `LaxProofs.v`, `Properties_Lax.v`) | a relation between two logs kept by all steps |
| C62 | the whole validator on orderly objects (`RaisesSpec.v`, `RaisesProofs.v`, `Properties_Raises.v`) | `safe` (no exception) through every step of the log monad |
| C64 | updates of valid objects of any origin (`OtherSpec.v`, `ObjectOtherProofs.v`, `ObjectForeignProofs.v`, `Properties_Other.v`) | inversion of the inventory reader on valid inventories, then `intact` of the new tree rule by rule |
| C82, C83, C51_get | `strip_root`, `remove_first_directory`, `get_namaste` (`UtilModel.v`, `Properties_Utils.v`) | lemmas on names between slashes |
| C84 | `Object.tree` (`TreeModel.v`, `TreeSpec.v`, `TreeProofs.v`, `Properties_Tree.v`) | rows first, then how they are drawn |
| C85 | the commands of `ocfl-root.py` after argparse (`RootToolModel.v`, `RootToolSpec.v`, `Properties_RootTool.v`) | C10, C48, C67, C69, C71 and C74 put together: induction on the commands; only create and add have steps; refutations by witness |
| C86 | the commands of `ocfl-object.py` after argparse (`ObjectToolModel.v`, `ObjectToolSpec.v`, `ObjectToolProofs.v`, `Properties_ObjectTool.v`) | C34, C35, C36, C44, C47, C76 and C84 put together by induction on the commands; the metadata file by what its JSON says of each version, and the loop over its versions; `--skip` by witness |
| C87 | `ocfl-sidecar.py` after argparse (`SidecarToolModel.v`, `Properties_SidecarTool.v`) | C41 for one path; an invariant between the paths: only files named as sidecars differ, and no inventory and no directory; `C87_repairs` with C41 for the object as it was |
| C88 | interrupted updates, completed or undone by copying files (`RecoverProofs.v`, `Properties_Recover.v`) | the order of the steps of `write_new_version`: once the root inventory is touched everything else but the root sidecars is in place; then C37 for what is untouched and `history` along equal looks |
| C89 | versions without new content (`Properties_Carry.v`) | `start_versions` for what is carried forward, `write_done` with nothing to copy; the two defaults by computation, for all inputs |
| C90 | what the root sidecar fixes (`Properties_RootDigest.v`) | C30 and C31 for both objects: same digest, so same inventory bytes, same JSON and facts, so same digests of content; extraction as in C66 |
| C91 | layout configuration files, specification versions (`Properties_LayoutFile.v`) | the steps of write_layout_params act only on places where nothing is; the printed JSON is read again and accepted (C09) |
| C92 | lax_digests (`Properties_LaxMore.v`) | the strict run follows the lax one step by step up to the two codes; the checks of content and digest file are read off a run without errors |
| C93 | `compactify_spec_examples.py` (`CompactModel.v`, `Properties_Compact.v`, `Properties_CompactSpace.v`) | one lemma on `re.sub` for a pattern given by its denotation, then the six patterns; refutations by computation |
| C94 | `validation_logger.py` (`LoggerModel.v`, `Properties_Message.v`) | relations for the choice of language, the parameters and the link, each shown equivalent to the function; the table of the repository meets the hypothesis (`Properties_Codes.v`) |
| C95 | `fsw_openfs` (`FswModel.v`, `Properties_OpenFs.v`) | cases on the tree; `makedir_one` for the new directory; refutation: with create, a file of the name is taken for the directory |
| C96 | `json.load` (`JsonTextModel.v`, grammar in `JsonGrammarSpec.v`, `Properties_JsonRead.v`) | soundness by induction on the fuel, completeness by induction on the derivation, with the text that follows |
| C97 | fsspec and the operating system, as far as used (`FsModel.v`, `Properties_Files.v`) | a relation for where a path leads; each operation by what is at every place before and after, in all cases |
| C98 | `_fsw_s3_urlparse` with `parse_qs` and `unquote` (`S3UrlModel.v`, `Properties_S3Url.v`) | the fields by the first separator; decoding by induction on a relation for escapes |
| C99 | `max_errors` of `StorageRoot.validate` and `--max_errors` of `ocfl-root.py` (`MaxErrorsModel.v`, `Properties_MaxErrors.v`) | induction on the objects; a relation between two runs with different limits; refutation by witness |
| C100 | `Code` and `Codes` of `extract_codes.py` and the links (`StatusModel.v`, `Properties_Status.v`) | induction on the lines added; the links refuted for all files |

Where the faithful model contradicts a property, the theorem is called
`..._refuted` (an explicit witness computed by the model) and the part that does
hold is a theorem `..._partial`.

## 4. Trusted base

* Coq 8.16.1 kernel (with `vm_compute` for concrete examples).
* The correspondence between `/repo` and the model, by reading: every model definition cites file and lines.
* `Print Assumptions` for every property theorem: reported in section 5 once proved.
* Not modelled: see section 2, and
  * `validator.py`: the arguments of messages; `force_spec_version` (stored and never used); that the digest file of an inventory is decoded only up to its first line's block; which exception is raised after an inventory with blocks of the wrong type (only that one is raised). The validator only reads, so the model is a function of the tree.
  * The theorems on whole objects (C30, C31, C59, C63) are for `lax_digests=False`; those of C32 for both. C81 carries them over to `lax_digests=True` for objects with standard digest algorithms.
  * `object.py`: log output, fsspec URLs as object directories (the theorems have the hypothesis `no_url` where a path could be one).
  * `storage_root.py`: log output, `__str__`. The specification file copied by `initialize` is a parameter (any bytes).
  * `bagger.py`: bagit itself; bags with repeated tags.
  * `fsw.py`: everything but local file systems and the parsing of S3 URLs (C98); of `command_line_utils.py` only `find_path_type`, `validate_object` and `check_verbosity_args`; of the scripts only what `ToolModel.v`, `RootToolModel.v`, `ObjectToolModel.v`, `SidecarToolModel.v`, `MaxErrorsModel.v`, `StatusModel.v` and `CompactModel.v` name, after their arguments have been parsed.

## 5. Assumptions reported by Print Assumptions

Every theorem of every `Properties_*.v` file: "Closed under the global context" (no axioms).
Each of these files has the `Print Assumptions` commands, after the theorems or at its end.

`vcheck` also counts the axioms that are in the libraries loaded (`n_axioms`: those of the
standard library's ssreflect `under` tactic). No theorem uses them.

## 6. How to read the seeded-bug log

`seeded/LOG.jsonl` is written from the output of `tools/seed.py`, which edits a
built scratch copy and rebuilds until a proof fails. It is weaker evidence than
its field names may suggest:

- `lemmas_failed` is what stopped compiling. `theorems_failed` is every theorem of
  the manifest that rests on such a lemma; most of these were not tried themselves.
  `direct` lists those whose own proof failed. For most lines it is empty.
- A proof that stops compiling does not show that its statement became false. The
  script may only have depended on the text of the definition. An edit that is
  "detected" was noticed by the build; that the claim excludes it is not proved.
- The tool stops at the first failure on which a theorem of the claim that is not
  `_refuted` rests, so the other theorems of the line are not tested against the edit.
  Until the experiments for C94 it stopped at any theorem, also one of another claim.
  In such lines the theorems of the stated claim may not have been reached.
- What rests on what is read from `.glob` files. Uses through hints are missed. A
  `Print Assumptions` at the end of a file is attributed to the proof before it, so
  some lines list theorems that do not rest on the lemma.
- Lines with `"automatic": true` are generated mutants, for which no claim was
  stated before the experiment. Some may break no claim. In earlier revisions of
  the log their `claim_broken` was filled in from the theorems that failed.
- Eight lines had `theorems_failed` changed by hand in earlier revisions. They now
  have what the tool reported, and a note. For 55 lines the output of the tool was
  not kept, so they could not be compared.
- In 46 early lines the number of the property was not the one of the claim in words;
  it is corrected, with a note. Lines that had not reached a theorem of their claim were
  run again as far as they are listed with "to the claim".
- Edits that did not compile or did not apply are not in the log.
