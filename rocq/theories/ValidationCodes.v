(** ocfl/data/validation-errors.json:1-775, as json.load gives it, without the spec texts
    that the logger does not use. *)
From Verif Require Import Base LoggerModel.

(** One entry of the file; every description has just the language en. *)
Definition with_text (code : str) (params : option (list str)) (text : str) : str * vcode :=
  (code, mkVcode params (Some [(`"en", text)])).

(** ocfl/data/validation-errors.json:1-775 *)
Definition validation_data : dict vcode := [
  with_text (`"E001a") (Some [`"file"]) (`"OCFL Object root contains unexpected file: %s");
  with_text (`"E001b") (Some [`"dir"]) (`"OCFL Object root contains unexpected directory: %s");
  with_text (`"E001c") (Some [`"entry"]) (`"OCFL Object root contains unexpected entry that isn't a file or directory: %s");
  with_text (`"E002") None (`"NOTE - E002 is redundant to more specific errors E003, E004, E005, E006.");
  with_text (`"E003a") (Some [`"assumed_version"]) (`"OCFL Object version declaration file is missing (assuming version %s)");
  with_text (`"E003b") (Some [`"files"; `"using_version"]) (`"OCFL Object includes more that one file that looks like an object declaration (got %s), using version %s");
  with_text (`"E003c") (Some [`"assumed_version"]) (`"OCFL Object includes one or more object declaration files (starting 0=) but no valid version number could be extracted from any of them (assuming version %s)");
  with_text (`"E003d") (Some [`"path"]) (`"OCFL Storage Root hierarchy includes directory %s with more that one file that looks like an object declaration, ignoring");
  with_text (`"E003e") (Some [`"path"]) (`"No OCFL Object to validate at path %s. The root of an OCFL Object must be a directory containing an object declaration");
  with_text (`"E004a") (Some [`"path"; `"version"]) (`"OCFL Storage Root hierarchy includes directory %s with an object declaration giving unknown version %s, ignoring");
  with_text (`"E004b") (Some [`"path"; `"declaration"]) (`"OCFL Storage Root hierarchy includes directory %s with an unrecognized object declaration %s, ignoring");
  with_text (`"E006") (Some [`"filename"]) (`"The OCFL object conformance declaration filename must be 0=ocfl_object_, followed by the OCFL specification version number, got %s instead");
  with_text (`"E007") (Some [`"filename"]) (`"OCFL Object declaration file %s contents do not match file name without leading 0= (the 'dvalue')");
  with_text (`"E008") (Some [`"where"]) (`"OCFL Object %s inventory versions block does not contain any versions, there must be at least version 1");
  with_text (`"E009") (Some [`"where"]) (`"OCFL Object %s inventory versions block does not contain v1 or a zero padded equivalent");
  with_text (`"E010") (Some [`"where"]) (`"OCFL Object %s inventory versions block includes an out-of-sequence version");
  with_text (`"E015") (Some [`"where"; `"entry"]) (`"OCFL Object version directory %s includes an illegal file (%s)");
  with_text (`"E017") (Some [`"where"]) (`"OCFL Object %s inventory contentDirectory must be a string and must not contain a forward slash (/)");
  with_text (`"E018") (Some [`"where"]) (`"OCFL Object %s inventory contentDirectory must not be either . or ..");
  with_text (`"E019") (Some [`"where"]) (`"OCFL Object %s inventory sets contentDirectory whereas it was not set in the first version inventory");
  with_text (`"E020") (Some [`"where"; `"version_content_directory"; `"root_content_directory"]) (`"OCFL Object %s inventory contentDirectory %s does not match root contentDirectory %s");
  with_text (`"E023a") (Some [`"where"; `"extra_files"]) (`"OCFL Object includes one or more files that are not mentioned in the  %s inventory manifest (%s)");
  with_text (`"E023b") (Some [`"where"; `"missing_filepaths"]) (`"OCFL Object %s manifest does not include files listed in previous version manifests (%s)");
  with_text (`"E024") (Some [`"where"; `"path"]) (`"OCFL Object version %s content directory includes empty path %s");
  with_text (`"E025a") (Some [`"where"; `"digest_algorithm"]) (`"OCFL Object %s inventory `digestAlgorithm` attribute not an allowed digest type (got '%s')");
  with_text (`"E025b") (Some [`"where"; `"digest"; `"algorithm"]) (`"OCFL Object %s inventory manifest block includes a digest (%s) that doesn't have the correct form for the %s algorithm");
  with_text (`"E026a") (Some [`"where"; `"digest"]) (`"OCFL Object %s inventory uses unknown digest type %s");
  with_text (`"E033") (Some [`"where"; `"explanation"]) (`"OCFL Object %s inventory is not valid JSON (%s)");
  with_text (`"E036a") (Some [`"where"]) (`"OCFL Object %s inventory missing `id` attribute");
  with_text (`"E036b") (Some [`"where"]) (`"OCFL Object %s inventory missing `type` attribute");
  with_text (`"E036c") (Some [`"where"]) (`"OCFL Object %s inventory missing `digestAlgorithm` attribute");
  with_text (`"E036d") (Some [`"where"]) (`"OCFL Object %s inventory missing `head` attribute");
  with_text (`"E037a") (Some [`"where"]) (`"OCFL Object %s inventory `id` attribute is empty or badly formed");
  with_text (`"E037b") (Some [`"where"; `"version_id"; `"root_id"]) (`"OCFL Object %s inventory id `%s` does not match the value in the root inventory `%s`");
  with_text (`"E038a") (Some [`"where"; `"expected"; `"got"]) (`"OCFL Object %s inventory `type` attribute has wrong value (expected %s, got %s)");
  with_text (`"E038b") (Some [`"where"; `"got"; `"assumed_spec_version"]) (`"OCFL Object %s inventory `type` attribute does not look like a valid specification URI (got %s), will proceed as if using version %s");
  with_text (`"E038c") (Some [`"where"; `"got"; `"assumed_spec_version"]) (`"OCFL Object %s inventory `type` attribute has an unsupported specification version number (%s), will proceed as if using version %s");
  with_text (`"E038d") (Some [`"where"]) (`"OCFL Object %s inventory `type` attribute does not have a string value");
  with_text (`"E040") (Some [`"where"; `"got"; `"expected"]) (`"OCFL Object %s inventory head attribute doesn't match versions (got %s, expected %s)");
  with_text (`"E041a") (Some [`"where"]) (`"OCFL Object %s inventory missing `manifest` attribute");
  with_text (`"E041b") (Some [`"where"]) (`"OCFL Object %s inventory missing `versions` attribute");
  with_text (`"E041c") (Some [`"where"]) (`"OCFL Object %s inventory manifest block is not a JSON object");
  with_text (`"E042a") (Some [`"where"; `"path"]) (`"OCFL Object %s inventory manifest includes invalid content path %s");
  with_text (`"E042b") (Some [`"where"; `"path"]) (`"OCFL Object %s inventory manifest includes content path %s with invalid version directory");
  with_text (`"E042c") (Some [`"where"; `"path"; `"content_directory"]) (`"OCFL Object %s inventory manifest includes invalid content path %s that doesn't match the content directory name %s");
  with_text (`"E044") (Some [`"where"]) (`"OCFL Object %s inventory versions block is not a JSON object");
  with_text (`"E046a") (Some [`"version_dir"]) (`"OCFL Object root inventory describes version %s but no corresponding version directory is present");
  with_text (`"E046b") (Some [`"dir"]) (`"OCFL Object includes directory %s that looks like a version directory but isn't a valid version in the inventory");
  with_text (`"E048") (Some [`"where"; `"version"]) (`"OCFL Object %s inventory %s version block does not include a created date or it is malformed");
  with_text (`"E048c") (Some [`"where"; `"version"]) (`"OCFL Object %s inventory %s version block does not include a state block");
  with_text (`"E049a") (Some [`"where"; `"version"]) (`"OCFL Object %s inventory %s version block created date SHOULD include a timezone designator");
  with_text (`"E049b") (Some [`"where"; `"version"]) (`"OCFL Object %s inventory %s version block created date SHOULD be granular to the seconds level");
  with_text (`"E049c") (Some [`"where"; `"version"; `"description"]) (`"OCFL Object %s inventory %s version block has bad created date, must be IS8601 (%s)");
  with_text (`"E049d") (Some [`"where"; `"version"]) (`"OCFL Object %s inventory %s version block created value is not a JSON string");
  with_text (`"E050a") (Some [`"where"; `"digests"]) (`"OCFL Object %s inventory state refers to one or more digests that are not in the manifest (%s)");
  with_text (`"E050c") (Some [`"where"; `"version"]) (`"OCFL Object %s inventory %s version block state block is not a JSON object");
  with_text (`"E050d") (Some [`"where"; `"version"; `"digest"]) (`"OCFL Object %s inventory %s version state block includes a bad digest (%s)");
  with_text (`"E050e") (Some [`"where"; `"version"; `"digest"]) (`"OCFL Object %s inventory %s version block state block value for digest %s is not list");
  with_text (`"E050f") (Some [`"where"; `"version"; `"digest"]) (`"OCFL Object %s inventory version %s state includes digest value %s that is not listed in the manifest block");
  with_text (`"E051") None (`"NOTE - E051 is essentially a processing instruction and can't be tested for.");
  with_text (`"E052") (Some [`"where"; `"version"; `"path"]) (`"OCFL Object %s inventory %s version block state block includes an invalid path %s that starts or ends with /");
  with_text (`"E053") (Some [`"where"; `"version"; `"path"]) (`"OCFL Object %s inventory %s version block state block includes an invalid path %s that includes . .. or //");
  with_text (`"E054a") (Some [`"where"; `"version"]) (`"OCFL Object %s inventory %s version block has user key with value that isn't a JSON object");
  with_text (`"E054b") (Some [`"where"; `"version"]) (`"OCFL Object %s inventory %s version block has user/name key with value that isn't a string");
  with_text (`"E054c") (Some [`"where"; `"version"]) (`"OCFL Object %s inventory %s version block has user/address key with value that isn't a string");
  with_text (`"E056a") (Some [`"where"]) (`"OCFL Object %s inventory includes a fixity key with value that isn't a JSON object");
  with_text (`"E056b") (Some [`"where"; `"algorithm"]) (`"OCFL Object %s inventory fixity block includes a key that is not a known digest algorithm name: %s");
  with_text (`"E057a") (Some [`"where"; `"algorithm"]) (`"OCFL Object %s inventory fixity block entry for digest algorithm name %s is not a JSON object");
  with_text (`"E057b") (Some [`"where"; `"algorithm"; `"digest"]) (`"OCFL Object %s inventory fixity block entry for digest algorithm %s includes digest %s which has the wrong form");
  with_text (`"E057c") (Some [`"where"; `"algorithm"; `"digest"]) (`"OCFL Object %s inventory fixity block entry for digest algorithm %s, digest %s is not a JSON list");
  with_text (`"E057d") (Some [`"where"; `"algorithm"; `"digest"; `"path"]) (`"OCFL Object %s inventory fixity block entry for digest algorithm %s, digest %s includes a content path %s that is not in the manifest");
  with_text (`"E058a") (Some [`"where"; `"path"]) (`"OCFL Object %s inventory is missing sidecar digest file at %s");
  with_text (`"E058b") (Some [`"inv_digest_file"]) (`"Cannot extract digest type from inventory digest file name %s");
  with_text (`"E060") (Some [`"inv_file"; `"actual"; `"recorded"; `"inv_digest_file"]) (`"Mismatch between actual and recorded inventory digests for %s (calculated %s but read %s from %s)");
  with_text (`"E061") (Some [`"description"]) (`"Cannot extract digest from inventory digest file (%s)");
  with_text (`"E063") None (`"OCFL Object root inventory is missing");
  with_text (`"E064") (Some [`"root_inv_file"; `"inv_file"]) (`"Object root inventory and copy in last version MUST be identical but are not (%s and %s)");
  with_text (`"E066a") (Some [`"prior_head"; `"where"]) (`"OCFL Object inventory for %s doesn't have a subset of version blocks of inventory for %s");
  with_text (`"E066b") (Some [`"prior_head"; `"version"; `"where"; `"logical_paths"; `"only_in"]) (`"OCFL Object %s inventory %s version state doesn't have same logical paths as same version in %s inventory (paths %s only in %s inventory)");
  with_text (`"E066c") (Some [`"prior_head"; `"version"; `"logical_path"; `"prior_content"; `"where"; `"current_content"]) (`"OCFL Object %s inventory %s version state has logical path %s that maps to content path %s, but in %s inventory it maps to content path %s");
  with_text (`"E066d") (Some [`"where"; `"version"; `"digest"; `"logical_files"; `"prior_head"]) (`"OCFL Object %s inventory %s version state has digest %s (mapping to logical files %s) that does not appear in the %s inventory");
  with_text (`"E066e") (Some [`"prior_head"; `"version"; `"digest"; `"logical_files"; `"where"]) (`"OCFL Object %s inventory %s version state has digest %s (mapping to logical files %s) that does not appear in the %s inventory");
  with_text (`"E067") (Some [`"entry"]) (`"OCFL Object extensions direct contains an unexpected non-directory entry: %s");
  with_text (`"E069a") (Some [`"root"]) (`"OCFL Storage Root %s lacks required 0= declaration file");
  with_text (`"E069b") (Some [`"root"]) (`"OCFL Storage Root %s has more than one 0= declaration file");
  with_text (`"E069c") (Some [`"root"; `"namaste_file"]) (`"OCFL Storage Root %s has unrecognized 0= declaration file %s");
  with_text (`"E069d") (Some [`"root"; `"declared_spec_version"; `"expected_spec_version"]) (`"OCFL Storage Root %s 0= declaration is for spec version %s, not %s as expected");
  with_text (`"E069e") (Some [`"root"; `"namaste_file"]) (`"OCFL Storage Root %s required declaration file %s has invalid content");
  with_text (`"E070a") (Some [`"root"; `"message"]) (`"OCFL Storage Root %s includes ocfl_layout.json with unknown layout %s");
  with_text (`"E070b") (Some [`"root"; `"message"]) (`"OCFL Storage Root %s has an ocfl_layout.json file that isn't a JSON object");
  with_text (`"E070c") (Some [`"root"; `"message"]) (`"OCFL Storage Root %s Storage root %s has layout file doesn't have required extension and description string entries");
  with_text (`"E071") (Some [`"root"; `"layout_name"]) (`"OCFL Storage Root %s includes ocfl_layout.json with unknown layout %s");
  with_text (`"E072") (Some [`"path"]) (`"OCFL storage root hierarchy include directory %s with at least one file but no object declaration. Such additional files are not allowed");
  with_text (`"E073") (Some [`"path"]) (`"OCFL storage root hierarchy contains an empty directory: %s");
  with_text (`"E086") (Some [`"entry"]) (`"OCFL Storage Root extensions direct contains an unexpected non-directory entry: %s");
  with_text (`"E087") None (`"NOTE - E087 is a processing instruction and can't be tested for");
  with_text (`"E088") None (`"NOTE - E088 is redundant to more specific errors E072 and E073");
  with_text (`"E090") None (`"NOTE - E090 is a processing instruction and can't be tested for");
  with_text (`"E091") (Some [`"where"; `"digest"]) (`"OCFL Object %s inventory manifest file list for digest %s is not a JSON array");
  with_text (`"E092a") (Some [`"where"; `"digest_algorithm"; `"digest"; `"content_path"; `"content_digest"]) (`"OCFL Object %s inventory manifest using digest algorithm %s has digest %s for file %s which doesn't match calculated digest %s for that file");
  with_text (`"E092b") (Some [`"where"; `"content_path"]) (`"OCFL Object %s inventory manifest refers to a file path that is not present in the object (%s)");
  with_text (`"E093a") (Some [`"where"; `"digest_algorithm"; `"digest"; `"content_path"; `"content_digest"]) (`"OCFL Object %s inventory fixity block for digest algorithm %s has digest %s for file %s which doesn't match calculated digest %s for that file");
  with_text (`"E093b") (Some [`"where"; `"digest_algorithm"; `"digest"; `"content_path"]) (`"OCFL Object %s inventory fixity block for digest algorithm %s has digest %s for a file %s which does not exist in the object");
  with_text (`"E094") (Some [`"where"; `"version"]) (`"OCFL Object %s inventory %s version block has message key with value that isn't a string");
  with_text (`"E095a") (Some [`"where"; `"version"; `"path"]) (`"OCFL Object %s inventory version %s state has logical path %s used more than once");
  with_text (`"E095b") (Some [`"where"; `"version"; `"path"]) (`"OCFL Object %s inventory version %s state has logical path %s used as both a directory and a file path.");
  with_text (`"E096") (Some [`"where"; `"digest"]) (`"OCFL Object %s inventory manifest block includes digest %s more than once with different normalizations");
  with_text (`"E097") (Some [`"where"; `"algorithm"; `"digest"]) (`"OCFL Object %s inventory fixity block for digest algorithm %s, includes digest %s more than once with different normalizations");
  with_text (`"E099") (Some [`"where"; `"path"]) (`"OCFL Object %s inventory manifest content path %s includes invalid element ., .., or empty (//).");
  with_text (`"E100") (Some [`"where"; `"path"]) (`"OCFL Object %s inventory manifest content path %s must not begin or end with /.");
  with_text (`"E101a") (Some [`"where"; `"path"]) (`"OCFL Object %s inventory manifest content path %s is repeated");
  with_text (`"E101b") (Some [`"where"; `"path"]) (`"OCFL Object %s inventory manifest content path %s used as both a directory and a file path");
  with_text (`"E103") (Some [`"where"; `"this_spec_version"; `"prev_version_dir"; `"prev_spec_version"]) (`"OCFL Object %s inventory conforms to specification version %s which is an earlier version than the %s inventory which conforms to specification version %s");
  with_text (`"E107") (Some [`"where"; `"digests"]) (`"OCFL Object %s inventory manifest contains digest(s) (%s) that are not used in the object state");
  with_text (`"E111") (Some [`"where"]) (`"OCFL Object %s inventory includes a fixity key with value that isn't a JSON object");
  with_text (`"W001") (Some [`"where"]) (`"OCFL Object %s inventory version numbers SHOULD NOT be zero-padded");
  with_text (`"W002") (Some [`"where"; `"entry"]) (`"OCFL Object version directory %s SHOULD NOT contain any directory except the designated content directory (found %s)");
  with_text (`"W003") (Some [`"where"]) (`"OCFL Object version directory %s SHOULD NOT contain an empty content directory");
  with_text (`"W004") (Some [`"where"]) (`"OCFL Object %s inventory SHOULD use sha512 but uses sha256 as the DigestAlgorithm");
  with_text (`"W005") (Some [`"where"; `"id"]) (`"OCFL Object %s inventory id SHOULD be a URI (got %s)");
  with_text (`"W007a") (Some [`"where"; `"version"]) (`"OCFL Object %s inventory %s version block SHOULD include a message key");
  with_text (`"W007b") (Some [`"where"; `"version"]) (`"OCFL Object %s inventory %s version block SHOULD include a user key");
  with_text (`"W008") (Some [`"where"; `"version"]) (`"OCFL Object %s inventory %s version block user description SHOULD have an address");
  with_text (`"W009") (Some [`"where"; `"version"]) (`"OCFL Object %s inventory %s version block user description SHOULD be a mailto: or person identifier URI");
  with_text (`"W010") (Some [`"where"]) (`"OCFL Object %s SHOULD have an inventory file but does not");
  with_text (`"W011") (Some [`"key"; `"version"; `"prior_head"; `"where"]) (`"OCFL Object version metadata '%s' for %s in %s inventory does not match that in %s inventory");
  with_text (`"W013") (Some [`"entry"]) (`"OCFL Object includes unregistered extension directory '%s'");
  with_text (`"W901") (Some [`"entry"]) (`"OCFL Storage Root includes unregistered extension directory '%s'")].
