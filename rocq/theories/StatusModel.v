(** Model of the table of codes that extract_codes.py makes: the classes Code and Codes and the
    links. Not modelled: how the lines of the specification and of the sources are read and
    matched, and what is done with the file. *)
From Verif Require Import Base.

(** extract_codes.py:34: what there is for one suffix; the set of links is a list without duplicates *)
Record cell := mk_cell { c_links : list str; c_desc : option str }.
(** extract_codes.py:20-27 *)
Record code := mk_code { k_name : str; k_desc : option str; k_suffixes : dict cell }.

(** set.add *)
Definition set_add (x : str) (l : list str) : list str := if str_in x l then l else l ++ [x].

(** extract_codes.py:29-38 add_suffix *)
Definition add_suffix (suffix link desc : option str) (c : code) : code :=
  let suffix := match suffix with Some s => s | None => [] end in
  let old := match dget suffix (k_suffixes c) with Some x => x | None => mk_cell [] None end in
  let new := mk_cell (match link with Some l => set_add l (c_links old) | None => c_links old end)
                     (match desc with Some _ => desc | None => c_desc old end) in
  mk_code (k_name c) (k_desc c) (dset suffix new (k_suffixes c)).

(** extract_codes.py:40-47 desc_links *)
Definition desc_links (c : code) (suffix : str) : exc str :=
  match dget suffix (k_suffixes c) with
  | None => Raise KeyError
  | Some x =>
      let links := match c_links x with [] => `"_Not implemented_" | l => join (`" ") (sorted_strs l) end in
      let desc := match c_desc x with Some (a :: r) => a :: r | _ => `"**Missing description**" end in
      Ok (desc ++ `" \[" ++ links ++ `"\]")
  end.

(** extract_codes.py:49-67 as_str *)
Definition SPEC_URL : str := `"https://ocfl.io/1.1/spec".
Definition code_str (c : code) : exc str :=
  let* status :=
    match k_suffixes c with
    | [] => Ok (`"_Not implemented_")
    | _ => if dmem [] (k_suffixes c) then desc_links c [] else Ok (`"_See multiple cases identified with suffixes below_")
    end in
  let '(desc, linked) := match k_desc c with
                         | None => (`"**Not in specification**", k_name c)
                         | Some d => (d, `"[" ++ k_name c ++ `"](" ++ SPEC_URL ++ `"#" ++ k_name c ++ `")")
                         end in
  efold (fun s suffix =>
           match suffix with
           | [] => Ok s
           | _ => let* t := desc_links c suffix in Ok (s ++ `"| | " ++ k_name c ++ suffix ++ `" | " ++ t ++ `" |" ++ [10%N])
           end)
    (sorted_strs (keys (k_suffixes c)))
    (`"| " ++ linked ++ `" | " ++ desc ++ `" | " ++ status ++ `" |" ++ [10%N]).

(** extract_codes.py:77-79 add_spec *)
Definition add_spec (name desc : str) (d : dict code) : dict code := dset name (mk_code name (Some desc) []) d.
(** extract_codes.py:81-85 add_impl *)
Definition add_impl (name : str) (suffix link desc : option str) (d : dict code) : dict code :=
  dset name (add_suffix suffix link desc (match dget name d with Some c => c | None => mk_code name None [] end)) d.

(** extract_codes.py:87-93 as_str; the codes that begin with [exclude] are those included *)
Definition codes_str (exclude : str) (d : dict code) : exc str :=
  efold (fun s name =>
           if startswith exclude name then
             match dget name d with Some c => let* t := code_str c in Ok (s ++ t) | None => Raise KeyError end
           else Ok s) (sorted_strs (keys d)) [].

(** extract_codes.py:131-133: the link for line [n] of the file [file] of a directory *)
Definition GITHUB_REPO : str := `"https://github.com/zimeon/ocfl-py".
Definition file_line (root file : str) (n : N) : str := `"ocfl" ++ file ++ `"#L" ++ str_of_N n.
Definition link (root file : str) (n : N) : str :=
  `"[" ++ file_line root file n ++ `"](" ++ GITHUB_REPO ++ `"/blob/main/" ++ file_line root file n ++ `")".

(** extract_codes.py:95-134: the codes of the specification are added first, then those of the
    strings and the sources *)
Definition spec_line : Type := str * str.
Record impl_line := mk_impl { i_code : str; i_suffix : option str; i_link : option str; i_text : option str }.
Definition all_codes (specs : list spec_line) (impls : list impl_line) : dict code :=
  fold_left (fun d x => add_impl (i_code x) (i_suffix x) (i_link x) (i_text x) d) impls
    (fold_left (fun d x => add_spec (fst x) (snd x) d) specs []).
