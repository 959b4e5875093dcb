#!/usr/bin/env python3
"""Generates rocq/theories/Unicode.v from CPython's own tables (Unicode %s)."""
import re, sys, unicodedata
word = [c for c in range(0x110000) if re.match(r"\w", chr(c))]
def ranges(l):
    out = []
    for c in l:
        if out and out[-1][1] == c - 1: out[-1][1] = c
        else: out.append([c, c])
    return out
space = [c for c in range(0x110000) if re.match(r"\s", chr(c))]
assert space == [c for c in range(0x110000) if chr(c).isspace()]
zeros = [c for c in range(0x110000) if re.match(r"\d", chr(c)) and int(chr(c)) == 0]
nd = [c for c in range(0x110000) if re.match(r"\d", chr(c))]
assert nd == sorted(z + i for z in zeros for i in range(10))
assert all(int(chr(z + i)) == i for z in zeros for i in range(10))
def fmt(items, per=8):
    rows = ["; ".join(items[i:i+per]) for i in range(0, len(items), per)]
    return "[" + ";\n   ".join(rows) + "]%N"
w = open("/verif/rocq/theories/Unicode.v", "w")
w.write('''(** Unicode character classes used by Python's [re] module and [int()].

    Generated by tools/gen_unicode.py from CPython %s (Unicode %s); models the
    built-in classes \\d, \\s and \\w of str patterns, str.isspace and the digit
    values accepted by int(). No function of /repo is modelled here. *)
From Verif Require Import Base.

(** Code points of the digit zero of each block of decimal digits (category Nd);
    the ten digits of a block are consecutive. *)
Definition nd_zeros : list N :=
  %s.

Definition digit_value (c : N) : option N :=
  match find (fun z => (z <=? c)%%N && (c <? z + 10)%%N) nd_zeros with
  | Some z => Some (c - z)%%N
  | None => None
  end.

(** \\d *)
Definition is_digit (c : N) : bool :=
  match digit_value c with Some _ => true | None => false end.

(** \\s and str.isspace *)
Definition is_space (c : N) : bool :=
  existsb (N.eqb c)
  %s.

(** \\w: ranges of str.isalnum plus underscore *)
Definition word_ranges : list (N * N) :=
  %s.

Definition is_word (c : N) : bool :=
  existsb (fun r => (fst r <=? c)%%N && (c <=? snd r)%%N) word_ranges.
''' % (sys.version.split()[0], unicodedata.unidata_version, fmt([str(z) for z in zeros], 12),
       fmt([str(z) for z in space], 12), fmt(["(%d, %d)" % tuple(r) for r in ranges(word)], 6)))
