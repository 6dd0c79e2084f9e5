#!/usr/bin/env python3
"""Writes the grammar tables of /repo as Coq lists of lines: rocq/theories/Data*.v.

One definition per .tsv file, one string per line of the file."""
import os
import sys
from unicodedata import category, unidata_version

SETS = [("DataZhTn", "zh_tn", "tn/chinese/data"), ("DataJaTn", "ja_tn", "tn/japanese/data"),
        ("DataZhItn", "zh_itn", "itn/chinese/data"), ("DataJaItn", "ja_itn", "itn/japanese/data"),
        ("DataEnItn", "en_itn", "itn/english/data"), ("DataEnTn", "en_tn", "tn/english/data")]
# The tables of the English normaliser that no rule of its pipeline reads.
UNUSED = {"tn/english/data/" + f for f in (
    "money/per_unit.tsv", "money/currency_minor_plural.tsv", "money/currency_minor_singular.tsv",
    "whitelist/ipa_symbols.tsv", "whitelist/asr_with_pc.tsv", "whitelist/lj_speech.tsv", "whitelist/asr.tsv",
    "whitelist/alternatives_all_format.tsv", "date/day.tsv", "number/hundred.tsv",
    "roman/roman_to_spoken.tsv", "roman/male.tsv", "roman/female.tsv", "roman/key_word.tsv")}
HERE = os.path.dirname(os.path.abspath(__file__))
for module, prefix, root in SETS:
    out = ["(** Generated by tools/gen_data.py from /repo/%s: the lines of each table. *)" % root,
           "From Coq Require Import List %sString." % ("NArith " if prefix == "en_tn" else ""), "Import ListNotations.", "Local Open Scope string_scope."]
    for d, _, files in sorted(os.walk(os.path.join("/repo", root))):
        for f in sorted(files):
            if not f.endswith(".tsv") or os.path.relpath(os.path.join(d, f), "/repo") in UNUSED:
                continue
            path = os.path.join(d, f)
            with open(path, encoding="utf-8", newline="") as h:
                content = h.read()
            if path.endswith("whitelist/tts.tsv"):  # read in text mode by load_labels
                content = content.replace("\r\n", "\n")
            assert "\r" not in content
            lines = content.split("\n")
            if lines[-1] == "":
                lines.pop()
            assert all(lines) and (prefix != "en_tn" or all(l.count("\t") <= 1 for l in lines)), path
            name = prefix + "_" + os.path.basename(d) + "_" + f[:-4]
            out.append("(** %s *)" % os.path.relpath(path, "/repo"))
            out.append("Definition %s : list string := [" % name)
            out.append(";\n".join('"' + l.replace('"', '""') + '"' for l in lines))
            out.append("].")
    if prefix == "en_tn":
        # [chr(i) for i in range(sys.maxunicode) if category(chr(i)).startswith("P")], as ranges
        marks = [i for i in range(sys.maxunicode) if category(chr(i)).startswith("P")]
        ranges = []
        for i in marks:
            if ranges and ranges[-1][1] == i - 1:
                ranges[-1][1] = i
            else:
                ranges.append([i, i])
        out.append("(** The characters of the categories P* in Unicode %s, as ranges "
                   "(tn/english/rules/punctuation.py:46-49). *)" % unidata_version)
        out.append("Definition unicode_punct : list (N * N) := [")
        out.append(";\n".join("(%d, %d)" % tuple(r) for r in ranges))
        out.append("]%N.")
    with open(os.path.join(HERE, "../rocq/theories", module + ".v"), "w", encoding="utf-8") as h:
        h.write("\n".join(out) + "\n")
