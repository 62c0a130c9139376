#!/usr/bin/env python3
"""Generates rocq/theories/Uni.v from CPython's own Unicode tables (python3 of this sandbox, 3.11)."""
import re, unicodedata, os
def ranges(pred):
    r = []
    for c in range(0x110000):
        if pred(chr(c)):
            if r and r[-1][1] == c - 1: r[-1][1] = c
            else: r.append([c, c])
    return r
zeros = [c for c in range(0x110000) if unicodedata.decimal(chr(c), None) == 0]
dig = ranges(str.isdigit)
word = ranges(lambda ch: re.match(r"\w", ch) is not None)
def show(name, doc, items):
    out = f"(* {doc} *)\nDefinition {name} :=\n  [ "
    line = ""; lines = []
    for it in items:
        if len(line) + len(it) > 100: lines.append(line); line = ""
        line += it + "; "
    lines.append(line)
    return out + "\n    ".join(lines).rstrip("; \n") + " ].\n"
txt = "(* GENERATED by tools/gen_uni.py from CPython 3.11's Unicode tables (unicodedata %s). *)\n" % unicodedata.unidata_version
txt += "From Coq Require Import List NArith.\nImport ListNotations.\nLocal Open Scope N_scope.\n\n"
txt += show("decimal_zeros : list N", "code points z such that z, z+1, ..., z+9 are the decimal digits 0..9 (str.isdecimal, re \\\\d, int(), float())", [str(z) for z in zeros])
txt += "\n" + show("isdigit_ranges : list (N * N)", "inclusive ranges of characters for which str.isdigit() is True", ["(%d,%d)" % tuple(r) for r in dig])
txt += "\n" + show("word_ranges : list (N * N)", "inclusive ranges of characters matched by the regular expression \\\\w", ["(%d,%d)" % tuple(r) for r in word])
open(os.path.join(os.path.dirname(os.path.abspath(__file__)), "../rocq/theories/Uni.v"), "w").write(txt)
