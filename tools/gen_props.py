#!/usr/bin/env python3
"""Write theories/Prop<X>.v from theories/<X>.v.

Every lemma `Cnn_name_pf` of the source file becomes `Theorem Cnn_name` (or `Example` when the
name ends in `_example`), with the same statement and comment, closed by `exact Cnn_name_pf.`,
followed by Print Assumptions.  Usage: gen_props.py X Y ...
"""
import re, sys, os
root = os.path.join(os.path.dirname(os.path.abspath(__file__)), "..", "rocq", "theories")
for mod in sys.argv[1:]:
    src = open(os.path.join(root, mod + ".v")).read()
    req = re.findall(r"^From Verif Require Import ([^.]*)\.", src, re.M)
    coq = re.findall(r"^From Coq Require[^\n]*", src, re.M)
    out = ["(** Property theorems proved in %s.v (written by tools/gen_props.py). *)" % mod]
    out += coq
    out += ["From Verif Require Import %s %s.\n" % (" ".join(" ".join(req).split()), mod)]
    pat = re.compile(r"((?:\(\*\*(?:(?!\*\)).)*\*\)\n)?)(?:Lemma) (C\d\d\w*)_pf\b(.*?)\nProof\.", re.S)
    for m in pat.finditer(src):
        com, name, st = m.group(1), m.group(2), m.group(3)
        kind = "Example" if name.endswith("_example") else "Theorem"
        out.append("%s%s %s%s\nProof. exact %s_pf. Qed." % (com, kind, name, st, name))
        if kind == "Theorem":
            out.append("Print Assumptions %s." % name)
        out.append("")
    open(os.path.join(root, "Prop" + mod + ".v"), "w").write("\n".join(out))
