#!/usr/bin/env python3
"""Write theories/X*.v: the models of core/ and src/lib.rs with debug assertions and overflow checks as two flags.

The models M*.v have one flag [dbg] for both.  This script copies every definition that depends on it, calls the copy
of [f] [f_x], and replaces [dbg] by [snd bd] where it says whether an overflow panics and by [fst bd] where it says
whether an assertion is executed.  Usage: gen_builds.py (from anywhere).
"""
import re, os
root = os.path.join(os.path.dirname(os.path.abspath(__file__)), "..", "rocq", "theories")
files = ["Field", "Scalar", "Group", "Ecmult", "Ecdsa", "Der", "Api", "Machine", "Client"]
checks = "add32 sub32 mul32 add64 sub64 mul64 add8 sub8 ichk shlc32 shrc32".split()
asserts = "dassert choice_from".split()

def split_comments(s):
    """[(is_comment, text)]"""
    out, i, depth, start = [], 0, 0, 0
    while i < len(s):
        if s.startswith("(*", i):
            if depth == 0:
                out.append((False, s[start:i])); start = i
            depth += 1; i += 2
        elif s.startswith("*)", i) and depth:
            depth -= 1; i += 2
            if depth == 0:
                out.append((True, s[start:i])); start = i
        else:
            i += 1
    out.append((False, s[start:]))
    return out

def code(s):
    return "".join(t for c, t in split_comments(s) if not c)

def subst(s, f):
    return "".join(t if c else f(t) for c, t in split_comments(s))

dep_all = set()          # dependent names of earlier files
for name in files:
    src = open(os.path.join(root, "M%s.v" % name)).read()
    head = re.findall(r"^From Verif Require Import ([^.]*)\.", src, re.M)[0].split()
    a = src.index("Section Build.\nVariable dbg : bool.\n") + len("Section Build.\nVariable dbg : bool.\n")
    body = src[a:src.rindex("End Build.")]
    # items: an optional comment, then a vernacular sentence starting at the beginning of a line
    items = re.findall(r"((?:\(\*(?:(?!\*\)).)*\*\)\s*)*)((?:Definition|Fixpoint|Notation|Local Notation|Inductive|Record) .*?\.)(?=\s*\n(?:\s*\n|\(\*|Definition|Fixpoint|Notation|Local Notation|Inductive|Record|$))", body + "\n\n", re.S)
    local, out = [], []
    for com, text in items:
        c = code(text)
        kind = c.split()[0]
        m = re.match(r"(?:Definition|Fixpoint) (\w+)", c)
        words = set(re.findall(r"[\w']+", c))
        dependent = "dbg" in words or any(x in words for x in local + ["sqr", "mul_int", "neg"])
        if kind in ("Inductive", "Record") or not dependent and kind not in ("Notation", "Local"):
            continue
        if m:
            local.append(m.group(1))
        def tr(t):
            t = re.sub(r"\buchk (\w+|\([^()]*\)) dbg\b", r"uchk \1 (snd bd)", t)
            t = re.sub(r"\b(%s) dbg\b" % "|".join(checks), r"\1 (snd bd)", t)
            t = re.sub(r"\b(%s) dbg\b" % "|".join(asserts), r"\1 (fst bd)", t)
            t = re.sub(r"\bif dbg then\b", "if fst bd then", t)
            t = re.sub(r"\b(%s) dbg\b" % "|".join(sorted(dep_all, key=len, reverse=True)), r"\1_x bd", t) if dep_all else t
            t = re.sub(r"\b(%s)\b(?!_x)" % "|".join(sorted(local, key=len, reverse=True)), r"\1_x", t) if local else t
            return t
        t2 = subst(text, tr)
        if re.search(r"\bdbg\b", code(t2)):
            print("left:", name, m and m.group(1))
        out.append(com.strip() + ("\n" if com.strip() else "") + t2 + "\n")
    dep_all |= set(local)
    req = head + ["M" + name] + ["X" + x[1:] for x in head if x[1:] in files]
    req = [x for x in req if os.path.exists(os.path.join(root, x + ".v")) or x.startswith("X")]
    f = open(os.path.join(root, "X%s.v" % name), "w")
    f.write("(** M%s.v once more, with two flags instead of one: [fst bd] says whether debug assertions are executed\n    ([debug-assertions]), [snd bd] whether an arithmetic overflow panics ([overflow-checks]). Written by tools/gen_builds.py. *)\n" % name)
    f.write("From Verif Require Import %s.\n\nSection Build.\nVariable bd : bool * bool.\n" % " ".join(req))
    f.write("".join(v + "\n" for v in re.findall(r"^Variable .*\.$", body, re.M)) + "\n")
    f.write("\n".join(out))
    f.write("\nEnd Build.\n")
    f.close()
    print(name, len(local))
