#!/usr/bin/env python3
"""Generate theories/Prop_X.v from theories/Claims_X.v.

In a Claims file a lemma or example preceded by a comment that starts with
`(** @Cnn ...` is exported: Prop_X.v restates it word for word as
`Theorem Cnn_name` (or `Example Cnn_name`), closes it with `exact name` and prints
its assumptions."""
import re, sys, os, glob
here = os.path.join(os.path.dirname(os.path.abspath(__file__)), "..", "rocq", "theories")
for path in sorted(glob.glob(os.path.join(here, "Claims_*.v"))):
    x = os.path.basename(path)[len("Claims_"):-2]
    s = open(path).read()
    imports = re.search(r"From Verif Require Import[^.]*\.", s).group(0)
    mods = imports.split("Import", 1)[1].strip(" .\n").split()
    out = ["(** Property theorems; each restates a lemma proved in Claims_%s.v. *)" % x,
           "From Coq Require Import String Permutation." if "Import String." in s else "From Coq Require Import Permutation.",
           "From Verif Require Import %s Claims_%s." % (" ".join(m for m in mods if not m.endswith("_facts")), x)]
    m = re.search(r"^Local Open Scope.*$", s, re.M)
    out += ["Local Open Scope Z_scope.", ""]
    names = []
    for m in re.finditer(r"\(\*\* @(C\d\d)(.*?)\*\)\s*(Lemma|Example)\s+(\w+)\s*(.*?)\nProof", s, re.S):
        cid, doc, kind, name, stmt = m.groups()
        full = "%s_%s" % (cid, name)
        kw = "Theorem" if kind == "Lemma" else "Example"
        out.append("(** %s:%s*)" % (cid, doc if doc.startswith(" ") else " " + doc))
        out.append("%s %s%s%s" % (kw, full, "" if stmt.startswith(":") else " ", (" " + stmt) if stmt.startswith(":") else stmt))
        out.append("Proof. exact %s. Qed." % name if stmt.startswith(":") else "Proof. exact (%s). Qed." % name)
        if kind == "Lemma":
            out.append("Print Assumptions %s." % full)
        out.append("")
        names.append((cid, full, kind))
    open(os.path.join(here, "Prop_%s.v" % x), "w").write("\n".join(out))
    print(x, len(names))
