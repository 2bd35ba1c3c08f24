#!/usr/bin/env python3
"""Rewrite the generated sections of DESIGN.md (results and assumptions).

Needs a finished build in rocq/.  Usage: python3 tools/design.py"""
import json, os, re, subprocess, tempfile

root = os.path.dirname(os.path.dirname(os.path.abspath(__file__)))
rocq = os.path.join(root, "rocq")
props = [json.loads(l) for l in open(os.path.join(root, "properties.jsonl")) if l.strip()]
claims = {c["property"]: c for c in json.load(open(os.path.join(root, "MANIFEST.json")))["claims"]}

def results():
    out = ["| id | property | status | theorems | note |", "|----|----------|--------|---------:|------|"]
    for p in props:
        c = claims[p["id"]]
        out.append("| %s | %s | %s | %d | %s |" % (p["id"], p["title"], c["status"], len(c["theorems"]), c.get("note", "")))
    return "\n".join(out)

def theorems():
    files = sorted(f for f in os.listdir(os.path.join(rocq, "theories")) if re.search(r"Props\d*\.v$", f))
    for f in files:
        for n in re.findall(r"^\s*Theorem (C\d\d+_\w+)", open(os.path.join(rocq, "theories", f)).read(), re.M):
            yield f[:-2], n

def assumptions():
    names = list(theorems())
    src = "".join("From Verif Require %s.\n" % f for f in sorted({f for f, _ in names}))
    for f, n in names:
        src += 'Goal True. idtac "@@ %s.%s". Abort.\nPrint Assumptions Verif.%s.%s.\n' % (f, n, f, n)
    with tempfile.TemporaryDirectory() as d:
        open(os.path.join(d, "A.v"), "w").write(src)
        txt = subprocess.run(["coqc", "-Q", os.path.join(rocq, "theories"), "Verif", "A.v"], cwd=d, capture_output=True, text=True).stdout
    groups = {}
    for part in txt.split("@@ ")[1:]:
        name, _, body = part.partition("\n")
        axioms = tuple(sorted(set(re.findall(r"^([A-Za-z_][\w.]*)\s*(?::|$)", body, re.M)) - {"Axioms", "Closed"}))
        groups.setdefault(axioms, []).append(name.strip())
    out = []
    for ax in sorted(groups, key=lambda a: (len(a), a)):
        out.append("**%s** (%d theorems)\n" % (", ".join("`%s`" % a for a in ax) if ax else "Closed under the global context", len(groups[ax])))
        by = {}
        for g in groups[ax]:
            f, n = g.split(".")
            by.setdefault(f, []).append(n)
        for f in sorted(by):
            out.append("* `%s`: %s" % (f, ", ".join("`%s`" % n for n in by[f])))
        out.append("")
    return "\n".join(out)

def main():
    path = os.path.join(root, "DESIGN.md")
    s = open(path).read()
    for tag, gen in (("results", results), ("assumptions", assumptions)):
        s = re.sub(r"(<!-- %s -->\n).*?(\n<!-- end %s -->)" % (tag, tag), lambda m: m.group(1) + gen() + m.group(2), s, flags=re.S)
    open(path, "w").write(s)

main()
