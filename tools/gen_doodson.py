#!/usr/bin/env python3
"""Generate rocq/theories/DoodsonData.v from /repo/pyTMD/data/doodson.json."""
import json
d = json.load(open('/repo/pyTMD/data/doodson.json'))
out = ["(** Generated by tools/gen_doodson.py from pyTMD/data/doodson.json (all %d" % len(d),
       "    entries, in file order): constituent -> tau, s, h, p, n, pp, k. *)",
       "From Coq Require Import String List ZArith.", "Import ListNotations.",
       "Open Scope Z_scope.", "",
       "Definition doodson_table : list (string * list Z) :=", "  ["]
rows = []
for k, v in d.items():
    assert all(float(x) == int(x) for x in v) and len(v) == 7
    assert '"' not in k
    rows.append('   ("%s"%%string, [%s])' % (k, "; ".join("(%d)" % int(x) if x < 0 else "%d" % int(x) for x in v)))
out.append(";\n".join(rows))
out.append("  ].")
open('/verif/rocq/theories/DoodsonData.v', 'w').write("\n".join(out) + "\n")
