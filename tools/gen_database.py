#!/usr/bin/env python3
"""Generate rocq/theories/DatabaseData.v from /repo/pyTMD/data/database.json."""
import json
from fractions import Fraction
d = json.load(open('/repo/pyTMD/data/database.json'), parse_float=Fraction)
def val(v):
    if v is None: return 'VNone'
    if v is True: return 'VBool true'
    if v is False: return 'VBool false'
    if isinstance(v, (int, Fraction)):
        q = Fraction(v)
        return 'VNum (%s # %d)' % (('(%d)' if q < 0 else '%d') % q.numerator, q.denominator)
    if isinstance(v, str):
        assert '"' not in v and all(32 <= ord(c) < 127 for c in v), v
        return 'VStr "%s"' % v
    if isinstance(v, list): return 'VList [%s]' % '; '.join(val(x) for x in v)
    if isinstance(v, dict): return 'VDict [%s]' % '; '.join('("%s", %s)' % (k, val(x)) for k, x in v.items())
    raise TypeError(v)
out = ["(** Generated by tools/gen_database.py from pyTMD/data/database.json: the %d" % sum(len(x) for x in d.values()),
       "    built-in model definitions, in file order. *)",
       "From Coq Require Import String List QArith.", "From Verif Require Import ValueBase.",
       "Import ListNotations.", "Open Scope string_scope.", "Open Scope Q_scope.", ""]
assert set(d) == {'current', 'elevation'}
for name in ('current', 'elevation'):
    out.append("Definition builtin_%s : list (string * list (string * val)) :=\n  [" % name)
    out.append(";\n".join('   ("%s",\n    [%s])' % (m, ";\n     ".join('("%s", %s)' % (k, val(v)) for k, v in e.items()))
                          for m, e in d[name].items()))
    out.append("  ].\n")
open('/verif/rocq/theories/DatabaseData.v', 'w').write("\n".join(out))
