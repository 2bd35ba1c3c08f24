"""Write rocq/theories/PotentialData.v: the lines of the tables of the
tide-generating potential that are part of the package, as text."""
import pathlib
here = pathlib.Path(__file__).resolve().parent.parent
out = ['(** Generated by tools/gen_potential.py: the lines of the files',
       '    pyTMD/data/d1921_tab.txt, ct1971_tab5.txt and ce1973_tab1.txt, without line ends. *)',
       'From Coq Require Import String List.', 'Import ListNotations.', 'Open Scope string_scope.']
for name in ('d1921_tab', 'ct1971_tab5', 'ce1973_tab1'):
    lines = open(f'/repo/pyTMD/data/{name}.txt', encoding='utf8').read().split('\n')
    if lines[-1] == '':
        lines = lines[:-1]
    assert all(ord(c) < 128 and (c.isprintable() or c == chr(9)) for l in lines for c in l), name
    out.append(f'(** pyTMD/data/{name}.txt *)')
    out.append(f'Definition {name} : list string := [')
    out.append(';\n'.join('"' + l.replace('"', '""') + '"' for l in lines) + '].')
(here / 'rocq/theories/PotentialData.v').write_text('\n'.join(out) + '\n')
