"""Write rocq/theories/NutationData.v: the lines of the tables of the IERS
Conventions that are part of the package, as text."""
import pathlib
here = pathlib.Path(__file__).resolve().parent.parent
out = ['(** Generated by tools/gen_nutation.py: the lines of the files',
       '    pyTMD/data/tab5.2e.txt, tab5.3a.txt and tab5.3b.txt, without line ends. *)',
       'From Coq Require Import String List.', 'Import ListNotations.', 'Open Scope string_scope.']
for name in ('5.2e', '5.3a', '5.3b'):
    lines = open(f'/repo/pyTMD/data/tab{name}.txt', encoding='utf8').read().split('\n')
    if lines[-1] == '':
        lines = lines[:-1]
    assert all(ord(c) < 128 and (c.isprintable() or c == chr(9)) for l in lines for c in l), name
    out.append(f'(** pyTMD/data/tab{name}.txt *)')
    out.append(f'Definition tab{name.replace(".", "_")} : list string := [')
    out.append(';\n'.join('"' + l.replace('"', '""') + '"' for l in lines) + '].')
(here / 'rocq/theories/NutationData.v').write_text('\n'.join(out) + '\n')
