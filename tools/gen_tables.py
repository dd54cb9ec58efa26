#!/usr/bin/env python3
"""Generate rocq/theories/ModelShipped.v from the tables in /repo/_definitions/tables.

Kept: identifiers, units, scales, references, widths, members.  Left out: names and the CREX
columns (the theorems quantify over them) and code_and_flag.json (never loaded).
"""
import collections, glob, json

BASE = '/repo/_definitions/tables/'
dirs = sorted((tuple(map(int, d[len(BASE):].split('/'))) for d in glob.glob(BASE + '*/*/*/*')),
              key=lambda t: (t[1], t[3]))
b, d = collections.OrderedDict(), collections.OrderedDict()
for k, t in enumerate(dirs):
    path = BASE + '/'.join(map(str, t))
    for i, r in json.load(open(path + '/TableB.json')).items():
        assert len(r) == 8 and all(isinstance(r[j], int) for j in (2, 3, 4, 6, 7))
        key = (int(i), r[1], r[2], r[3], r[4])
        b[key] = b.get(key, 0) | 1 << k
    for i, r in json.load(open(path + '/TableD.json')).items():
        assert len(r) == 2
        key = (int(i), tuple(int(m) for m in r[1]))
        d[key] = d.get(key, 0) | 1 << k

def s(x):
    assert all(ord(c) >= 32 and ord(c) != 127 for c in x), x
    return '"' + x.replace('"', '""') + '"'

out = ['''(** The shipped tables, _definitions/tables/*/*/*/*/TableB.json and TableD.json.  Generated by
    tools/gen_tables.py.  The first number of a row is the set of tables that contain it, bit k
    standing for entry k of [shipped_tables]. *)
From Verif Require Import Base.

(** Master table, centre, subcentre and version of each shipped table, in the order of the bits. *)
Definition shipped_tables : list (Z * Z * Z * Z) :=
  [''' + ';\n   '.join('(%d, %d, %d, %d)' % t for t in dirs) + '''].

(** Rows of Table B: identifier, (unit, scale, reference value, width). *)
Definition b_rows : list (Z * (Z * (string * Z * Z * Z))) :=
  [''' + ';\n   '.join('(%d, (%d, (%s%%string, %d, %d, %d)))' % (m, i, s(u), sc, rv, nb)
                       for (i, u, sc, rv, nb), m in sorted(b.items())) + '''].

(** Rows of Table D: identifier, members. *)
Definition d_rows : list (Z * (Z * list Z)) :=
  [''' + ';\n   '.join('(%d, (%d, [%s]))' % (m, i, '; '.join(map(str, ms)))
                       for (i, ms), m in sorted(d.items())) + '''].
''']
open('/verif/rocq/theories/ModelShipped.v', 'w').write('\n'.join(out))
