"""Write rocq/theories/MillerData.v from /repo/spec2nexus/diffractometer-geometries.dict
(read as text, ast.literal_eval): which names of "Q" are described as Miller indices."""
import ast
db = ast.literal_eval(open('/repo/spec2nexus/diffractometer-geometries.dict').read())
def q(s):
    assert all(32 <= ord(c) < 127 for c in s)
    return '"' + s.replace('"', '""') + '"'
rows = []
for g in db:
    rows.append('  (L %s, [%s])' % (q(g['name']), '; '.join('(L %s, L %s)' % (q(k), q(d)) for k, d in g['Q'])))
open('/verif/rocq/theories/MillerData.v', 'w').write('''(** GENERATED by tools/gen_miller.py: the descriptions of the names of "Q" of each geometry.
    Source: /repo/spec2nexus/diffractometer-geometries.dict (889 lines). *)
From Coq Require Import String.
From Verif Require Import Py.
Import ListNotations.
Local Open Scope string_scope.
Local Open Scope list_scope.

(** diffractometer-geometries.dict: name of the geometry, name and description of each number of #G4 *)
Definition q_table : list (str * list (str * str)) := [
%s
].
''' % ';\n'.join(rows))
