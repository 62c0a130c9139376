"""Write rocq/theories/GeomData.v from /repo/spec2nexus/diffractometer-geometries.dict
and DEFAULT_U in /repo/spec2nexus/diffractometers.py (read as text, ast.literal_eval)."""
import ast
src = open('/repo/spec2nexus/diffractometers.py').read()
i = src.index('DEFAULT_U = ['); j = src.index(']\n\n\ndef split_name')
DU = ast.literal_eval(src[i + len('DEFAULT_U = '):j + 1])
db = ast.literal_eval(open('/repo/spec2nexus/diffractometer-geometries.dict').read())
def q(s):
    assert all(32 <= ord(c) < 127 for c in s)
    return '"' + s.replace('"', '""') + '"'
def lst(l): return '[' + '; '.join(l) + ']'
def strs(l): return '(map L ' + lst(map(q, l)) + ')'
out = ['''(** GENERATED by tools/gen_geom.py: the geometry catalog.
    Source: /repo/spec2nexus/diffractometer-geometries.dict (889 lines) and
    /repo/spec2nexus/diffractometers.py 54-91 (DEFAULT_U).  The descriptions of the
    parameters are left out (they are only copied into HDF5 attributes). *)
From Coq Require Import String.
From Verif Require Import Py.
Import ListNotations.
Local Open Scope string_scope.
Local Open Scope list_scope.

(** diffractometers.py 585-600: one entry of "variations" *)
Record variation := mk_var { v_name : str; v_motors : list str; v_others : list str }.
(** diffractometer-geometries.dict: one geometry *)
Record geometry := mk_geo {
  g_name : str; g_numgeo : nat; g_G : list str; g_Q : list str; g_modes : list str;
  g_U : option (list str); g_vars : list variation }.

(** diffractometers.py 54-91 *)
Definition default_U : list str := %s.

(** diffractometers.py 443-444: [eval] of the dictionary file *)
Definition catalog : list geometry := [''' % strs([k for k, d in DU])]
gs = []
for g in db:
    gs.append('  mk_geo (L %s) %d\n    %s\n    %s\n    %s\n    %s\n    %s' % (
        q(g['name']), g['numgeo'], strs([x[0] for x in g['G']]), strs([x[0] for x in g['Q']]),
        strs(g['modes']), 'None' if 'U' not in g else '(Some %s)' % strs([x[0] for x in g['U']]),
        lst('mk_var (L %s) %s %s' % (q(v['name']), strs(v['motors']), strs(v['other-motors'])) for v in g['variations'])))
out.append(';\n'.join(gs) + '\n].\n')
open('/verif/rocq/theories/GeomData.v', 'w').write('\n'.join(out))
