#!/usr/bin/env python3
"""Transcribes the coefficient tables of /repo/src/sunwhere/libspa/ne_nrel.py (read as
text, not imported) into rocq/theories/NrelTables.v."""
import ast, re, sys
src = open('/repo/src/sunwhere/libspa/ne_nrel.py').read()
tree = ast.parse(src)
out = ['(** * NrelTables: coefficient tables of libspa/ne_nrel.py:358-767',
       '    GENERATED by tools/gen_nrel_tables.py; the .resize calls (zero padding to a',
       '    common number of rows) are in [pad] of Nrel.v. *)', '',
       'From Coq Require Import ZArith QArith List.', 'Import ListNotations.', 'Open Scope Q_scope.', '']
lines = src.split('\n')
def num(node):
    seg = ast.get_source_segment(src, node)
    return seg.replace(' ', '')
def fmt(s):
    if s.startswith('-'):
        return '-' + fmt(s[1:])
    if s.endswith('.'): s += '0'
    return s
for st in tree.body:
    if isinstance(st, ast.Assign) and st.targets[0].id.startswith('PARAMS') and isinstance(st.value, ast.Call) and st.value.func.attr == 'array':
        name = st.targets[0].id
        rows = st.value.args[0].elts
        w = len(rows[0].elts)
        out.append(f'(** ne_nrel.py:{st.lineno}-{st.end_lineno} *)')
        if name == 'PARAMS_NUTATION_YVALUES':
            ty, sc = 'Z * Z * Z * Z * Z', '%Z'
        else:
            ty, sc = ' * '.join(['Q']*w), ''
        body = ';\n   '.join('(' + ', '.join(('(%s)' % fmt(num(e)) if num(e).startswith('-') else fmt(num(e))) for e in r.elts) + ')' for r in rows)
        if sc: body = body.replace('(-', '(-')
        out.append(f'Definition {name} : list ({ty}) :=\n  [{body}]{sc}.\n' if not sc else f'Definition {name} : list ({ty})%type :=\n  ([{body}])%Z.\n')
        print(name, len(rows), w, file=sys.stderr)
open('/verif/rocq/theories/NrelTables.v', 'w').write('\n'.join(out))
