#!/usr/bin/env python3
"""Writes MANIFEST.json from the table below."""
import json, os
C = []
def c(p, status, thms, note): C.append(dict(property=p, status=status, theorems=thms, note=note))
exec(open(os.path.join(os.path.dirname(__file__), 'claims.py')).read())
json.dump({"claims": C}, open(os.path.join(os.path.dirname(__file__), '..', 'MANIFEST.json'), 'w'), indent=1)
