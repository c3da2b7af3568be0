"""Writes MANIFEST.json from the table below."""
import json, os, re
here = os.path.dirname(os.path.abspath(__file__))
root = os.path.dirname(here)
T = {}   # id -> (status, note)
exec(open(os.path.join(here, 'claims.py')).read())
names = {}
for f in sorted(os.listdir(root + '/rocq/theories')):
    if f.startswith('Props') and f.endswith('.v'):
        for m in re.finditer(r'^Theorem (C\d\d)_(\w+)', open(root + '/rocq/theories/' + f).read(), re.M):
            names.setdefault(m.group(1), []).append(m.group(1) + '_' + m.group(2))
claims = []
for i in sorted(T):
    st, note = T[i]
    claims.append({"property": i, "status": st, "theorems": names.get(i, []), "note": note})
    assert names.get(i), i
for i in names:
    assert i in T, i
json.dump({"claims": claims}, open(root + '/MANIFEST.json', 'w'), indent=1)
print(len(claims))
