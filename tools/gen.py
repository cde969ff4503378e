#!/usr/bin/env python3
"""Regenerate rocq/_CoqProject and MANIFEST.json from the sources.
Claims: every theorem in T_*.v is attributed to the property whose id prefixes its name.
Statuses and notes: tools/status.json."""
import json, re, glob, os
root = os.path.dirname(os.path.dirname(os.path.abspath(__file__)))
th = sorted(os.path.basename(f) for f in glob.glob(root + '/rocq/theories/*.v'))
with open(root + '/rocq/_CoqProject', 'w') as f:
    f.write('-Q theories Verif\n' + ''.join('theories/%s\n' % t for t in th))
props = [json.loads(l) for l in open(root + '/properties.jsonl') if l.strip()]
status = json.load(open(root + '/tools/status.json'))
by = {}
for t in th:
    if t.startswith('T_'):
        for m in re.finditer(r'^Theorem\s+((C\d+)_\w+)', open(root + '/rocq/theories/' + t).read(), re.M):
            by.setdefault(m.group(2), []).append(m.group(1))
claims = []
for p in props:
    i = p['id']; ths = by.get(i, []); st = status.get(i, {})
    s = st.get('status', 'proved' if ths else 'partial')
    claims.append({'property': i, 'status': s, 'theorems': ths, 'note': st.get('note', '' if ths else 'not yet proved')})
json.dump({'claims': claims}, open(root + '/MANIFEST.json', 'w'), indent=1)
print(sum(1 for c in claims if c['theorems']), 'of', len(claims), 'properties have theorems;', sum(len(c['theorems']) for c in claims), 'theorems')
miss = set(by) - set(p['id'] for p in props)
if miss: print('unknown ids', miss)
