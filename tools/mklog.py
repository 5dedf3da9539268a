"""Merge the raw logs of tools/mutate.py into seeded/LOG.jsonl (one line per mutation; the last run wins)."""
import json, sys
rows = {}
for f in sys.argv[1:]:
    for l in open(f):
        l = l.strip()
        if not l: continue
        d = json.loads(l)
        k = d.get('id') or (d['definition'] + d['edit'])
        rows[k] = d
with open('seeded/LOG.jsonl', 'w') as o:
    for k in sorted(rows): o.write(json.dumps(rows[k], ensure_ascii=False) + '\n')
print(len(rows))
for k in sorted(rows):
    d = rows[k]
    if not d.get('theorems_failed'): print('SURVIVED', k, d)
