#!/usr/bin/env python3
"""Adds the results printed by mutate.py or srcmutate.py to seeded/LOG.jsonl.  usage: mutlog.py RESULTS.jsonl
What was tightened after an attempt, and remarks, are in seeded/tightened.json: name -> [theorems], or {"tightened", "note"}."""
import json, os, sys
D = os.path.join(os.path.dirname(os.path.abspath(__file__)), '..', 'seeded')
muts = {m['name']: dict(m, path=p) for f, p in [('mutants', 'rocq/theories/'), ('srcmutants', 'src/arinc424/')] for m in json.load(open(D + '/%s.json' % f))}
tight = json.load(open(D + '/tightened.json'))
log = D + '/LOG.jsonl'
old = [json.loads(l) for l in open(log)] if os.path.exists(log) else []
byname = {(x['mutant'], x.get('run', 1)): x for x in old}
run = int(os.environ.get('RUN', '1'))
for l in open(sys.argv[1]):
    r = json.loads(l)
    if r['name'] not in muts or 'theorems' not in r: print('skipped', r['name'], r.get('error')); continue
    m = muts[r['name']]; t = tight.get(r['name'], [])
    if isinstance(t, list): t = {'tightened': t}
    x = {'mutant': r['name'], 'run': run, 'file': m['path'] + m['file'], 'definition': m['definition'], 'edit': [{'from': a, 'to': b} for a, b in m['edit']],
         'claim_broken': m['claim'], 'theorems_failed': r['theorems'], 'lemmas_failed': [f for f in r['failed'] if f not in r['theorems']],
         'theorems_tightened': t.get('tightened', [])}
    if r.get('first'): x['stopped_at_first_failure'] = True
    if t.get('note'): x['note'] = t['note']
    byname[(r['name'], run)] = x
with open(log, 'w') as f:
    for x in byname.values(): f.write(json.dumps(x) + '\n')
print(len(byname), 'entries;', sum(not x['theorems_failed'] for x in byname.values()), 'unnoticed')
