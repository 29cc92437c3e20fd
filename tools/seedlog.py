#!/usr/bin/env python3
"""Append mutation results (tools/mutate.py) to seeded/LOG.jsonl.

usage: seedlog.py RESULTS.jsonl TIGHTENED.json

TIGHTENED.json maps the name of a mutation to {"tightened": [...], "note": "..."}.
A mutation already in the log is not added again.
"""
import json, os, re, sys
here = os.path.dirname(os.path.abspath(__file__))
log = os.path.join(here, '..', 'seeded', 'LOG.jsonl')
have = {json.loads(l)['name'] for l in open(log)} if os.path.exists(log) else set()
extra = json.load(open(sys.argv[2])) if len(sys.argv) > 2 else {}
n = 0
with open(log, 'a') as out:
    for l in open(sys.argv[1]):
        d = json.loads(l)
        if d['name'] in have:
            continue
        x = extra.get(d['name'], {})
        if x.get('skip'):
            continue
        ids = set(re.findall(r'C\d\d+', d['claim']))
        mine = [t for t in d['theorems'] if t.split('_')[0] in ids]
        rest = [t for t in d['theorems'] if t.split('_')[0] not in ids]
        e = {'name': d['name'], 'definition': d['definition'], 'edit': d['edit'], 'claim': d['claim'],
             'theorems_failed': mine + rest[:10], 'further_theorems_failed': max(0, len(rest) - 10),
             'proofs_failed_directly': d['proofs'][:12],
             'theorems_tightened': x.get('tightened', [])}
        if d.get('error'):
            e['remark'] = d['error'][:200]
        if 'note' in x:
            e['note'] = x['note']
        out.write(json.dumps(e) + '\n')
        have.add(d['name'])
        n += 1
print(n, 'added,', len(have), 'in log')
