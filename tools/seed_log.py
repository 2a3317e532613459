#!/usr/bin/env python3
"""Append the results of seed.py to seeded/LOG.jsonl.
usage: seed_log.py results.jsonl [tightened.json]
tightened.json maps a mutation name to the theorems tightened after it."""
import json, sys
tight = json.load(open(sys.argv[2])) if len(sys.argv) > 2 else {}
path = '/verif/seeded/LOG.jsonl'
have = {json.loads(l)['name'] for l in open(path) if l.strip()}
with open(path, 'a') as f:
    for l in open(sys.argv[1]):
        r = json.loads(l)
        if r['name'] in have or 'error' in r: continue
        have.add(r['name'])
        f.write(json.dumps(dict(name=r['name'], definition=r['definition'], edit=r['edit'], claim=r['claim'],
            theorems_failed=r['failed'], proofs_broken=r['cuts'], not_caught=r['missed'],
            theorems_tightened=tight.get(r['name'], []))) + '\n')
