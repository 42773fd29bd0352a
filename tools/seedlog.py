#!/usr/bin/env python3
"""usage: seedlog.py <mutate.py output> [<tightened.json>]

Appends the results of mutate.py to seeded/LOG.jsonl, once per id."""
import json, os, sys
log = os.path.join(os.path.dirname(__file__), '..', 'seeded', 'LOG.jsonl')
have = {json.loads(l)['id'] for l in open(log)}
tight = json.load(open(sys.argv[2])) if len(sys.argv) > 2 else {}
with open(log, 'a') as o:
    for l in open(sys.argv[1]):
        r = json.loads(l)
        if r['id'] in have or r.get('error'): continue
        first = [f'{f}.{n}' for f, ns in r['broken'].items() for n in ns if not n.startswith('<') and not n.startswith('C')]
        o.write(json.dumps({'id': r['id'], 'definition': f"{r['file']}.v: {r['def']}", 'edit': {'old': r['old'], 'new': r['new']}, 'breaks': r['claim'], 'properties': r['props'],
            'failed': r['failed'], 'broken_proofs': first, 'tightened': tight.get(r['id'], [])}, ensure_ascii=False) + '\n')
