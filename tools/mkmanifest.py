#!/usr/bin/env python3
"""Write MANIFEST.json: theorems are found by their Cnn_ prefix in Prop*.v;
status and note come from tools/status.json."""
import glob, json, os, re
root = os.path.dirname(os.path.dirname(os.path.abspath(__file__)))
thms = {}
for f in sorted(glob.glob(root + '/rocq/theories/Prop*.v')):
    for m in re.finditer(r'^Theorem ((C\d+)_\w*)', open(f).read(), re.M):
        thms.setdefault(m.group(2), []).append(m.group(1))
status = json.load(open(root + '/tools/status.json'))
claims = []
for line in open(root + '/properties.jsonl'):
    i = json.loads(line)['id']
    if i in status and i in thms:
        claims.append({"property": i, "status": status[i][0], "theorems": thms[i], "note": status[i][1]})
    else:
        print("no claim for", i)
with open(root + '/MANIFEST.json', 'w') as o:
    o.write('{"claims": [\n' + ',\n'.join(json.dumps(c) for c in claims) + '\n]}\n')
