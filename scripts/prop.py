"""usage: prop.py ID FIELD VALUE -- edit one field of a property (anchors: JSON list)."""
import json, sys, os
p = os.path.join(os.path.dirname(os.path.abspath(__file__)), '..', 'properties.jsonl')
rows = [json.loads(l) for l in open(p)]
for r in rows:
    if r['id'] == sys.argv[1]:
        r[sys.argv[2]] = json.loads(sys.argv[3]) if sys.argv[2] == 'anchors' else sys.argv[3]
        break
else:
    sys.exit('no such id')
open(p, 'w').write(''.join(json.dumps(r) + '\n' for r in rows))
