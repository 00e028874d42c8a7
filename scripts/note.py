"""usage: note.py ID STATUS NOTE -- record a claim's status and note."""
import json, sys, os
p = os.path.join(os.path.dirname(os.path.abspath(__file__)), 'notes.json')
d = json.load(open(p))
d[sys.argv[1]] = {'status': sys.argv[2], 'note': sys.argv[3]}
json.dump(d, open(p, 'w'), indent=1)
