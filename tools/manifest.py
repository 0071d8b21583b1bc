# Writes MANIFEST.json: theorems of Properties*.v grouped by their Cnn prefix, with the notes below.
import re, glob, json, os
here = os.path.dirname(os.path.dirname(os.path.abspath(__file__)))
props = [json.loads(l)['id'] for l in open(here + '/properties.jsonl')]
NOTES = {}
for line in open(here + '/tools/notes.txt'):
    line = line.strip()
    if line and not line.startswith('#'):
        k, v = line.split(' ', 1)
        NOTES[k] = v
thms = {}
for f in sorted(glob.glob(here + '/rocq/theories/Properties*.v')):
    for m in re.finditer(r'^Theorem ((C\d+)_\w+)', open(f).read(), re.M):
        thms.setdefault(m.group(2), []).append(m.group(1))
claims = []
for p in props:
    t = thms.get(p, [])
    status = 'proved' if t else 'partial'
    if any(x.endswith('_partial') for x in t):
        status = 'partial'
    claims.append({"property": p, "status": status, "theorems": t, "note": NOTES.get(p, '' if t else 'not yet proved')})
json.dump({"claims": claims}, open(here + '/MANIFEST.json', 'w'), indent=1)
print({p: len(thms.get(p, [])) for p in props if not thms.get(p)})
