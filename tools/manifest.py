"""Write MANIFEST.json from the theorem names in the Properties files and the
notes below.  A property without a theorem gets no claim."""
import glob, json, os, re

root = os.path.dirname(os.path.dirname(os.path.abspath(__file__)))
notes = json.load(open(os.path.join(root, 'tools', 'notes.json')))
theorems = {}
for path in sorted(glob.glob(os.path.join(root, 'rocq/theories/Properties_*.v'))):
    for name in re.findall(r'^Theorem (C\d+_\w+)', open(path).read(), re.M):
        theorems.setdefault(name.split('_')[0], []).append(name)
claims = []
for line in open(os.path.join(root, 'properties.jsonl')):
    pid = json.loads(line)['id']
    if pid not in theorems:
        continue
    # A claim the code violates is not proved, even with its exact behaviour known.
    partial = any(t.endswith(('_partial', '_refuted')) for t in theorems[pid])
    entry = notes.get(pid, {})
    claims.append({
        'property': pid,
        'status': entry.get('status', 'partial' if partial else 'proved'),
        'theorems': theorems[pid],
        'note': entry.get('note', ''),
    })
json.dump({'claims': claims}, open(os.path.join(root, 'MANIFEST.json'), 'w'), indent=1)
print(len(claims), 'claims')
