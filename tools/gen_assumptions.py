"""Regenerate rocq/theories/Assumptions.v from MANIFEST.json."""
import json, os, re
root = os.path.dirname(os.path.dirname(os.path.abspath(__file__)))
ms = [t for c in json.load(open(root + '/MANIFEST.json'))['claims'] for t in c['theorems']]
ms = list(dict.fromkeys(ms))
files = [l.strip()[len('theories/'):-2] for l in open(root + '/rocq/_CoqProject')
         if l.startswith('theories/') and 'Assumptions' not in l]
where = {}
for f in files:
    s = open(f'{root}/rocq/theories/{f}.v').read()
    for t in ms:
        if re.search(r'\b(Theorem|Lemma|Corollary|Example)\s+%s\b' % t, s):
            where.setdefault(t, []).append(f)
bad = [t for t in ms if len(where.get(t, [])) != 1]
assert not bad, bad
out = '''(** * What the property theorems rest on

    Generated by tools/gen_assumptions.py from MANIFEST.json: all property theorems in one
    tuple, so that one [Print Assumptions] covers them all.  It prints "Closed under the
    global context". *)
From Verif Require %s.
Definition all_properties :=
 (%s).
Print Assumptions all_properties.
''' % (' '.join(dict.fromkeys(where[t][0] for t in ms)),
       ',\n  '.join('@%s.%s' % (where[t][0], t) for t in ms))
open(root + '/rocq/theories/Assumptions.v', 'w').write(out)
