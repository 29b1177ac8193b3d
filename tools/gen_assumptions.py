#!/usr/bin/env python3
"""Run Print Assumptions on every manifest theorem (needs a built rocq/) and write ASSUMPTIONS.md."""
import json, re, glob, subprocess, os
os.chdir(os.path.join(os.path.dirname(__file__), '..'))
m = json.load(open('MANIFEST.json'))
where = {}
for f in glob.glob('rocq/theories/Prop_*.v'):
    for n in re.findall(r'^\s*(?:Theorem|Lemma|Example) (C\d\d_\w+)', open(f).read(), re.M):
        where[n] = os.path.basename(f)[:-2]
names = [t for c in m['claims'] for t in c['theorems']]
src = ''.join('From Verif Require %s.\n' % x for x in sorted(set(where.values())))
for n in names:
    src += 'Goal True. idtac "@@ %s". exact I. Qed.\nPrint Assumptions %s.%s.\n' % (n, where[n], n)
open('/tmp/assume.v', 'w').write(src)
out = subprocess.run(['coqc', '-Q', 'rocq/theories', 'Verif', '/tmp/assume.v'], capture_output=True, text=True)
assert out.returncode == 0, out.stderr
res = {}
for blk in out.stdout.split('@@ ')[1:]:
    n, rest = blk.split('\n', 1)
    res[n.strip()] = ' '.join(rest.split())
with open('ASSUMPTIONS.md', 'w') as f:
    f.write('# Print Assumptions of every theorem in MANIFEST.json\n\nGenerated by tools/gen_assumptions.py.\n\n')
    f.write('| theorem | file | Print Assumptions |\n|---|---|---|\n')
    for n in names:
        f.write('| %s | %s.v | %s |\n' % (n, where[n], res[n]))
print(len(names), set(res.values()))
