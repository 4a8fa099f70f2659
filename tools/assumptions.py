"""Write ASSUMPTIONS.md: what `Print Assumptions` prints for each theorem.

Run in /verif after `make` in rocq/.
"""
import glob
import os
import re
import subprocess
import tempfile

scratch = tempfile.mkdtemp()
names = {}
order = []
for path in sorted(glob.glob('rocq/theories/T_*.v')):
    text = open(path).read()
    asked = re.findall(r'^Print Assumptions (\w+)\.', text, re.M)
    module = os.path.basename(path)[:-2]
    query = os.path.join(scratch, 'Query_{}.v'.format(module))
    with open(query, 'w') as f:
        f.write('From Verif Require {}.\n'.format(module))
        for name in asked:
            f.write('Print Assumptions {}.{}.\n'.format(module, name))
    out = subprocess.run(['coqc', '-Q', 'rocq/theories', 'Verif', query],
                         capture_output=True, text=True).stdout
    blocks = re.split(r'^(?=Axioms:|Closed under)', out, flags=re.M)[1:]
    assert len(blocks) == len(asked), (path, len(blocks), len(asked))
    for name, block in zip(asked, blocks):
        axioms = re.findall(r'^([A-Za-z_.\']+)\s*(?::|$)', block, re.M)
        axioms = tuple(sorted(a.split('.')[-1] for a in axioms
                              if a != 'Axioms' and not a.startswith('Closed')))
        names[name] = axioms
        order.append((os.path.basename(path), name))

sets = {}
for f, n in order:
    sets.setdefault(names[n], []).append((f, n))
with open('ASSUMPTIONS.md', 'w') as out:
    out.write('# `Print Assumptions` of every property theorem\n\n'
              'Generated by `tools/assumptions.py`.  All axioms are those of the\n'
              'Coq standard library.\n')
    for axioms, thms in sorted(sets.items()):
        out.write('\n## {}\n\n'.format(
            ', '.join(axioms) if axioms else 'Closed under the global context'))
        byfile = {}
        for f, n in thms:
            byfile.setdefault(f, []).append(n)
        for f in sorted(byfile):
            out.write('* {}: {}\n'.format(f, ', '.join(byfile[f])))
for axioms in sorted(sets):
    print(len(sets[axioms]), axioms)
