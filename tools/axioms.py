"""Group the theorems of Prop_*.v by the axioms Print Assumptions lists; print markdown.
Run in rocq/ after a build."""
import re, subprocess, glob, os, tempfile, collections
from concurrent.futures import ThreadPoolExecutor
def one(f):
    src = open(f).read()
    names = re.findall(r'^Print Assumptions (\S+)\.', src, re.M)
    with tempfile.TemporaryDirectory() as d:
        t = os.path.join(d, 'Ax.v')
        m = os.path.basename(f)[:-2]
        open(t, 'w').write('From Verif Require Import %s.\n' % m + ''.join('Print Assumptions %s.\n' % n for n in names))
        out = subprocess.run(['coqc', '-Q', 'theories', 'Verif', t], capture_output=True, text=True)
        assert out.returncode == 0, out.stderr
    blocks = re.split(r'(?=^Closed under|^Axioms:)', out.stdout, flags=re.M)[1:]
    assert len(blocks) == len(names), (f, len(blocks), len(names))
    res = []
    for n, b in zip(names, blocks):
        ax = tuple(sorted(re.findall(r'^([A-Za-z_.\']+)(?= :|$)', b.split('\n', 1)[1], re.M))) if b.startswith('Axioms') else ()
        res.append((n, ax))
    return res
with ThreadPoolExecutor(2) as ex:
    rs = list(ex.map(one, sorted(glob.glob('theories/Prop_*.v'))))
g = collections.OrderedDict()
for r in rs:
    for n, ax in r:
        g.setdefault(ax, []).append(n)
for ax in sorted(g, key=len):
    print('* ' + ('**closed under the global context**' if not ax else ', '.join('`%s`' % a for a in ax)) + ' (%d theorems): ' % len(g[ax]))
    print('  ' + ', '.join(sorted(g[ax])))
