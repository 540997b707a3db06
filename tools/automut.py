#!/usr/bin/env python3
"""Generic mutants of the model files, run until the first proof fails.

usage: automut.py gen SEED PER_DEFINITION MUTANTS.json [FILE.v ...]
       automut.py run MUTANTS.json OUT.jsonl WORKERS
gen picks, for every definition of the *Model.v files, PER_DEFINITION random applications of the
operators below. run applies each to a hard-linked copy of the compiled development in MUT_ROOT and
recompiles what depends on it, up to the first failure. A mutant that is no longer well typed is
discarded ("illtyped"); one with which everything compiles is a survivor and has to be looked at.
"""
import json, os, random, re, shutil, subprocess, sys, time
from concurrent.futures import ThreadPoolExecutor
sys.path.insert(0, os.path.dirname(os.path.abspath(__file__)))
import mutate
ROOT = os.environ.get('MUT_ROOT', '/verif/rocq')
ERR = ['ValueError', 'TypeError', 'IndexError', 'AttributeError', 'RuntimeError', 'KMAccessError', 'KMNormError',
       'NotImplementedErr', 'KernelMethodsError', 'KMSetAddError']
OPS = [(r'\btrue\b', 'false'), (r'\bfalse\b', 'true'), (r'\bnegb ', ''), (r'&&', '||'), (r'\|\|', '&&'),
       (r'<=\?', '<?'), (r'<\?', '<=?'), (r'(?<!<)=\?', '<=?'), (r'\bfst\b', 'snd'), (r'\bsnd\b', 'fst'),
       (r'\b0\b', '1'), (r'\b1\b', '0'), (r'\b1\b', '2'), (r'\b2\b', '3'), (r' \+ ', ' - '), (r' - ', ' + '), (r' \* ', ' + '),
       (r' / ', ' * '), (r'\bn m\b', 'm n'), (r'\ba b\b', 'b a'), (r'\bx y\b', 'y x'), (r'\bxadd\b', 'xsub'), (r'\bxsub\b', 'xadd'),
       (r'\bxmul\b', 'xadd'), (r'\bxdiv\b', 'xmul'), (r'\bDense\b', 'Lil'), (r'\bLil\b', 'Dense'), (r'\bNpMatrix\b', 'Dense'),
       (r'\bmr\b', 'mc'), (r'\bmc\b', 'mr'), (r'\brev\b', 'id'), (r'\bforallb\b', 'existsb'), (r'\bexistsb\b', 'forallb'),
       (r'^[^;\n]*[^;]\s*;;;[ ]*\n', ''), (r'\bget_full\b', 'get_diag'), (r' ++ ', ' ++ []%list ++ '),
       (r'\bRplus\b', 'Rminus'), (r'\bfadd\b', 'fsub'), (r'\bfsub\b', 'fadd'), (r'\bfmul\b', 'fadd'), (r'\bfdiv\b', 'fmul'),
       (r'\bZ\.add\b', 'Z.sub'), (r'\bZ\.sub\b', 'Z.add'), (r'\bZ\.mul\b', 'Z.add'), (r'\bmax\b', 'min'), (r'\bmin\b', 'max')]
OPS += [(r'\b%s\b' % e, f) for e in ERR for f in ERR if e != f]

def definitions(t):
    """(name, start, end) of the definitions of a file; comments are blanked first."""
    b = list(t); d = 0; i = 0
    while i < len(t):
        if t.startswith('(*', i): d += 1; b[i] = b[i+1] = ' '; i += 2; continue
        if t.startswith('*)', i) and d: d -= 1; b[i] = b[i+1] = ' '; i += 2; continue
        if d and t[i] != '\n': b[i] = ' '
        i += 1
    c = ''.join(b)
    for m in re.finditer(r'^[ \t]*(?:Local )?(?:Definition|Fixpoint)\s+(\w+)', c, re.M):
        e = re.compile(r'\.\s*(?=\n|$)').search(c, m.end())
        yield m.group(1), m.start(), e.end(), c

def gen(seed, per, out, files):
    rnd = random.Random(seed); res = []
    th = ROOT + '/theories/'
    for f in sorted(files or [x for x in os.listdir(th) if x.endswith('Model.v') and x != 'ToyModel.v']):
        t = open(th + f).read()
        for name, s, e, c in definitions(t):
            body = c[s:e]; k = body.find(':=')
            if k < 0: continue
            cand = []
            byop = {}
            for o, n in OPS:
                for m in re.finditer(o, body, re.M):
                    if m.start() > k: byop.setdefault((m.start(), m.end()), []).append(n)
            cand = [(p, rnd.choice(ns)) for p, ns in byop.items()]
            rnd.shuffle(cand)
            for (a, z), n in cand[:per]:
                res.append(dict(file=f, name=name, at=s + a, to=s + z, old=t[s+a:s+z], new=n,
                                context=re.sub(r'\s+', ' ', t[max(s, s+a-60):s+z+60])))
    rnd.shuffle(res)
    json.dump(res, open(out, 'w'))
    print(len(res))

def run1(args):
    i, mut, order, g = args
    d = '/tmp/mut/auto%d_%d' % (os.getpid(), i)
    t0 = time.time()
    shutil.rmtree(d, ignore_errors=True)
    subprocess.check_call(['cp', '-al', ROOT, d])
    r = dict(mut, status='survived')
    def fresh(f):
        for x in [f + 'o', f + 'os', f + 'ok', f[:-1] + 'glob']:
            if os.path.exists(d + '/theories/' + x): os.remove(d + '/theories/' + x)
    p = d + '/theories/' + mut['file']
    t = open(p).read(); os.remove(p)
    open(p, 'w').write(t[:mut['at']] + mut['new'] + t[mut['to']:])
    dirty = {mut['file']}
    for f in order:
        if f not in dirty and not (g[f] & dirty): continue
        dirty.add(f)
        if f.startswith('Prop_'): continue
        fresh(f)
        st, line, o = mutate.compile_file(d, f, 900)
        if st == 'ok': continue
        t = open(d + '/theories/' + f).read()
        pos = sum(len(l) + 1 for l in t.split('\n')[:line - 1])
        ms = [m for m in mutate.LEM.finditer(t) if m.start() <= t.find('\n', pos)]
        r.update(status='illtyped' if f == mut['file'] else 'killed', by=f + ':' + (ms[-1].group(1) if ms else str(line)),
                 how=st, message=o[-200:] if not ms else '')
        break
    shutil.rmtree(d, ignore_errors=True)
    r['seconds'] = round(time.time() - t0)
    return i, r

if __name__ == '__main__':
    if sys.argv[1] == 'gen': gen(int(sys.argv[2]), int(sys.argv[3]), sys.argv[4], sys.argv[5:])
    else:
        muts = json.load(open(sys.argv[2]))
        done = set()
        if os.path.exists(sys.argv[3]): done = {json.loads(l)['i'] for l in open(sys.argv[3])}
        order, g = mutate.deps(ROOT)
        with ThreadPoolExecutor(int(sys.argv[4])) as ex:
            from concurrent.futures import as_completed
            fs = [ex.submit(run1, (i, m, order, g)) for i, m in enumerate(muts) if i not in done]
            for x in as_completed(fs):
                try: i, r = x.result()
                except Exception as e: print('error', e); continue
                with open(sys.argv[3], 'a') as f: f.write(json.dumps(dict(r, i=i)) + '\n')
