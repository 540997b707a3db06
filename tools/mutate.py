#!/usr/bin/env python3
"""Mutation testing of the theorems, in a scratch copy.

usage: mutate.py MUTANTS.json OUT.jsonl
MUTANTS.json: [{"def": name, "file": "KMModel.v", "old": text, "new": text, "claim": text}, ...]
For each mutant: copy the compiled development, apply the edit, rebuild. When a proof fails it is
replaced by Admitted and the build goes on, so that at the end the property theorems whose
Print Assumptions mentions an admitted lemma are exactly those whose proof is lost.
"""
import json, os, re, shutil, subprocess, sys, time
ROOT = os.environ.get('MUT_ROOT', '/verif/rocq')
LEM = re.compile(r'^[ \t]*(?:Lemma|Theorem|Example|Corollary|Fact|Remark)\s+(\w+)', re.M)

def deps(d):
    """File -> list of files it requires, in _CoqProject order."""
    files = [l.strip()[len('theories/'):] for l in open(d + '/_CoqProject') if l.startswith('theories/')]
    g = {}
    for f in files:
        t = open(d + '/theories/' + f).read()
        req = set()
        for m in re.findall(r'From Verif Require (?:Import|Export)?\s*(.*?)\.\s', t, re.S):
            req |= {x + '.v' for x in m.split()}
        g[f] = req
    order, seen = [], set()
    def visit(f):
        if f in seen: return
        seen.add(f)
        for q in g.get(f, ()): visit(q)
        order.append(f)
    for f in files: visit(f)
    return order, g

def admit(path, line):
    """Replace by Admitted the proof containing [line]; return the lemma's name or None."""
    t = open(path).read()
    pos = sum(len(l) + 1 for l in t.split('\n')[:line - 1])
    eol = t.find('\n', pos)
    ms = [m for m in LEM.finditer(t) if m.start() <= eol]
    if not ms: return None
    m = ms[-1]
    q = re.compile(r'\b(Qed|Defined)\.').search(t, m.end())
    p = re.compile(r'^\s*Proof\b[^.]*\.|\bProof\.', re.M).search(t, m.end())
    if not q or not p or p.start() > q.start() or q.end() < pos: return None
    if pos < m.start() - 1: return None
    open(path, 'w').write(t[:p.start()] + '\nAdmitted.' + t[q.end():])
    return m.group(1)

def compile_file(d, f, tmo=400):
    out = subprocess.Popen(['coqc', '-time', '-Q', 'theories', 'Verif', 'theories/' + f], cwd=d, text=True,
                           stdout=subprocess.PIPE, stderr=subprocess.STDOUT)
    try:
        o, _ = out.communicate(timeout=tmo)
    except subprocess.TimeoutExpired:
        out.kill(); o, _ = out.communicate()
        last = [int(x) for x in re.findall(r'^Chars \d+ - (\d+) ', o, re.M)]
        t = open(d + '/theories/' + f).read().encode()
        return 'timeout', t[:last[-1] if last else 0].decode().count('\n') + 2, o
    if out.returncode == 0: return 'ok', 0, o
    m = re.search(r'File "[^"]*", line (\d+)', o)
    return 'error', int(m.group(1)) if m else 0, o

def run(mut, k):
    d = '/tmp/mut/w%s' % k
    shutil.rmtree(d, ignore_errors=True)
    shutil.copytree(ROOT, d)
    path = d + '/theories/' + mut['file']
    t = open(path).read()
    if t.count(mut['old']) != 1:
        return dict(mut, error='pattern occurs %d times' % t.count(mut['old']))
    open(path, 'w').write(t.replace(mut['old'], mut['new']))
    order, g = deps(d)
    dirty, failed, lost, broken = {mut['file']}, [], [], None
    for f in order:
        if f not in dirty and not (g[f] & dirty): continue
        dirty.add(f)
        while True:
            st, line, o = compile_file(d, f)
            if st == 'ok': break
            n = admit(d + '/theories/' + f, line)
            if n is None:
                broken = '%s:%d %s' % (f, line, o[-300:]); break
            failed.append(n)
        if broken: break
        if f.startswith('Prop_'):
            # Print Assumptions output follows each theorem
            names = re.findall(r'^Print Assumptions (\w+)\.', open(d + '/theories/' + f).read(), re.M)
            chunks = re.split(r'^(?=Axioms:|Closed under)', re.sub(r'^Chars .*\n', '', o, flags=re.M), flags=re.M)[1:]
            for n, c in zip(names, chunks):
                if any(re.search(r'\b%s\b' % re.escape(x), c) for x in failed): lost.append(n)
            lost += [x for x in failed if re.match(r'C\d\d', x) and x not in lost]
    shutil.rmtree(d, ignore_errors=True)
    r = dict(definition=mut['file'] + ':' + mut['def'], edit='%s  ->  %s' % (mut['old'].strip(), mut['new'].strip()),
             claim=mut['claim'], theorems_failed=sorted(set(lost)), first_failing_lemmas=failed[:12])
    if broken: r['build_broken'] = broken
    return r

if __name__ == '__main__':
    muts = json.load(open(sys.argv[1]))
    done = 0
    if os.path.exists(sys.argv[2]): done = len(open(sys.argv[2]).readlines())
    for i, m in enumerate(muts):
        if i < done: continue
        t0 = time.time()
        r = run(m, os.path.basename(sys.argv[1]).split('.')[0])
        r['seconds'] = round(time.time() - t0)
        with open(sys.argv[2], 'a') as f: f.write(json.dumps(r) + '\n')
