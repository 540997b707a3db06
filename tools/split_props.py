#!/usr/bin/env python3
"""Generate a Prop_*.v file from a proof file.

Every  [(** doc *)] Lemma pf_NAME : STATEMENT. Proof. ... Qed.  of the proof file
becomes  Theorem NAME : STATEMENT. Proof. exact (@pf_NAME). Qed. Print Assumptions NAME.
Text between (*BEGIN PROP*) and (*END PROP*) is copied verbatim (examples).
usage: split_props.py Proofs.v Prop_X.v
"""
import re, sys

def main(src, dst):
    text = open(src).read()
    head = re.search(r'(From Coq Require.*?)\n\n', text, re.S).group(1)
    mod = src.rsplit('/', 1)[-1][:-2]
    title = re.match(r'\(\*\*(.*?)\*\)', text, re.S).group(1).strip()
    out = ['(** %s\n    Generated by tools/split_props.py from %s.v: statements only, each closed by [exact]. *)' % (title, mod),
           head]
    # require the proof file too
    out.append('From Verif Require Import %s.' % mod)
    scopes = re.findall(r'^(?:Local )?Open Scope \w+\.$', text, re.M)
    out += scopes
    out.append('')
    pat = re.compile(r'\(\*BEGIN PROP\*\)\n(?P<verb>.*?)\(\*END PROP\*\)'
                     r'|(?P<doc>\(\*\*(?:(?!\*\)).)*?\*\)\n)?Lemma pf_(?P<name>\w+) :(?P<stmt>.*?)\nProof\b', re.S)
    for m in pat.finditer(text):
        if m.group('verb') is not None:
            out.append(m.group('verb').rstrip() + '\n')
        else:
            n = m.group('name')
            out.append('%sTheorem %s :%s\nProof. exact (@pf_%s). Qed.\nPrint Assumptions %s.\n'
                       % (m.group('doc') or '', n, m.group('stmt'), n, n))
    open(dst, 'w').write('\n'.join(out))

main(sys.argv[1], sys.argv[2])
