#!/usr/bin/env python3
"""Mutation testing of the theorems.

usage: mutate.py mutations.json [ids...]

Each mutation edits a definition of the model in a scratch copy (outside /verif) the way a
realistic bug would change the program.  The copy is rebuilt; every lemma, theorem or witness
whose proof breaks is replaced by Admitted and the build continues, so that in the end
Print Assumptions tells exactly which property theorems depend on something that broke.
One JSON line per attempt is appended to seeded/LOG.jsonl.  A mutation may name the property
files to rebuild ("targets"); then only their theorems are reported."""
import json, os, re, shutil, subprocess, sys
ROOT = os.path.dirname(os.path.dirname(os.path.abspath(__file__)))
SCR = os.environ.get('MUT_DIR', '/tmp/mut')
def sh(c, t=2400):
    try:
        p = subprocess.run(c, shell=True, cwd=SCR, capture_output=True, text=True, timeout=t)
        return p.returncode, p.stdout + p.stderr
    except subprocess.TimeoutExpired:
        subprocess.run('pkill -f ' + SCR, shell=True)
        return 1, 'TIMEOUT'
HEAD = re.compile(r'^[ ]*(?:Global |Local )?(Lemma|Theorem|Example|Corollary|Fact|Instance|Definition|Fixpoint)\s+(\w+)', re.M)
def admit(path, line):
    s = open(path).read()
    off = sum(len(l) for l in s.splitlines(True)[:line-1])
    best = None
    for m in HEAD.finditer(s):
        if m.start() <= off + 1: best = m
    # allow the error to be on the statement line itself
    if best is None: return None
    kind, name = best.group(1), best.group(2)
    p = re.compile(r'^[ ]*Proof( using[^.]*)?\.', re.M).search(s, best.start())
    nxt = HEAD.search(s, best.end())
    if not p or (nxt and p.start() > nxt.start()): return None
    q = re.compile(r'\b(Qed|Defined|Admitted)\.').search(s, p.start())
    if kind in ('Instance', 'Definition', 'Fixpoint'): return None
    if 'Admitted' in s[p.start():q.end()]: return None
    s = s[:p.start()] + 'Proof. Admitted.' + s[q.end():]
    open(path, 'w').write(s)
    return name
def run(m):
    d = os.path.join(SCR, 'rocq')
    shutil.rmtree(d, ignore_errors=True); subprocess.run(['cp', '-a', os.environ.get('MUT_BASE', os.path.join(ROOT, 'rocq')), d], check=True)
    f = os.path.join(d, 'theories', m['file'])
    s = open(f).read()
    if s.count(m['old']) != 1 and not m.get('all'):
        return {'id': m['id'], 'error': 'old text occurs %d times' % s.count(m['old'])}
    open(f, 'w').write(s.replace(m['old'], m['new']))
    sh('cd rocq && coq_makefile -f _CoqProject -o Makefile')
    admitted = []
    for _ in range(60):
        rc, out = sh('cd rocq && timeout 2300 make -j2 ' + ' '.join('theories/%s.vo' % t for t in m.get('targets', [])))
        if rc == 0: break
        errs = re.findall(r'File "\./(theories/\w+\.v)", line (\d+)', out)
        errs = [e for e in errs if 'Warning' not in out.split(e[0] + '", line ' + e[1])[1][:60]] or errs
        t = re.search(r'(theories/\w+)\.vo\] (Terminated|Error 124|Killed)', out)
        if not errs and t:
            # a proof script loops: find the sentence
            _, o2 = sh('cd rocq && timeout 300 coqc -time -Q theories Verif %s.v' % t.group(1))
            ends = [int(x) for x in re.findall(r'^Chars \d+ - (\d+)', o2, re.M)]
            src = open(os.path.join(d, t.group(1) + '.v'), 'rb').read()
            errs = [(t.group(1) + '.v', str(src[:(ends or [0])[-1]].count(b'\n') + 1))]
        if not errs:
            return {'id': m['id'], 'error': 'build: ' + out[-300:]}
        pth, ln = errs[-1]
        n = admit(os.path.join(d, pth), int(ln))
        if n is None:
            return {'id': m['id'], 'error': 'cannot admit at %s:%s: %s' % (pth, ln, out[-300:])}
        admitted.append(n)
    failed = []
    if admitted:
        thms = {}
        for p in sorted(os.listdir(os.path.join(d, 'theories'))):
            if p.startswith('Prop') and p.endswith('.v') and (not m.get('targets') or p[:-2] in m['targets']):
                for n in re.findall(r'^Theorem (C\d+_\w+)', open(os.path.join(d, 'theories', p)).read(), re.M):
                    thms[n] = p[:-2]
        body = ''.join('From Verif Require %s.\n' % x for x in sorted(set(thms.values())))
        for n, x in thms.items():
            body += 'Goal True. idtac "@@ %s". Abort.\nPrint Assumptions %s.%s.\n' % (n, x, n)
        open(os.path.join(d, 'zz.v'), 'w').write(body)
        rc, out = sh('cd rocq && coqc -Q theories Verif zz.v')
        for chunk in out.split('@@ ')[1:]:
            name, rest = chunk.split('\n', 1)
            if 'Closed under' not in rest: failed.append(name.strip())
        if rc != 0: failed.append('ZZ-ERROR ' + out[-200:])
    return {'id': m['id'], 'definition': m['definition'], 'edit': m['edit'], 'claim': m['claim'],
            'broken_proofs': admitted, 'theorems_failed': failed, 'theorems_tightened': m.get('tightened', [])}
if __name__ == '__main__':
    os.makedirs(SCR, exist_ok=True)
    muts = json.load(open(sys.argv[1]))
    want = sys.argv[2:]
    for m in muts:
        if want and m['id'] not in want: continue
        r = run(m)
        out = os.environ.get('MUT_LOG', os.path.join(ROOT, 'seeded', 'LOG.jsonl'))
        print(json.dumps(r), flush=True)
        if 'error' not in r:
            with open(out, 'a') as fh: fh.write(json.dumps(r) + '\n')
