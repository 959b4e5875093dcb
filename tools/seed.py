#!/usr/bin/env python3
"""Seeded-bug experiments.

Reads experiments (JSON list of {"file","definition","old","new","edit","claim"}) from
the file given, applies each to a scratch copy of a built rocq/ (SEED_BASE), rebuilds
until a proof fails, and reports the failed lemma and the property theorems whose proofs
rest on it (by the references in the .glob files of the base). A failed lemma on which
no theorem of the claim rests but examples and `_refuted` theorems is set aside in the
scratch copy (Admitted there only) and the build goes on. A claim that does not begin
with the number of a property stands for any. An experiment may name "targets" to build first.
"""
import json, os, re, shutil, subprocess, sys

ROOT = '/verif'
BASE = os.environ.get('SEED_BASE', ROOT + '/rocq')
SCR = os.environ.get('SEED_DIR', '/tmp/seed')
HEAD = re.compile(r'^\s*(?:Lemma|Theorem|Example|Corollary|Fact|Remark|Let)\s+([\w\']+)')

def users():
    """lemma -> set of lemmas that refer to it directly"""
    up = {}
    for f in sorted(os.listdir(BASE + '/theories')):
        if not f.endswith('.glob'):
            continue
        cur = None
        lib = 'Verif.' + f[:-5]
        for l in open(BASE + '/theories/' + f):
            m = re.match(r'(prf|def|inst) \d+:\d+ (\S+) (\S+)', l)
            if m:
                cur = lib + '.' + m.group(3)
                continue
            m = re.match(r'R\d+:\d+ (Verif\.\S+) \S+ (\S+) (\w+)', l)
            if m and cur and m.group(3) in ('thm', 'def', 'prf', 'inst', 'lemma'):
                up.setdefault(m.group(1) + '.' + m.group(2), set()).add(cur)
    return up

UP = users()
CLAIMS = {c['property']: set(c['theorems']) for c in json.load(open(ROOT + '/MANIFEST.json'))['claims']}
MAN = set().union(*CLAIMS.values())

def resting_on(name):
    seen, todo = {name}, [name]
    while todo:
        for y in UP.get(todo.pop(), ()):
            if y not in seen:
                seen.add(y)
                todo.append(y)
    return sorted(set(x.split('.')[-1] for x in seen) & MAN)

def enclosing(lines, n):
    for i in range(n, -1, -1):
        m = HEAD.match(lines[i])
        if m:
            return i, m.group(1)
        if re.match(r'^(Definition|Fixpoint|Inductive|Ltac)\b', lines[i]) and i < n:
            return None
    return None

def run(exp):
    subprocess.run(['rm', '-rf', SCR])
    subprocess.run(['cp', '-a', BASE, SCR])
    p = SCR + '/theories/' + exp['file']
    s = open(p).read()
    if s.count(exp['old']) != 1:
        return {'error': 'pattern occurs %d times' % s.count(exp['old'])}
    open(p, 'w').write(s.replace(exp['old'], exp['new']))
    failed, bad = [], set()
    ids = re.findall(r'C\d\d', exp['claim'].split(':')[0])
    want = set().union(*[CLAIMS.get(i, set()) for i in ids]) or MAN
    targets = exp.get('targets', '')
    for it in range(80):
        r = subprocess.run('cd %s && coq_makefile -f _CoqProject -o Makefile >/dev/null && timeout 3600 make -j2 %s 2>&1' % (SCR, targets),
                           shell=True, capture_output=True, text=True)
        out = r.stdout
        errs = re.findall(r'File "\./(theories/[\w]+\.v)", line (\d+), characters[^\n]*\nError:\s*([^\n]*)', out)
        errs = {f: (int(l), e) for f, l, e in reversed(errs)}
        if not errs:
            if r.returncode != 0:
                return {'error': 'build failed: ' + out[-500:], 'lemmas': failed}
            if targets:
                targets = ''
                continue
            break
        for f, (l, e) in errs.items():
            fp = SCR + '/' + f
            lines = open(fp).read().split('\n')
            enc = enclosing(lines, l - 1)
            if enc is None:
                return {'error': 'does not compile: %s:%d %s' % (f, l, e), 'lemmas': failed}
            i, name = enc
            failed.append(name)
            bad |= set(resting_on('Verif.' + f[9:-2] + '.' + name))
            j = i
            while j < len(lines) and not re.search(r'\bProof\b|\bAdmitted\.', lines[j]):
                j += 1
            if j == len(lines) or 'Admitted.' in lines[j]:
                return {'error': 'does not compile: %s:%d %s' % (f, l, e), 'lemmas': failed}
            k = j
            while not re.search(r'\b(Qed|Defined)\.\s*$', lines[k]):
                k += 1
            pre = lines[j][:lines[j].index('Proof')]
            lines[j:k + 1] = [pre + 'Admitted.']
            open(fp, 'w').write('\n'.join(lines))
        if [b for b in bad & want if not b.endswith('_refuted')]:
            break
    return {'lemmas': failed, 'theorems': sorted(bad)}

def main():
    exps = json.load(open(sys.argv[1]))
    for e in exps:
        r = run(e)
        print(e['definition'], '|', e['edit'], '|', e['claim'], '=>', json.dumps(r), flush=True)

main()
