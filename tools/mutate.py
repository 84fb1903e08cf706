#!/usr/bin/env python3
# Seeds wrong programs: for each mutant (a text edit of a model file) rebuilds a
# scratch copy of the development, and finds the property theorems that no longer
# prove. A proof that fails is replaced by Admitted in the scratch copy, so that
# Print Assumptions tells which property theorems rest on a failed proof.
# usage: mutate.py mutants.jsonl [LOG.jsonl]
# A mutant: {"file":..., "def":..., "old":..., "new":..., "edit":..., "claim":..., "expect":["C01",..], "also":[{"file":..., "old":..., "new":...}]}
import json, os, re, subprocess, sys, shutil
SRC = '/verif/rocq'
W = os.environ.get('MUT_W', '/tmp/mut')
B = os.environ.get('MUT_B', '/tmp/mutbase')
ONLY = os.environ.get('MUT_ONLY', '').split()   # restrict the build to these files
def sh(cmd, timeout=900):
    try:
        p = subprocess.run(cmd, shell=True, cwd=W, capture_output=True, text=True, timeout=timeout)
        return p.returncode, p.stdout + p.stderr
    except subprocess.TimeoutExpired as e:
        return 124, (e.stdout or b'').decode() + (e.stderr or b'').decode()

def prepare():
    global W
    os.makedirs(B, exist_ok=True)
    for f in os.listdir(B + '/theories') if os.path.isdir(B + '/theories') else []:
        if f.endswith('.v') and not os.path.exists(SRC + '/theories/' + f): os.remove(B + '/theories/' + f)
    os.makedirs(B + '/theories', exist_ok=True)
    project = open(SRC + '/_CoqProject').read().split('\n')
    if ONLY: project = [l for l in project if not l.endswith('.v')] + ['theories/' + f for f in ONLY]
    open(B + '/_CoqProject', 'w').write('\n'.join(project) + '\n')
    for f in os.listdir(SRC + '/theories'):
        if not f.endswith('.v') or (ONLY and f not in ONLY): continue
        a, b = SRC + '/theories/' + f, B + '/theories/' + f
        if not os.path.exists(b) or open(a).read() != open(b).read(): shutil.copy(a, b)
    p = subprocess.run('coq_makefile -f _CoqProject -o Makefile && make -j4', shell=True, cwd=B, capture_output=True, text=True)
    assert p.returncode == 0, p.stderr[-2000:]

HEAD = re.compile(r'^\s*(Lemma|Theorem|Example|Corollary|Fact|Remark)\s+(\w+)', re.M)
def admit(path, line):
    """replace the proof around the line by Admitted; returns (name, ok)"""
    s = open(path).read()
    off = sum(len(l) + 1 for l in s.split('\n')[:line - 1])
    end_line = off + len(s[off:].split('\n')[0])
    ms = [m for m in HEAD.finditer(s) if m.start() <= end_line]
    if not ms: return None, False
    m = ms[-1]
    q = re.compile(r'\b(Qed|Defined|Admitted)\.').search(s, m.start())
    p = re.compile(r'\bProof\b[^.]*\.').search(s, m.start(), q.end())
    if q.group(1) == 'Admitted': return m.group(2), False
    if m.group(1) == 'Example':
        s2 = s[:m.start()] + s[q.end():]
    else:
        stop = p.start() if p else None
        if stop is None: return m.group(2), False
        s2 = s[:stop] + 'Admitted.' + s[q.end():]
    open(path, 'w').write(s2)
    return m.group(2), True

def failed_theorems(admitted):
    bad = set()
    for f in sorted(os.listdir(W + '/theories')):
        if not ('Props' in f and f.endswith('.v')): continue
        out_f = W + '/theories/' + f + '.out'
        if not os.path.exists(out_f): continue
        txt = open(W + '/theories/' + f).read()
        names = re.findall(r'^Print Assumptions (\w+)\.', txt, re.M)
        out = open(out_f).read()
        blocks = re.split(r'(?=^Closed under the global context|^Axioms:)', out, flags=re.M)
        blocks = [b for b in blocks if b.startswith('Closed') or b.startswith('Axioms:')]
        if len(blocks) != len(names): print('  block mismatch', f, len(blocks), len(names)); continue
        for n, b in zip(names, blocks):
            for a in admitted:
                if re.search(r'(^|[\s.])' + a + r'\b', b): bad.add(n)
    return bad

def run(m):
    # restore
    shutil.rmtree(W, ignore_errors=True)
    subprocess.run(['cp', '-a', B, W], check=True)
    path = W + '/theories/' + m['file']
    s = open(path).read()
    if s.count(m['old']) != m.get('count', 1):
        print('  cannot apply:', m['def'], 'occurrences', s.count(m['old'])); return None
    open(path, 'w').write(s.replace(m['old'], m['new']))
    for a in m.get('also', []):   # the same edit in a copy of the function
        path = W + '/theories/' + a['file']
        s = open(path).read()
        if s.count(a['old']) != a.get('count', 1):
            print('  cannot apply:', a['file'], 'occurrences', s.count(a['old'])); return None
        open(path, 'w').write(s.replace(a['old'], a['new']))
    admitted, examples = [], []
    for it in range(80):
        rc, out = sh('make -k -j4 2>&1', m.get('timeout', 900))
        if rc == 0: break
        errs = re.findall(r'File "\./(theories/\w+\.v)", line (\d+), characters [^\n]*\n(?:Error|.*\nError)', out)
        seen = set(); progress = False
        for f, l in errs:
            if f in seen: continue
            seen.add(f)
            n, ok = admit(W + '/' + f, int(l))
            if ok:
                progress = True
                admitted.append(n)
            else:
                print('  stuck at', f, l, n, out[-600:]); return None
        if not progress:
            print('  no progress', rc, out[-1500:]); return None
    # collect print assumptions from Props that depend on the change
    vos = [f for f in sorted(os.listdir(W + '/theories')) if 'Props' in f and f.endswith('.v')]
    bad = set()
    direct = set(admitted)
    for f in vos:
        txt = open(W + '/theories/' + f).read()
        if not admitted: break
        vo = '/theories/' + f[:-2] + '.vo'
        if os.path.getmtime(W + vo) == os.path.getmtime(B + vo): continue
        rc, out = sh('coqc -Q theories Verif theories/' + f, 900)
        open(W + '/theories/' + f + '.out', 'w').write(out)
    if admitted: bad = failed_theorems(admitted)
    bad |= {a for a in admitted if re.match(r'C\d+_', a)}
    gone = [a for a in admitted if a.endswith('_example')]
    return admitted, sorted(bad)

if __name__ == '__main__':
    prepare()
    log = open(sys.argv[2], 'a') if len(sys.argv) > 2 else None
    for line in open(sys.argv[1]):
        if not line.strip(): continue
        m = json.loads(line)
        print(m['file'], m['def'], ':', m['edit'], flush=True)
        r = run(m)
        if r is None: continue
        admitted, bad = r
        props = sorted({b.split('_')[0] for b in bad})
        miss = [e for e in m.get('expect', []) if e not in props]
        print('   failed:', bad, '| broken proofs:', admitted[:6], '| MISSED:' if miss else '', miss, flush=True)
        if log:
            log.write(json.dumps({"definition": m['file'] + ':' + m['def'], "edit": m['edit'], "breaks": m['claim'], "theorems_failed": bad, "first_broken_proofs": admitted[:6], "theorems_tightened": m.get('tightened', []), "not_caught_by_expected": miss}) + '\n'); log.flush()
