#!/usr/bin/env python3
"""Test the theorems against wrong programs.

usage: mutate.py MUTATIONS.json [ids...]

MUTATIONS.json: list of {id, file, definition, old, new, edit, claim}.  For each one a
scratch copy of rocq/ is edited and rebuilt.  A lemma that no longer checks is
admitted in the scratch copy and the build goes on, so that Print Assumptions tells
exactly which theorems of the Prop*.v files are affected.  One JSON line per
mutation goes to seeded/LOG.jsonl (replacing an earlier line with the same id)."""
import json, os, re, shutil, subprocess, sys
root = os.path.dirname(os.path.dirname(os.path.abspath(__file__)))
SCR = os.environ.get('MUT_SCRATCH', '/tmp/mut/rocq')
SRC = os.environ.get('MUT_SRC', os.path.join(root, 'rocq'))
LOG = os.path.join(root, 'seeded', 'LOG.jsonl')
START = re.compile(r'^\s*(?:Local |Global |#\[[^\]]*\] )*(Lemma|Theorem|Corollary|Fact|Remark|Example|Instance|Definition|Fixpoint)\s+(\w+)')

def admit(path, line, char):
    lines = open(path).read().split('\n')
    i = line - 1
    while i >= 0 and not START.match(lines[i]):
        i -= 1
    if i < 0: return None
    kind, name = START.match(lines[i]).groups()
    j = i
    text = '\n'.join(lines[i:])
    m = re.search(r'\bProof\b.*?\b(Qed|Defined)\.', text, re.S)
    if not m: return None
    # the proof must belong to this statement
    nxt = START.search('\n'.join(lines[i+1:]))
    new = text[:m.start()] + ('Admitted.' if kind != 'Example' else 'Admitted.') + text[m.end():]
    open(path, 'w').write('\n'.join(lines[:i]) + ('\n' if i else '') + new)
    return kind, name

def build(maxit=200):
    admitted = []
    for _ in range(maxit):
        p = subprocess.run(['timeout', '3000', 'make', '-k', '-j3'], cwd=SCR, stdout=subprocess.PIPE, stderr=subprocess.STDOUT, text=True)
        out = p.stdout
        errs = re.findall(r'File "\./([^"]+)", line (\d+), characters (\d+)-\d+:\n(?:Error|.*?\nError)', out)
        errs = [(f, int(l), int(c)) for f, l, c in re.findall(r'File "\./([^"]+)", line (\d+), characters (\d+)-\d+:\s*\nError', out)]
        if not errs:
            return admitted, p.returncode, out
        seen = set()
        for f, l, c in errs:
            if f in seen: continue
            seen.add(f)
            r = admit(os.path.join(SCR, f), l, c)
            if r is None:
                return admitted, -1, 'cannot admit at %s:%d\n%s' % (f, l, out[-2000:])
            admitted.append((f, r[0], r[1]))
    return admitted, -2, 'too many'

def affected():
    hit = set()
    d = os.path.join(SCR, 'theories')
    for f in sorted(os.listdir(d)):
        if not (f.startswith('Prop') and f.endswith('.v')): continue
        vo = f + 'o'
        if os.path.getmtime(os.path.join(d, vo)) == os.path.getmtime(os.path.join(SRC, 'theories', vo)):
            continue   # not rebuilt, so not affected
        src = open(os.path.join(d, f)).read()
        names = re.findall(r'^Print Assumptions (\w+)\.', src, re.M)
        p = subprocess.run(['coqc', '-Q', 'theories', 'Verif', 'theories/' + f], cwd=SCR, stdout=subprocess.PIPE, stderr=subprocess.STDOUT, text=True)
        # split the output per Print Assumptions
        chunks, cur = [], None
        for line in p.stdout.split('\n'):
            if line.startswith('Closed under the global context'):
                chunks.append([]); cur = None
            elif line.startswith('Axioms:'):
                cur = []; chunks.append(cur)
            elif cur is not None:
                m = re.match(r'^([\w.]+)( :|$)', line)
                if m: cur.append(m.group(1))
        if len(chunks) != len(names):
            print('   !', f, len(chunks), len(names), p.stdout[-300:])
        for n, ax in zip(names, chunks):
            if any(a.split('.')[-1] in ADM for a in ax): hit.add(n)
    return sorted(hit)

ADM = set()
def run(m):
    global ADM
    shutil.rmtree(SCR, ignore_errors=True)
    shutil.copytree(SRC, SCR, copy_function=shutil.copy2)
    path = os.path.join(SCR, 'theories', m['file'])
    s = open(path).read()
    n = s.count(m['old'])
    if n != 1:
        print(m['id'], 'PATTERN FOUND', n, 'TIMES'); return None
    open(path, 'w').write(s.replace(m['old'], m['new']))
    adm, rc, out = build()
    if rc != 0:
        print(m['id'], 'BUILD PROBLEM', rc, out[-1500:]); return None
    if any(f.endswith(m['file']) for f, k, nme in adm):
        print('   note: admitted inside mutated file')
    ADM = {nme for f, k, nme in adm if k != 'Example'}
    hit = affected()
    ex = [nme for f, k, nme in adm if k == 'Example']
    rec = {'id': m['id'], 'definition': m['file'] + ':' + m['definition'], 'edit': m.get('edit') or '%s  ==>  %s' % (m['old'], m['new']),
           'claim': m['claim'], 'failed': hit, 'failed_examples': ex, 'tightened': m.get('tightened', [])}
    print(m['id'], 'KILLED' if hit else 'SURVIVED', m['definition'], '->', ', '.join(hit) or '-', '| examples:', ', '.join(ex) or '-')
    sys.stdout.flush()
    return rec

def main():
    muts = json.load(open(sys.argv[1]))
    ids = set(sys.argv[2:])
    for m in muts:
        if ids and m['id'] not in ids: continue
        rec = run(m)
        if rec is None: continue
        old = [l for l in open(LOG).read().split('\n') if l] if os.path.exists(LOG) else []
        old = [l for l in old if json.loads(l).get('id') != m['id']]
        old.append(json.dumps(rec))
        open(LOG, 'w').write('\n'.join(old) + '\n')
main()
