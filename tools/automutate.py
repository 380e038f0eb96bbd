#!/usr/bin/env python3
"""Small random edits of model definitions, to find edits that no proof notices.

usage: automutate.py OUT.jsonl SEED [file...]

One edit for each definition (in random order) of the model files that seeded/LOG.jsonl
does not mention: a comparison, a boolean, a number, a character of a text.  The scratch
copy is rebuilt up to the first proof that fails.  A line says which one; "survived" means
that everything still builds, so the edit makes no difference or a theorem is too weak."""
import glob, json, os, random, re, subprocess, sys
root = os.path.dirname(os.path.dirname(os.path.abspath(__file__)))
SRC = os.environ.get('MUT_SRC', os.path.join(root, 'rocq'))
SCR = os.environ.get('MUT_SCRATCH', '/tmp/auto/rocq')
OUT, SEED, FILES = sys.argv[1], int(sys.argv[2]), sys.argv[3:]
random.seed(SEED)
STMT = re.compile(r'^\s*(?:Lemma|Theorem|Corollary|Fact|Remark|Example|Instance|Definition|Fixpoint)\s+(\w+)')
DEF = re.compile(r'^(?:Definition|Fixpoint|with) (\w+)', re.M)

def sync():
    subprocess.run(['rm', '-rf', SCR], check=True)
    subprocess.run(['cp', '-a', SRC, SCR], check=True)

def edits(body):
    """(position, old, new) inside the text of a definition, behind its :="""
    start = body.find(':=')
    if start < 0: return []
    es = []
    comments = [(m.start(), m.end()) for m in re.finditer(r'\(\*.*?\*\)', body, re.S)]
    strings = [(m.start(), m.end()) for m in re.finditer(r'"[^"]*"', body)]
    inside = lambda p, l: any(a <= p < b for a, b in l)
    def add(p, o, n):
        if p > start and not inside(p, comments): es.append((p, o, n))
    for pat, new in [(r'<=\?', '<?'), (r'(?<![<=>])<\?', '<=?'), (r'(?<![<>])=\?', '<=?'), (r'>\?', '>=?'), (r'&&', '||'),
                     (r'\|\|', '&&'), (r'\bnegb\b', 'id'), (r'\btrue\b', 'false'), (r'\bfalse\b', 'true'),
                     (r' \+ ', ' - '), (r' - ', ' + '), (r'\bNone\b', None), (r'\bexistsb\b', 'forallb'), (r'\bforallb\b', 'existsb'),
                     (r'\bfst\b', 'snd'), (r'\bsnd\b', 'fst'), (r'\bfirstn\b', 'skipn'), (r'\bskipn\b', 'firstn'), (r'\bMINOR\b', 'MAJOR'),
                     (r'\bMAJOR\b', 'CRITICAL'), (r'\bCRITICAL\b', 'MAJOR'), (r'\bINFO\b', 'MINOR'), (r' \+\+ ', None)]:
        for m in re.finditer(pat, body):
            if new and not inside(m.start(), strings): add(m.start(), m.group(0), new)
    for m in re.finditer(r'(?<![\w.])(0x[0-9A-F]+|\d+)(?![\w.])', body):
        if not inside(m.start(), strings):
            add(m.start(), m.group(0), str(int(m.group(0), 0) + random.choice([1, 1, 2])))
    for a, b in strings:
        if b - a > 3:
            k = random.randrange(a + 1, b - 1)
            add(a, body[a:b], body[a:k] + ('Q' if body[k] != 'Q' else 'R') + body[k + 1:b])
    # exchange two list entries / branches of an if
    for m in re.finditer(r'\bif (\w+) then\b', body): add(m.start(), m.group(0), 'if negb %s then' % m.group(1))
    return es

def main():
    done = {tuple(json.loads(l)['definition'].split(':')[-1:]) for l in open(os.path.join(root, 'seeded', 'LOG.jsonl'))}
    models = [f for f in sorted(glob.glob(SRC + '/theories/*.v'))
              if not re.match(r'(Spec|Prop)', os.path.basename(f)) and 'Proofs' not in f and 'Example' not in f]
    jobs = []
    for f in models:
        b = os.path.basename(f)
        if FILES and b not in FILES: continue
        s = open(f).read()
        ms = list(DEF.finditer(s))
        for m in ms:
            if (m.group(1),) in done: continue
            end = re.compile(r'\.\s*\n').search(s, m.start())
            if not end: continue
            body = s[m.start():end.start()]
            if edits(body): jobs.append((b, m.group(1), m.start(), end.start()))
    random.shuffle(jobs)
    print(len(jobs), 'definitions', flush=True)
    for b, name, a, e in jobs:
        sync()
        p = os.path.join(SCR, 'theories', b)
        s = open(p).read()
        if s[a:e] != open(os.path.join(SRC, 'theories', b)).read()[a:e]: continue
        pos, old, new = random.choice(edits(s[a:e]))
        t = s[:a] + s[a:a + pos] + new + s[a + pos + len(old):]
        open(p, 'w').write(t)
        ctx = s[max(a, a + pos - 30):a + pos + len(old) + 30].replace('\n', ' ')
        r = subprocess.run(['timeout', '3000', 'make', '-j2'], cwd=SCR, stdout=subprocess.PIPE, stderr=subprocess.STDOUT, text=True)
        errs = re.findall(r'File "\./theories/([^"]+)", line (\d+)', r.stdout) if r.returncode else []
        fails = []
        for f, l in errs[-3:]:
            lines = open(os.path.join(SCR, 'theories', f)).read().split('\n')[:int(l)]
            for x in reversed(lines):
                if STMT.match(x): fails.append(f + ':' + STMT.match(x).group(1)); break
        if any(x.split(':')[0] == b and x.split(':')[1] == name for x in fails): verdict = 'does not type check'
        elif r.returncode == 0: verdict = 'survived'
        else: verdict = 'noticed'
        line = {'definition': b + ':' + name, 'edit': '%s -> %s in: %s' % (old, new, ctx), 'verdict': verdict, 'first_failures': fails}
        open(OUT, 'a').write(json.dumps(line) + '\n')
        print(verdict, line['definition'], line['edit'], fails, flush=True)
main()
