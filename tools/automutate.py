#!/usr/bin/env python3
"""Many small wrong programs, made by rule.

For every definition of the model files some edits are drawn: another
comparison, another connective, a changed number, a changed text, a dropped
list element, swapped branches. Each edited model is compiled again with all
the files that depend on it, until the first lemma or theorem that no longer
proves; the theorems that use that lemma are then read off the sources. An edit
for which everything still builds is a survivor, to be looked at by hand.

usage: automutate.py [-j N] [-n edits per definition] [-s seed] [-o out.jsonl] [file or file:def ...]
"""
import json, os, random, re, shutil, subprocess, sys, threading, queue, time

ROOT = os.path.dirname(os.path.dirname(os.path.abspath(__file__)))
SRC = os.environ.get('VERIF_SRC') or os.path.join(ROOT, 'rocq', 'theories')
SCRATCH = '/tmp/automut'
FILE_TIMEOUT = 900
MODEL = ['Accessors', 'Bufio', 'Cli', 'Clients', 'Codec', 'Common', 'Document', 'Enums', 'ErrText', 'GoNum', 'GoRat',
         'GoStr', 'GoTime', 'GoUint', 'Headers', 'Leaves', 'Marshal', 'Messages', 'NewDate', 'Records', 'Schema', 'StatusTable',
         'Stream', 'Types', 'Url', 'Utf8', 'Wire', 'Xml', 'Goroutines', 'Panics', 'Bodies']

def strip_comments(s):
    """the same text with comments blanked out"""
    out, depth, i, instr = list(s), 0, 0, False
    while i < len(s):
        if depth == 0 and s[i] == '"':
            instr = not instr; i += 1; continue
        if not instr and s.startswith('(*', i): depth += 1; out[i] = out[i+1] = ' '; i += 2; continue
        if not instr and depth and s.startswith('*)', i): depth -= 1; out[i] = out[i+1] = ' '; i += 2; continue
        if depth and s[i] != '\n': out[i] = ' '
        i += 1
    return ''.join(out)

DEF = re.compile(r"^(Definition|Fixpoint|with)\s+([\w']+)", re.M)
ANY = re.compile(r"^(Definition|Fixpoint|Inductive|Record|Lemma|Theorem|Example|Print|Notation|Arguments|Module|End|Open|Local|with|CoInductive|Scheme|Class|Set|Ltac|From|Require|Import|Export|Close|Coercion|Declare|Hint|Opaque|Global)\b", re.M)

def definitions(text):
    code = strip_comments(text)
    for m in DEF.finditer(code):
        n = ANY.search(code, m.end())
        end = n.start() if n else len(code)
        b = code.find(':=', m.end(), end)
        if b < 0: continue
        yield m.group(2), b + 2, end, code

def edits(code, a, b):
    """(start, end, new) for one definition's body"""
    out = []
    body = code[a:b]
    strs = [(m.start(), m.end()) for m in re.finditer(r'"(?:[^"]|"")*"', body)]
    def instr(i): return any(x <= i < y for x, y in strs)
    def rule(pat, f):
        for m in re.finditer(pat, body):
            if instr(m.start()): continue
            new = f(m)
            if new is not None and new != m.group(0): out.append((a + m.start(), a + m.end(), new))
    rule(r'<=\?', lambda m: '<?')
    rule(r'(?<![<=])<\?', lambda m: '<=?')
    rule(r'&&', lambda m: '||')
    rule(r'\|\|', lambda m: '&&')
    rule(r'\bnegb\b', lambda m: '(fun b : bool => b)')
    rule(r'\btrue\b(?!\s*=>)', lambda m: 'false')
    rule(r'\bfalse\b(?!\s*=>)', lambda m: 'true')
    rule(r'(?<![\w.%])(\d+)(?![\w.])', lambda m: str(int(m.group(1)) + 1))
    rule(r'(?<![\w.%])(\d+)(?![\w.])', lambda m: str(int(m.group(1)) - 1) if int(m.group(1)) > 0 else None)
    rule(r' \+ ', lambda m: ' - ')
    rule(r' - ', lambda m: ' + ')
    rule(r'\bandb\b', lambda m: 'orb')
    rule(r'\borb\b', lambda m: 'andb')
    rule(r'\bforallb\b', lambda m: 'existsb')
    rule(r'\bexistsb\b', lambda m: 'forallb')
    # texts
    for x, y in strs:
        t = body[x:y]
        if y - x > 3:
            out.append((a + x, a + y, t[:-1] + 'X"'))
            out.append((a + x, a + y, t[:-2] + '"'))
    # list elements
    for m in re.finditer(r';\s*', body):
        if instr(m.start()) or body[m.start()-1] in ';~' or body[m.start()+1:m.start()+2] == ';': continue
        # the element behind the semicolon
        i, d = m.end(), 0
        while i < len(body):
            if instr(i): i += 1; continue
            c = body[i]
            if c in '([{': d += 1
            elif c in ')]}':
                if d == 0: break
                d -= 1
            elif c == ';' and d == 0: break
            i += 1
        out.append((a + m.start(), a + i, ' '))
    # branches of a conditional
    for m in re.finditer(r'\bif\b(.*?)\bthen\b', body, re.S):
        if instr(m.start()) or ' if ' in m.group(1): continue
        out.append((a + m.start(1), a + m.end(1), ' negb (' + m.group(1) + ') '))
    # terms of a concatenation
    for m in re.finditer(r' \+\+ ([\w\']+)(?=\s*(?:\)|\.\s|\+\+))', body):
        if not instr(m.start()) and m.group(1) != 'bs': out.append((a + m.start(), a + m.end(), ' '))
    # swapped arguments
    for m in re.finditer(r'\(([\w\']+) ([\w\']+) ([\w\']+)\)', body):
        if not instr(m.start()) and m.group(2) != m.group(3):
            out.append((a + m.start(), a + m.end(), '(%s %s %s)' % (m.group(1), m.group(3), m.group(2))))
    # another field of the same record
    rule(r'\b([A-Z]\w*)_([A-Z]\w*)\b', lambda m: other_field(m.group(1), m.group(2)))
    # halves of a pair, results
    rule(r'\bfst\b', lambda m: 'snd')
    rule(r'\bsnd\b', lambda m: 'fst')
    rule(r'=> Some [\w\']+(?=\s*(?:\||end))', lambda m: '=> None')
    # checks that are left out
    rule(r'check \(', lambda m: 'check (false && ')
    return out

FIELDS = {}
def other_field(r, f):
    if not FIELDS:
        for n in ('Records', 'Common', 'Types'):
            for m in re.finditer(r'\b([A-Z]\w*)_([A-Z]\w*)\s*:', open(os.path.join(SRC, n + '.v')).read()):
                FIELDS.setdefault(m.group(1), []).append(m.group(2))
    l = FIELDS.get(r, [])
    return r + '_' + l[(l.index(f) + 1) % len(l)] if f in l and len(l) > 1 else None

def deps():
    d = {}
    names = {f[:-2] for f in os.listdir(SRC) if f.endswith('.v')}
    for n in names:
        s = open(os.path.join(SRC, n + '.v')).read()
        out = set()
        for m in re.finditer(r'From Verif Require (?:Import |Export |)([^.]*)\.', s):
            out |= set(m.group(1).split())
        d[n] = out & names
    return d

def closure(d, n, memo={}):
    if n not in memo:
        r = set()
        for y in d[n]: r |= {y} | closure(d, y)
        memo[n] = r
    return memo[n]

def order(d, names):
    out, done = [], set()
    def go(n):
        if n in done: return
        done.add(n)
        for y in sorted(d[n]): go(y)
        out.append(n)
    for n in sorted(names): go(n)
    return [n for n in out if n in names]

HEAD = re.compile(r'^\s*(?:Local |Global |#\[[^\]]*\] *)?(Lemma|Theorem|Example|Corollary|Fact|Remark|Definition|Fixpoint|Inductive|Instance)\s+([\w\']+)', re.M)

def compile_file(w, n):
    cmd = ['timeout', str(FILE_TIMEOUT), 'coqc', '-time', '-Q', '.', 'Verif', n + '.v']
    p = subprocess.run(cmd, cwd=w, stdout=subprocess.PIPE, stderr=subprocess.STDOUT)
    out = p.stdout.decode('utf8', 'replace')
    if p.returncode == 0: return True, 0, out
    last = 0
    for m in re.finditer(r'^Chars (\d+) - (\d+) ', out, re.M): last = int(m.group(2))
    return False, last, out

USES = {}
def build_uses():
    """lemma name -> the lemmas and theorems whose text mentions it"""
    items = []
    for f in sorted(os.listdir(SRC)):
        if not f.endswith('.v'): continue
        s = strip_comments(open(os.path.join(SRC, f)).read())
        hs = list(HEAD.finditer(s))
        for i, h in enumerate(hs):
            if h.group(1) in ('Lemma', 'Theorem', 'Corollary', 'Fact', 'Remark', 'Example'):
                e = hs[i+1].start() if i + 1 < len(hs) else len(s)
                items.append((h.group(2), h.group(1), f, set(re.findall(r"[\w']+", s[h.end():e]))))
    names = {n for n, _, _, _ in items}
    for n, k, f, ws in items:
        if k == 'Example': continue
        for w in ws & names:
            if w != n: USES.setdefault(w, set()).add(n)

def theorems(name):
    seen, todo = {name}, [name]
    while todo:
        x = todo.pop()
        for y in USES.get(x, ()):
            if y not in seen: seen.add(y); todo.append(y)
    return sorted(x for x in seen if re.match(r'C\d+_', x))

def run(mu, d):
    f, (x, y, new), text = mu['file'], mu['edit'], mu['text']
    w = os.path.join(SCRATCH, mu['id'])
    shutil.rmtree(w, ignore_errors=True); os.makedirs(w)
    subprocess.run('ln -s %s/*.vo %s/' % (SRC, w), shell=True, check=True)
    rebuild = {n for n in d if (n == f or f in closure(d, n)) and not n.startswith('Fidelity')}
    for n in rebuild:
        v = os.path.join(w, n + '.vo')
        if os.path.lexists(v): os.remove(v)
        shutil.copy(os.path.join(SRC, n + '.v'), w)
    open(os.path.join(w, f + '.v'), 'w').write(text[:x] + new + text[y:])
    res = {'status': 'survived', 'examples': []}
    try:
        for n in order(d, rebuild):
            while True:
                ok, pos, out = compile_file(w, n)
                if ok: break
                path = os.path.join(w, n + '.v')
                b = open(path, 'rb').read(); s = b.decode('utf8')
                pos = len(b[:pos + 2].decode('utf8', 'ignore'))
                hs = [m for m in HEAD.finditer(s) if m.start() <= pos]
                h = hs[-1] if hs else None
                if h is None or h.group(1) in ('Definition', 'Fixpoint', 'Inductive', 'Instance'):
                    if n == f:
                        res['status'] = 'ill-typed'
                    else:
                        res.update(status='killed', lemma=n + '.' + (h.group(2) if h else '?'), failed=[], note='definition no longer typechecks')
                    return res
                if h.group(1) == 'Example' or not theorems(h.group(2)):
                    q = re.compile(r'\b(Qed|Defined)\.').search(s, h.end())
                    m = re.compile(r'\bProof\b[^.]*\.').search(s, h.end())
                    if not q or not m or m.start() > q.start():
                        res['status'] = 'tool: cannot skip %s.%s' % (n, h.group(2)); return res
                    open(path, 'w').write(s[:m.start()] + 'Proof. Admitted.' + s[q.end():])
                    res['examples'].append(n + '.' + h.group(2)); continue
                res.update(status='killed', lemma=n + '.' + h.group(2), failed=theorems(h.group(2)))
                if 'Chars' in out and 'rror' not in out[-3000:]: res['note'] = 'timeout'
                return res
        return res
    finally:
        shutil.rmtree(w, ignore_errors=True)

def main():
    args = sys.argv[1:]; jobs, num, seed, outf, sel = 2, 1, 1, '/tmp/automut.jsonl', []
    while args:
        a = args.pop(0)
        if a == '-j': jobs = int(args.pop(0))
        elif a == '-n': num = int(args.pop(0))
        elif a == '-s': seed = int(args.pop(0))
        elif a == '-o': outf = args.pop(0)
        else: sel.append(a)
    rnd = random.Random(seed); d = deps(); build_uses()
    todo = []
    for f in MODEL:
        p = os.path.join(SRC, f + '.v')
        if not os.path.exists(p): continue
        text = open(p).read()
        for name, a, b, code in definitions(text):
            if sel and f not in sel and '%s:%s' % (f, name) not in sel: continue
            es = edits(code, a, b)
            rnd.shuffle(es)
            for i in range(min(num, len(es))):
                # others in place of an edit that has no type
                todo.append({'id': '%s.%s.s%d.%d' % (f, name, seed, i), 'file': f, 'def': name, 'edits': es[i::num][:6], 'text': text})
    rnd.shuffle(todo)
    done = set()
    if os.path.exists(outf): done = {json.loads(l)['id'] for l in open(outf)}
    q = queue.Queue()
    for t in todo:
        if t['id'] not in done: q.put(t)
    print(q.qsize(), 'edits', flush=True)
    lock = threading.Lock()
    def worker():
        while True:
            try: mu = q.get_nowait()
            except queue.Empty: return
            t0 = time.time()
            try:
                for mu['edit'] in mu['edits']:
                    r = run(mu, d)
                    if r['status'] != 'ill-typed': break
            except Exception as e: r = {'status': 'tool error %r' % e}
            x, y, new = mu['edit']; t = mu['text']
            ctx = ' '.join((t[max(0, x-60):x] + '[[' + t[x:y] + ' ==> ' + new + ']]' + t[y:y+50]).split())
            r.update(id=mu['id'], edit=ctx, seconds=round(time.time() - t0))
            with lock:
                open(outf, 'a').write(json.dumps(r) + '\n')
                print(r['id'], r['status'], r.get('lemma', ''), r['seconds'], r['edit'] if r['status'] == 'survived' else '', flush=True)
    ts = [threading.Thread(target=worker) for _ in range(jobs)]
    for t in ts: t.start()
    for t in ts: t.join()

main()
