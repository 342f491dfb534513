#!/usr/bin/env python3
"""Test the theorems against wrong programs.

Each mutant of seeded/mutants.py is one textual edit of the model. The edit is
made in a scratch copy of the compiled development; every file that depends on
it is compiled again. A proof that fails is replaced by Admitted, so that Print
Assumptions in the Props files tells which theorems rest on a failed proof.

usage: mutate.py [-j N] [mutant ids]      (appends to seeded/LOG.jsonl)
"""
import json, os, re, shutil, subprocess, sys, threading, queue

ROOT = os.path.dirname(os.path.dirname(os.path.abspath(__file__)))
SRC = os.environ.get('VERIF_SRC') or os.path.join(ROOT, 'rocq', 'theories')
LOG = os.path.join(ROOT, 'seeded', 'LOG.jsonl')
SCRATCH = '/tmp/mut'
MAX_ADMITS = 40
FILE_TIMEOUT = 420
sys.path.insert(0, os.path.join(ROOT, 'seeded'))

def deps():
    d = {}
    names = {f[:-2] for f in os.listdir(SRC) if f.endswith('.v')}
    for n in names:
        s = open(os.path.join(SRC, n + '.v')).read()
        out = set()
        for m in re.finditer(r'From Verif Require (?:Import |Export |)([^.]*)\.', s):
            out |= set(m.group(1).split())
        d[n] = out & names
    return d

def closure(d, n):
    seen, todo = set(), [n]
    while todo:
        x = todo.pop()
        for y in d[x]:
            if y not in seen:
                seen.add(y); todo.append(y)
    return seen

def order(d, names):
    out, done = [], set()
    def go(n):
        if n in done: return
        done.add(n)
        for y in sorted(d[n]): go(y)
        out.append(n)
    for n in sorted(names): go(n)
    return [n for n in out if n in names]

HEAD = re.compile(r'^\s*(?:Local |Global |#\[[^\]]*\] *)?(Lemma|Theorem|Example|Corollary|Fact|Remark|Definition|Fixpoint|Instance)\s+([\w\']+)', re.M)

def compile_file(d, n):
    """(ok, position of the failure, output)"""
    cmd = ['timeout', str(FILE_TIMEOUT), 'coqc', '-time', '-Q', '.', 'Verif', n + '.v']
    p = subprocess.run(cmd, cwd=d, stdout=subprocess.PIPE, stderr=subprocess.STDOUT)
    out = p.stdout.decode('utf8', 'replace')
    if p.returncode == 0:
        return True, None, out
    last = 0
    for m in re.finditer(r'^Chars (\d+) - (\d+) ', out, re.M):
        last = int(m.group(2))
    return False, last, out

def admit(path, pos):
    b = open(path, 'rb').read()
    s = b.decode('utf8')
    # -time counts bytes
    pos = len(b[:pos + 2].decode('utf8', 'ignore'))
    heads = [m for m in HEAD.finditer(s) if m.start() <= pos]
    if not heads: return None
    h = heads[-1]
    nxt = HEAD.search(s, h.end())
    end_limit = nxt.start() if nxt else len(s)
    m = re.compile(r'\bProof\b[^.]*\.').search(s, h.end(), end_limit)
    if not m: return None
    q = re.compile(r'\b(Qed|Defined)\.').search(s, m.end(), end_limit)
    if not q: return None
    s = s[:m.start()] + 'Proof. Admitted.' + s[q.end():]
    open(path, 'w').write(s)
    return h.group(1), h.group(2)

def run(mu, d):
    src = os.path.join(SRC, mu['file'] + '.v')
    text = open(src).read()
    # the first occurrence in the definition, or the only one in the file
    head = re.search(r"^\s*(?:Definition|Fixpoint|Inductive|with)\s+%s(?![\w'])" % re.escape(mu['def']), text, re.M)
    at = text.find(mu['old'], head.start()) if head else -1
    if at < 0 and text.count(mu['old']) == 1: at = text.find(mu['old'])
    if at < 0 or not mu['old']:
        return {'status': 'bad edit (%d matches)' % text.count(mu['old'])}
    edited = text[:at] + mu['new'] + text[at + len(mu['old']):]
    w = os.path.join(SCRATCH, mu['id'])
    shutil.rmtree(w, ignore_errors=True)
    os.makedirs(w)
    subprocess.run('cp -a %s/*.v %s/*.vo %s/' % (SRC, SRC, w), shell=True, check=True)
    open(os.path.join(w, mu['file'] + '.v'), 'w').write(edited)
    targets = mu['props']
    need = set()
    for t in targets:
        need |= closure(d, t) | {t}
    rebuild = {n for n in need if n == mu['file'] or mu['file'] in closure(d, n)}
    admitted, failed, status = [], [], 'done'
    for n in order(d, rebuild):
        path = os.path.join(w, n + '.v')
        while True:
            ok, pos, out = compile_file(w, n)
            if ok: break
            a = admit(path, pos)
            if a is None or len(admitted) >= MAX_ADMITS:
                status = 'stopped in %s: %s' % (n, out[-300:]); break
            admitted.append('%s.%s' % (n, a[1]))
        if not ok: break
        if n.startswith('Props'):
            names = re.findall(r'^Print Assumptions ([\w\']+)\.', open(path).read(), re.M)
            res = re.findall(r'^(Closed under the global context|Axioms:)', out, re.M)
            failed += [x for x, r in zip(names, res) if r == 'Axioms:']
            if len(names) != len(res): status = 'count mismatch in ' + n
    shutil.rmtree(w, ignore_errors=True)
    return {'status': status, 'admitted': admitted, 'failed': failed}

def main():
    args = sys.argv[1:]
    jobs = 3
    if args and args[0] == '-j':
        jobs = int(args[1]); args = args[2:]
    from mutants import MUTANTS
    done = set()
    if os.path.exists(LOG):
        done = {json.loads(l).get('id') for l in open(LOG) if l.strip()}
    d = deps()
    q = queue.Queue()
    for mu in MUTANTS:
        if (args and mu['id'] in args) or (not args and mu['id'] not in done):
            q.put(mu)
    lock = threading.Lock()
    def worker():
        while True:
            try: mu = q.get_nowait()
            except queue.Empty: return
            try: r = run(mu, d)
            except Exception as e: r = {'status': 'tool error %r' % e}
            with lock:
                print(mu['id'], r['status'], 'failed:', r.get('failed'), 'admitted:', r.get('admitted'), flush=True)
                if 'failed' in r:
                    e = {'id': mu['id'], 'definition': mu['file'] + '.v: ' + mu['def'],
                         'edit': mu['old'] + '  ==>  ' + mu['new'], 'claim': mu['claim'],
                         'failed': r['failed'] or ([] if r['status'] == 'done' else ['(the model no longer builds the proofs: %s)' % ', '.join(r['admitted'][:5])]),
                         'broken_lemmas': r['admitted'][:8], 'tightened': []}
                    if r['status'] != 'done': e['note'] = r['status'][:200]
                    open(LOG, 'a').write(json.dumps(e) + '\n')
    ts = [threading.Thread(target=worker) for _ in range(jobs)]
    for t in ts: t.start()
    for t in ts: t.join()

main()
