#!/usr/bin/env python3
"""Test the theorems against wrong programs.

usage: mutate.py MUTATIONS.json [--log]

MUTATIONS.json: list of {"file", "definition", "old", "new", "edit", "claim"}, with further
replacements in "more" (a list of {"file", "old", "new"}).  For each
entry the tree is copied to a scratch directory outside /verif, the text `old` in
theories/<file> is replaced by `new` and the tree is rebuilt.  A proof that fails is
replaced by Admitted (in the scratch copy) so that the build can go on; the theorems of the
Properties files that then depend on an admitted statement are those that fail for the
wrong program.  The Properties files are built one after the other until one has a failing
theorem (all of them with MUTALL=1).  With --log one line per entry is appended to seeded/LOG.jsonl.
"""
import json, os, re, shutil, subprocess, sys, time

SRC = os.environ.get('MUTSRC', '/verif/rocq')
DST = os.environ.get('MUTDIR', '/tmp/mut')
JOBS = os.environ.get('MUTJOBS', '3')
PERFILE = os.environ.get('MUTTIMEOUT', '90')

def setup():
    os.makedirs(DST, exist_ok=True)
    subprocess.run(['rsync', '-a', '--delete', SRC + '/', DST + '/'], check=True) \
        if shutil.which('rsync') else subprocess.run(f'rm -rf {DST}; cp -a {SRC} {DST}', shell=True, check=True)

def build(target=None):
    r = subprocess.run(['make', '-k', '-j' + JOBS, f'TIMECMD=prlimit --cpu={PERFILE}'] + ([target] if target else []), cwd=DST,
                       stdout=subprocess.PIPE, stderr=subprocess.STDOUT, text=True)
    return r.returncode, r.stdout

HEAD = re.compile(r'^\s*(?:Local |Global |#\[.*?\]\s*)?(Lemma|Theorem|Example|Corollary|Fact|Remark|Instance|Definition|Fixpoint)\s+([\w\']+)')

def admit(path, line):
    """replace the proof around `line` by Admitted; returns the name"""
    src = open(path).read().split('\n')
    i = line - 1
    while i >= 0 and not HEAD.match(src[i]):
        i -= 1
    if i < 0:
        return None
    name = HEAD.match(src[i]).group(2)
    text = '\n'.join(src)
    start = sum(len(l) + 1 for l in src[:i])
    m = re.compile(r'\bProof\b[^.]*\.').search(text, start)
    if not m:
        return None
    e = re.compile(r'\b(Qed|Defined)\.').search(text, m.end())
    if not e:
        return None
    text = text[:m.start()] + 'Admitted.' + text[e.end():]
    open(path, 'w').write(text)
    return name

def stuck_line(path):
    """line of the sentence during which the compilation runs out of time"""
    r = subprocess.run(['prlimit', '--cpu=' + PERFILE, 'coqc', '-time', '-Q', 'theories', 'Verif', path], cwd=DST,
                       stdout=subprocess.PIPE, stderr=subprocess.STDOUT)
    ends = re.findall(rb'Chars \d+ - (\d+) ', r.stdout)
    if not ends:
        return None
    b = open(path, 'rb').read()
    pos = int(ends[-1])
    while pos < len(b) and b[pos:pos + 1].isspace():
        pos += 1
    return b[:pos].count(b'\n') + 1

def run(mut):
    setup()
    p = os.path.join(DST, 'theories', mut['file'])
    for e in [mut] + mut.get('more', []):
        q = os.path.join(DST, 'theories', e.get('file', mut['file']))
        s = open(q).read()
        n = s.count(e['old'])
        if n != e.get('count', 1):
            return {'error': f'old text occurs {n} times'}
        open(q, 'w').write(s.replace(e['old'], e['new']))
    # Properties files that depend on the edited files, those that need least compilation first,
    # those with theorems named in the claim before the others; stop at the first that fails
    edited = {e.get('file', mut['file'])[:-2] for e in [mut] + mut.get('more', [])}
    admitted, broken, failed, checked = [], [], [], []
    for mod in order(edited, mut.get('claim', '')):
        rc = compile_target(mod, admitted, broken)
        checked.append(mod)
        failed += failing(mod, {a.split('.')[1] for a in admitted}, rc)
        if failed and not ALL:
            break
    return {'admitted': admitted, 'broken': broken, 'failed': failed, 'checked': checked}

ALL = bool(os.environ.get('MUTALL'))

def deps():
    d = {}
    for l in open(os.path.join(SRC, '.Makefile.d')):
        m = re.match(r'theories/(\w+)\.vo .*?: (.*)', l)
        if m:
            d[m.group(1)] = {x for x in re.findall(r'theories/(\w+)\.vo', m.group(2))}
    return d

def closure(d, m, memo):
    if m not in memo:
        memo[m] = {m}.union(*[closure(d, x, memo) for x in d.get(m, ())])
    return memo[m]

def order(edited, claim):
    d, memo = deps(), {}
    ids = set(re.findall(r'C\d\d', claim))
    res = []
    for m in d:
        if not m.startswith('Properties'):
            continue
        c = closure(d, m, memo)
        if not (c & edited):
            continue
        todo = [x for x in c if closure(d, x, memo) & edited]
        cost = sum(os.path.getsize(os.path.join(SRC, 'theories', x + '.v')) for x in todo)
        ths = set(re.findall(r'^Theorem\s+(C\d\d)', open(os.path.join(SRC, 'theories', m + '.v')).read(), re.M))
        res.append((0 if ids & ths else 1, cost, m))
    return [m for _, _, m in sorted(res)]

def compile_target(mod, admitted, broken):
    rc = 1
    for it in range(40):
        rc, out = build(f'theories/{mod}.vo')
        errs = re.findall(r'File "\./?theories/([\w.]+)", line (\d+), characters [\d-]+:\s*\nError', out)
        tmo = re.findall(r'\[[^\]]*: theories/(\w+)\.vo\] (?:Error (?:137|152)|CPU time limit exceeded|Killed)', out)
        if rc == 0:
            break
        progress = False
        for f, l in errs:
            path = os.path.join(DST, 'theories', f)
            nm = admit(path, int(l))
            if nm:
                admitted.append(f[:-2] + '.' + nm)
                progress = True
            else:
                broken.append(f'{f}:{l}')
        for f in tmo:
            path = os.path.join(DST, 'theories', f + '.v')
            l = stuck_line(path)
            nm = admit(path, l) if l else None
            if nm:
                admitted.append(f + '.' + nm)
                progress = True
            else:
                broken.append(f + ' (timeout)')
        if not progress:
            break
    return rc

def failing(mod, names, rc):
    """the theorems of a Properties file that depend on an admitted statement"""
    failed = []
    orig = open(os.path.join(SRC, 'theories', mod + '.v')).read()
    ths = re.findall(r'^(?:Theorem|Example)\s+(\w+)', orig, re.M)
    if rc != 0:
        return [mod + ': not compiled']
    probe = os.path.join('/tmp', f'mutprobe_{os.getpid()}.v')
    with open(probe, 'w') as g:
        g.write(f'From Verif Require Import {mod}.\n')
        for t in ths:
            g.write(f'Goal True. idtac "@@{t}". Abort.\nPrint Assumptions {mod}.{t}.\n')
    r = subprocess.run(['coqc', '-Q', os.path.join(DST, 'theories'), 'Verif', probe],
                       stdout=subprocess.PIPE, stderr=subprocess.STDOUT, text=True)
    for c in r.stdout.split('@@')[1:]:
        t = c.split('\n', 1)[0].strip()
        body = c.split('\n', 1)[1] if '\n' in c else ''
        toks = set(re.findall(r"^([\w.']+)\s*(?::|$)", body, re.M))
        if any(x.split('.')[-1] in names for x in toks) or t in names:
            failed.append(t)
    return failed

def main():
    muts = json.load(open(sys.argv[1]))
    only = [int(x) for x in sys.argv[2:] if x.isdigit()]
    log = '--log' in sys.argv
    for k, m in enumerate(muts):
        if only and k not in only:
            continue
        t = time.time()
        r = run(m)
        print(f'--- {k} {m["definition"]}: {m["edit"]} ({time.time()-t:.0f} s)')
        print('   claim: ', m['claim'])
        print('   result:', json.dumps(r), flush=True)
        if log and 'error' not in r:
            e = {'definition': f'{m["file"]}: {m["definition"]}', 'edit': m['edit'], 'claim_broken': m['claim'],
                 'theorems_failed': r['failed'], 'first_lemmas_failed': r['admitted'][:6],
                 'theorems_tightened': m.get('tightened', []), 'files_checked': r['checked']}
            if r['broken']:
                e['not_compiled'] = r['broken'][:4]
            with open('/verif/seeded/LOG.jsonl', 'a') as g:
                g.write(json.dumps(e) + '\n')

main()
