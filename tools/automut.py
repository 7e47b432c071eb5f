#!/usr/bin/env python3
"""Systematic mutants: negated conditions, swapped connectives, moved boundaries, changed constants.

usage: automut.py SEED COUNT [file ...]

Each mutant is applied to a scratch copy (MUTDIR) of the compiled sources (MUTSRC), which is rebuilt
until the first error.  A mutant for which everything still builds is reported as SURVIVED."""
import os, re, random, subprocess, sys, shutil, glob
W = os.environ.get('MUTDIR', '/tmp/w/auto')
SRC = os.environ['MUTSRC']
seed, count, files = int(sys.argv[1]), int(sys.argv[2]), sys.argv[3:]
files = files or [os.path.basename(f) for f in glob.glob(SRC + '/theories/Model/*.v')]

def blank(t):
    """comments blanked, same length"""
    out, d, i, ins = list(t), 0, 0, False
    while i < len(t):
        if not d and t[i] == '"': ins = not ins
        if not ins and t.startswith('(*', i): d += 1
        if d and out[i] != '\n': out[i] = ' '
        if not ins and d and t.startswith('*)', i):
            if out[i+1] != '\n': out[i+1] = ' '
            d -= 1; i += 2; continue
        i += 1
    return ''.join(out)

RULES = [
    (r'\bif ([^\n]+?) then\b', lambda m: 'if negb (' + m.group(1) + ') then'),
    (r'&&', lambda m: '||'), (r'\|\|', lambda m: '&&'),
    (r'<=\?', lambda m: '<?'), (r'(?<!=)(?<!<)<\?', lambda m: '<=?'),
    (r'=> true\b', lambda m: '=> false'), (r'=> false\b', lambda m: '=> true'),
    (r'=> Some [^\n|]+', lambda m: '=> None'),
    (r'=> None\b', lambda m: None),
    (r'\bthen true\b', lambda m: 'then false'), (r'\belse false\b', lambda m: 'else true'),
    (r'(?<![\w."])(\d+)(?=%N|%Z|\b)(?![\w"])', lambda m: str(int(m.group(1)) + 1)),
    (r'"((?:[^"\n]|"")+)"(?!%char)', lambda m: '"' + m.group(1)[:-1] + ('x' if m.group(1)[-1] != '"' else '""') + '"'),
    (r'\bnegb \(', lambda m: '('), (r'\bfst\b', lambda m: 'snd'), (r'\bsnd\b', lambda m: 'fst'),
    (r' :: ([a-z]\w*)', lambda m: ' :: []'),
    (r'\brev ', lambda m: 'id '), (r'\bfilter ', lambda m: 'List.find_not '), (r'\bforallb\b', lambda m: 'existsb'), (r'\bexistsb\b', lambda m: 'forallb'),
]
cands = []
for f in files:
    p = SRC + '/theories/Model/' + f
    t = open(p).read(); b = blank(t)
    # error texts are not interesting
    for pat, rep in RULES:
        for m in re.finditer(pat, b):
            line = b[b.rfind('\n', 0, m.start()) + 1: b.find('\n', m.end())]
            if pat.startswith('"') and re.search(r'EMsg|EWrap|pwrap|rwrap|EJson|EOS|new_error|EArgs|ENotExist', line): continue
            if re.match(r'\s*(From|Import|Open|Require|Notation|Declare|Delimit|Arguments|Local|Scheme)', line): continue
            r = rep(m)
            if r is None or r == m.group(0): continue
            cands.append((f, m.start(), m.end(), r))
random.Random(seed).shuffle(cands)
print(len(cands), 'candidates', flush=True)
subprocess.run(['rm', '-rf', W]); subprocess.run(['cp', '-a', SRC, W], check=True)
n = 0
for f, i, j, r in cands:
    if n >= count: break
    # fresh copies of what the previous mutant touched
    subprocess.run(['rsync', '-a', '--delete', SRC + '/', W + '/'], check=True) if shutil.which('rsync') else (subprocess.run(['rm', '-rf', W]), subprocess.run(['cp', '-a', SRC, W], check=True))
    p = W + '/theories/Model/' + f
    t = open(p).read()
    ln = t.count('\n', 0, i) + 1
    open(p, 'w').write(t[:i] + r + t[j:])
    d = re.findall(r'^(?:Fixpoint|Definition)\s+(\w+)|^with\s+(\w+)', t[:i], flags=re.M)
    d = (d[-1][0] or d[-1][1]) if d else '?'
    q = subprocess.run('ulimit -v 9000000; timeout 1500 make -j%s 2>&1' % os.environ.get('MUTJ', '2'), shell=True, cwd=W, capture_output=True, text=True)
    m = re.search(r'File "\./?([^"]+)", line (\d+)[^\n]*\nError', q.stdout)
    where = m.group(1) + ':' + m.group(2) if m else '?'
    if '/Model/' in where: continue
    n += 1
    st = 'SURVIVED' if q.returncode == 0 else ('caught' if m else 'TIMEOUT')
    print(st, f, ln, d, repr(t[i:j])[:70], '->', repr(r)[:70], where, flush=True)
