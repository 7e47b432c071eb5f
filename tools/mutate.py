#!/usr/bin/env python3
"""Test the theorems against wrong programs.

usage: mutate.py FILE.json [id ...]

FILE.json is a list of mutants {id, file, definition, old, new, claim, properties}; each is applied to a
scratch copy of rocq/ (outside /verif), which is rebuilt.  The theorems that stop proving are logged
in seeded/LOG.jsonl.  A mutant none of whose properties loses a theorem is reported as SURVIVED."""
import json, os, re, shutil, subprocess, sys, glob, time

HERE = os.path.dirname(os.path.dirname(os.path.abspath(__file__)))
W = os.environ.get('MUTDIR', '/tmp/w/mut')
SRC = os.environ.get('MUTSRC', HERE + '/rocq')
DECL = re.compile(r'^\s*(?:#\[[^\]]*\]\s*)?(?:Local\s+|Global\s+)?(Lemma|Theorem|Corollary|Example|Fact|Remark|Definition|Fixpoint|Inductive|Record|Instance)\s+([A-Za-z_0-9\']+)')

def decls(path):
    """[(line, kind, name, body)] of one .v file."""
    lines = open(path).read()
    # Comments are blanked, so that words in them do not count as uses.
    lines = re.sub(r'\(\*(?:(?!\(\*|\*\)).)*\*\)', lambda m: re.sub(r'[^\n]', ' ', m.group(0)), lines, flags=re.S).split('\n')
    starts = [(i, *DECL.match(l).groups()) for i, l in enumerate(lines) if DECL.match(l)]
    out = []
    for n, (i, kind, name) in enumerate(starts):
        end = starts[n + 1][0] if n + 1 < len(starts) else len(lines)
        out.append((i + 1, kind, name, '\n'.join(lines[i:end])))
    return out

def users(root):
    """name -> set of names of declarations mentioning it (proof files only), property theorem names."""
    uses, props = {}, set()
    allnames = set()
    ds = []
    for f in glob.glob(root + '/theories/*/*.v'):
        if '/Model/' in f:
            continue
        for (_, kind, name, body) in decls(f):
            ds.append((kind, name, set(re.findall(r"[A-Za-z_][A-Za-z_0-9']*", body)) - {name}))
            allnames.add(name)
            if '/Properties/' in f and re.match(r'C\d\d_', name):
                props.add(name)
    for kind, name, toks in ds:
        for t in toks & allnames:
            uses.setdefault(t, set()).add(name)
    return uses, props

def main():
    muts = json.load(open(sys.argv[1]))
    only = set(sys.argv[2:])
    done = set()
    log = os.path.join(HERE, 'seeded', 'LOG.jsonl')
    for l in open(log):
        if l.strip():
            done.add(json.loads(l)['id'])
    for m in muts:
        if only and m['id'] not in only: continue
        if not only and m['id'] in done: continue
        for _ in range(5):
            shutil.rmtree(W, ignore_errors=True)
            if not os.path.exists(W): break
            time.sleep(2)
        subprocess.run(['cp', '-a', SRC, W], check=True)
        # Build only what the properties in question rest on.
        goals = sorted({os.path.relpath(f, W) + 'o' for f in glob.glob(W + '/theories/Properties/*.v')
                        for (_, _, n, _) in decls(f) if any(n.startswith(q + '_') for q in m['properties'])})
        p = f"{W}/theories/{m['file']}"
        src = open(p).read()
        n = src.count(m['old'])
        if n != 1:
            print(m['id'], 'BAD: old text occurs', n, 'times'); continue
        open(p, 'w').write(src.replace(m['old'], m['new']))
        failed, lost, hit = [], [], []
        for attempt in range(int(os.environ.get('MUTROUNDS', '6'))):
            r = subprocess.run('ulimit -v 9000000; timeout 900 make -k -j%s %s 2>&1' % (os.environ.get('MUTJ', '3'), ' '.join(goals)), shell=True, cwd=W, capture_output=True, text=True)
            fresh = []
            for mm in re.finditer(r'File "\./?([^"]+)", line (\d+), characters [\d-]+:\nError', r.stdout):
                f, ln = mm.group(1), int(mm.group(2))
                d = [x for x in decls(W + '/' + f) if x[0] <= ln]
                fresh.append((f, d[-1][2] if d else '?'))
            failed += [x for x in fresh if x not in failed]
            uses, props = users(W)
            seen, todo = set(), [n for _, n in failed]
            while todo:
                x = todo.pop()
                if x in seen: continue
                seen.add(x)
                todo += list(uses.get(x, ()))
            lost = sorted(props & seen)
            hit = [p for p in m['properties'] if any(t.startswith(p + '_') for t in lost)]
            if hit or not fresh or any('/Model/' in f for f, _ in fresh): break
            # In the scratch copy only: give up the failing lemmas and see what fails further on.
            ok = True
            for f, name in fresh:
                t = open(W + '/' + f).read()
                mm = re.search(r'(?:Lemma|Theorem|Corollary|Example|Fact|Remark)\s+' + re.escape(name) + r'\b', t)
                if not mm: ok = False; continue
                i = t.find('Proof', mm.end()); j = re.compile(r'\b(Qed|Defined)\.').search(t, mm.end())
                if i < 0 or not j or i > j.start(): ok = False; continue
                open(W + '/' + f, 'w').write(t[:i] + 'Admitted.' + t[j.end():])
            if not ok: break
        model_err = any('/Model/' in f for f, _ in failed)
        status = 'MODEL-ERROR' if model_err else ('caught' if hit else 'SURVIVED')
        print(m['id'], status, 'at', [f'{f}:{n}' for f, n in failed][:4], 'lost', lost[:6], len(lost), flush=True)
        if status == 'caught':
            e = {'id': m['id'], 'definition': m['definition'], 'file': m['file'], 'edit': m.get('edit') or f"{m['old']}  =>  {m['new']}",
                 'claim_broken': m['claim'], 'properties': m['properties'],
                 'proofs_that_failed_first': [f'{f}: {n}' for f, n in failed],
                 'theorems_failed': lost, 'theorems_tightened': m.get('tightened', [])}
            with open(log, 'a') as o: o.write(json.dumps(e) + '\n')
        elif not model_err:
            with open('/tmp/w/survivors.txt', 'a') as o: o.write(m['id'] + ' ' + m['claim'] + ' ' + str(lost) + '\n')
main()
