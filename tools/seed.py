#!/usr/bin/env python3
"""Seeded-bug tests. usage: seed.py mutations.json [name...]

Each mutation {name, file, old, new, claim, expect} is applied to a scratch
copy of rocq/. Proofs that no longer go through are cut out one by one (in
the copy only), so that the build reaches the property files; the theorems
that then rest on a cut-out proof are the ones that failed. One line per
mutation is appended to the result file /tmp/seed_results.jsonl; LOG.jsonl
is written from it by hand-checked results (tools/seed_log.py)."""
import json, os, re, shutil, subprocess, sys
SRC = os.environ.get('SEED_SRC', '/verif/rocq')
SCR = os.environ.get('SEED_SCR', '/tmp/scratch/rocq')

def build(scr):
    p = subprocess.run("make -k -j3 COQC='timeout 300 coqc' 2>&1", shell=True, cwd=scr, capture_output=True, text=True, timeout=3600)
    return p.returncode, p.stdout

def cut(scr, fname, line, char):
    path = os.path.join(scr, fname)
    s = open(path).read()
    lines = s.split('\n')
    off = sum(len(l) + 1 for l in lines[:line - 1]) + char
    # enclosing proof
    starts = [m.start() for m in re.finditer(r'(?m)(?<![A-Za-z_])Proof(\.| using)', s) if m.start() <= off]
    if not starts: return None
    st = starts[-1]
    m = re.compile(r'(?<![A-Za-z_])(Qed|Defined)\.').search(s, st)
    if not m or m.end() < off: return None
    head = s[:st]
    names = re.findall(r'(?m)^\s*(?:Local |Global )?(?:Lemma|Theorem|Corollary|Example|Fact|Instance)\s+([\w\']+)', head)
    new = s[:st] + 'Admitted.' + s[m.end():]
    open(path, 'w').write(new)
    return names[-1] if names else '?'

def theorems(scr):
    out = []
    for f in sorted(os.listdir(scr + '/theories')):
        if f.endswith('Props.v'):
            for m in re.finditer(r'(?m)^Theorem\s+(\w+)', open(scr + '/theories/' + f).read()):
                out.append((f[:-2], m.group(1)))
    return out

def affected(scr, files):
    """Property files that depend on one of the edited files."""
    deps = {}
    for l in open(scr + '/.Makefile.d') if os.path.exists(scr + '/.Makefile.d') else []:
        if ':' not in l: continue
        a, b = l.split(':', 1)
        t = [x for x in a.split() if x.endswith('.vo')]
        if t: deps[t[0]] = [x for x in b.split() if x.endswith('.vo')]
    if not deps: return None
    edited = set('theories/' + f + 'o' for f in files)
    def reach(x, seen):
        if x in edited: return True
        if x in seen: return False
        seen.add(x)
        return any(reach(y, seen) for y in deps.get(x, []))
    return set(os.path.basename(x)[:-3] for x in deps if x.endswith('Props.vo') and reach(x, set()))

def run(mut):
    if os.path.exists(SCR): shutil.rmtree(SCR)
    os.makedirs(os.path.dirname(SCR), exist_ok=True)
    subprocess.run(['cp', '-a', SRC, SCR], check=True)
    edits = mut.get('edits') or [dict(file=mut['file'], old=mut['old'], new=mut['new'])]
    for e in edits:
        p = SCR + '/theories/' + e['file']
        s = open(p).read()
        if s.count(e['old']) < 1:
            return dict(name=mut['name'], error='pattern not found in ' + e['file'])
        s = s.replace(e['old'], e['new'], 1)
        open(p, 'w').write(s)
    cuts, err = [], None
    for _ in range(150):
        rc, out = build(SCR)
        if rc == 0: break
        bad = re.findall(r'File "\./(theories/\w+\.v)", line (\d+), characters (\d+)-(\d+):\s*\nError', out)
        if not bad:
            err = 'no location: ' + out[-400:]; break
        done = False
        seen = set()
        for f, l, c, _ in bad:
            if f in seen: continue
            seen.add(f)
            n = cut(SCR, f, int(l), int(c))
            if n is None:
                err = 'error outside a proof: %s:%s' % (f, l)
            else:
                done = True
                cuts.append(f.split('/')[1][:-2] + '.' + n)
        if err and not done: break
        err = None
    failed, survived = [], []
    if err is None:
        ths = theorems(SCR)
        aff = affected(SCR, [e['file'] for e in edits])
        if aff is not None: ths = [x for x in ths if x[0] in aff]
        with open(SCR + '/theories/ZCheck.v', 'w') as g:
            mods = sorted(set(m for m, _ in ths))
            g.write('From Verif Require ' + ' '.join(mods) + '.\n')
            for m, t in ths:
                g.write('Goal True. idtac "@@%s". Abort.\nPrint Assumptions %s.%s.\n' % (t, m, t))
        p = subprocess.run('coqc -Q theories Verif theories/ZCheck.v', shell=True, cwd=SCR, capture_output=True, text=True)
        for part in p.stdout.split('@@')[1:]:
            t, rest = part.split('\n', 1)
            (survived if 'Closed under the global context' in rest else failed).append(t.strip())
        if p.returncode: err = p.stderr[-300:]
    r = dict(name=mut['name'], definition=mut.get('definition', ''), edit=mut.get('edit', ''),
             claim=mut.get('claim', ''), expect=mut.get('expect', []), failed=failed, cuts=cuts)
    if err: r['error'] = err
    exp = [e for e in r['expect'] if not any(f.startswith(e + '_') or f == e for f in failed)]
    r['missed'] = exp
    return r

if __name__ == '__main__':
    muts = json.load(open(sys.argv[1]))
    sel = sys.argv[2:]
    done = set()
    if os.path.exists('/tmp/seed_results.jsonl'):
        done = set(json.loads(l)['name'] for l in open('/tmp/seed_results.jsonl'))
    for mut in muts:
        if (sel and mut['name'] not in sel) or (not sel and mut['name'] in done): continue
        r = run(mut)
        with open('/tmp/seed_results.jsonl', 'a') as f: f.write(json.dumps(r) + '\n')
        print(r['name'], '| failed:', ' '.join(r['failed']) or '-', '| missed:', r['missed'], '|', r.get('error', ''), flush=True)
