#!/usr/bin/env python3
"""Try a wrong program: copy rocq/ to a scratch directory, apply one edit to a
model definition, rebuild and report which theorems no longer hold.

usage: mutate.py MUTATIONS.json [name ...]

Every entry: {"name", "file", "old", "new", "claim", "edit", "definition",
optional "nth" (occurrence of old, 0-based)}.  A proof that fails (or takes
more than LIMIT seconds) is replaced by Admitted in the scratch copy, so that
later files are still checked; a theorem counts as failed when its own proof
fails or it uses, by name, one that did.  One JSON line per mutation is appended
to RESULTS.
"""
import json, os, re, shutil, subprocess, sys, glob

SRC = os.environ.get('MUT_SRC', '/verif/rocq')   # a built copy of rocq/
WORK = os.environ.get('MUT_WORK', '/tmp/w/mut')
RESULTS = os.environ.get('MUT_RESULTS', '/tmp/w/results.jsonl')
LIMIT = int(os.environ.get('MUT_LIMIT', '400'))
JOBS = os.environ.get('MUT_JOBS', '4')
START = re.compile(r'^(?:#\[[^\]]*\]\s*)?(?:Local\s+|Global\s+)?(Theorem|Lemma|Corollary|Example|Instance|Fact|Remark|Definition|Fixpoint|Ltac|Inductive|Record|Section|End)\b\s*([\w\']+)?', re.M)

WRAP = '''#!/bin/sh
for a in "$@"; do case "$a" in *.v) f="$a";; esac; done
timeout %d coqc -time "$@" > "$f.log" 2>&1
s=$?
if [ $s = 124 ]; then echo "TIMEOUT $f"; fi
if [ $s != 0 ]; then echo "FAILED $f"; fi
exit $s
''' % LIMIT


def sh(cmd, **k):
    return subprocess.run(cmd, shell=True, stdout=subprocess.PIPE, stderr=subprocess.STDOUT, text=True, **k)


def fail_offset(path):
    """character offset (bytes) at which checking of the file stopped"""
    log = open(path + '.log', errors='replace').read()
    src = open(path, 'rb').read()
    m = re.search(r'^File "[^"]*", line (\d+), characters (\d+)-', log, re.M)
    errs = list(re.finditer(r'^File "[^"]*", line (\d+), characters (\d+)-\d+:\n(.*)', log, re.M))
    errs = [e for e in errs if e.group(3).startswith('Error')]
    if errs:
        line = int(errs[-1].group(1))
        off = 0
        for _ in range(line - 1):
            off = src.index(b'\n', off) + 1
        return off + int(errs[-1].group(2)), log[errs[-1].start():][:300]
    ch = re.findall(r'^Chars (\d+) - (\d+)', log, re.M)
    return (int(ch[-1][1]) + 2 if ch else 0), 'timeout'


def admit(path, off):
    """replace the proof around byte offset off by Admitted; returns its name"""
    raw = open(path, 'rb').read()
    starts = [m for m in re.finditer(START.pattern.encode(), raw, re.M) if m.start() <= off]
    m = starts[-1]
    kind, name = m.group(1).decode(), (m.group(2) or b'').decode()
    if kind not in ('Theorem', 'Lemma', 'Corollary', 'Example', 'Instance', 'Fact', 'Remark', 'Definition'):
        return None
    e = re.compile(rb'\b(Qed|Defined)\.').search(raw, off - 5 if off > 5 else 0)
    nxt = [x for x in re.finditer(START.pattern.encode(), raw, re.M) if x.start() > m.start()]
    p = re.compile(rb'(?<![\w])Proof\.').search(raw, m.end())
    if not e or not p or p.start() > e.start() or (nxt and nxt[0].start() < p.start()):
        return None
    stmt = raw[m.start():p.start()]
    if p.start() > off:   # the statement itself does not check
        return None
    open(path, 'wb').write(raw[:p.start()] + b'Admitted.' + raw[e.end():])
    return name


def build(reported):
    failed = []
    while True:
        r = sh('make -k -j%s COQC=%s/wrap.sh' % (JOBS, WORK), cwd=WORK)
        bad = re.findall(r'^FAILED (\S+)', r.stdout, re.M)
        if not bad:
            if r.returncode:
                return failed, 'make failed: ' + r.stdout[-500:]
            return failed, None
        for f in sorted(set(bad)):
            path = os.path.join(WORK, f)
            off, why = fail_offset(path)
            name = admit(path, off)
            if name is None:
                return failed, 'not in a proof: %s offset %d %s' % (f, off, why)
            failed.append((os.path.basename(f)[:-2], name))
            print('   fails:', f, name, flush=True)
            if len(failed) > 400:
                return failed, 'too many'


def closure(failed):
    """property theorems whose proof failed or that refer (transitively,
    according to the .glob files) to a proof that failed"""
    uses, props = {}, []
    for f in sorted(glob.glob(WORK + '/theories/*.v')):
        mod = os.path.basename(f)[:-2]
        raw = open(f, 'rb').read()
        ms = list(re.finditer(START.pattern.encode(), raw, re.M))
        ltac = {m.group(2).decode() for m in ms if m.group(1) == b'Ltac' and m.group(2)}
        for m, n in zip(ms, ms[1:] + [None]):
            if not m.group(2):
                continue
            name = m.group(2).decode()
            body = raw[m.end():n.start() if n else len(raw)].decode()
            uses.setdefault((mod, name), set()).update((mod, x) for x in set(re.findall(r"[\w']+", body)) & ltac)
            if m.group(1) in (b'Theorem', b'Corollary') and re.match(r'C\d\d+_', name):
                props.append((mod, name))
        g = f[:-2] + '.glob'
        for line in open(g) if os.path.exists(g) else []:
            r = re.match(r'R(\d+):\d+ Verif\.(\w+) \S+ (\S+) \w+', line)
            if not r:
                continue
            own = [m for m in ms if m.start() <= int(r.group(1))]
            if own and own[-1].group(2) and not raw[:int(r.group(1))].endswith(b'Print Assumptions '):
                uses.setdefault((mod, own[-1].group(2).decode()), set()).add((r.group(2), r.group(3)))
    bad = set(failed)
    while True:
        more = {k for k, v in uses.items() if k not in bad and v & bad}
        if not more:
            return [p for m, p in props if (m, p) in bad]
        bad |= more


def main():
    muts = json.load(open(sys.argv[1]))
    only = set(sys.argv[2:])
    for mu in muts:
        if only and mu['name'] not in only:
            continue
        print('==', mu['name'], flush=True)
        sh('rsync -a --delete --exclude "*.log" %s/ %s/' % (SRC, WORK)) if shutil.which('rsync') else sh('rm -rf %s; cp -a %s %s' % (WORK, SRC, WORK))
        open(WORK + '/wrap.sh', 'w').write(WRAP)
        os.chmod(WORK + '/wrap.sh', 0o755)
        ok = True
        for ed in mu.get('edits', [mu]):
            path = WORK + '/theories/' + ed['file']
            s = open(path).read()
            k, at = ed.get('nth', 0), -1
            for _ in range(k + 1):
                at = s.find(ed['old'], at + 1)
            if at < 0 or ('nth' not in ed and s.count(ed['old']) != 1):
                print('   cannot apply', s.count(ed['old']), flush=True)
                ok = False
                break
            open(path, 'w').write(s[:at] + ed['new'] + s[at + len(ed['old']):])
        if not ok:
            continue
        failed, err = build(None)
        broken = closure(failed)
        res = dict(name=mu['name'], definition=mu['definition'], edit=mu['edit'], claim=mu['claim'], proofs=[n for _, n in failed], theorems=broken, error=err)
        open(RESULTS, 'a').write(json.dumps(res) + '\n')
        print('   theorems:', broken, err or '', flush=True)


main()
