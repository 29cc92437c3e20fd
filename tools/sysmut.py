#!/usr/bin/env python3
"""Systematic wrong programs: change one token of a model definition (a number
by one, an operator, a register, a flag, a dropped microcode line), rebuild a
scratch copy and stop at the first proof of a lemma or theorem that fails.
Concrete examples are skipped, and the base copy must not list the Conformance
files, so only general statements count. What is left when everything still
builds is a survivor to be looked at by hand.

usage: sysmut.py COUNT SEED [FILE ...]     one JSON line per mutant in RESULTS
"""
import json, os, random, re, subprocess, sys
SRC = os.environ.get('MUT_SRC', '/tmp/w/t2/rocq')
WORK = os.environ.get('MUT_WORK', '/tmp/w/sys/rocq')
RESULTS = os.environ.get('MUT_RESULTS', '/tmp/w/sys.jsonl')
LIMIT = int(os.environ.get('MUT_LIMIT', '400'))
JOBS = os.environ.get('MUT_JOBS', '1')
TOOLS = os.path.dirname(os.path.abspath(__file__))
FAMILIES = [
    ['reg_acc', 'reg_x', 'reg_y', 'reg_sp'], ['set_acc', 'set_x', 'set_y', 'set_sp'], ['Acc', 'X', 'Y', 'Sp'],
    ['Carry', 'Zero', 'Negative', 'Overflow', 'Interrupt', 'Decimal', 'Break'],
    ['ps_carry', 'ps_zero', 'ps_negative', 'ps_overflow', 'ps_decimal', 'ps_brk', 'ps_unused', 'ps_interrupt_disable'],
    ['op_carry', 'op_zero', 'op_negative'], ['twos_complement_add', 'twos_complement_sub'],
    ['<=?', '<?'], ['=?', '<=?'], ['&&', '||'], ['true', 'false'], ['+', '-'], ['Z.land', 'Z.lor', 'Z.lxor'],
    ['wrapping_add_u8', 'wrapping_sub_u8'], ['wrapping_add_u16', 'wrapping_sub_u16'],
    ['overflowing_add_u8', 'overflowing_sub_u8'], ['add_u16', 'sub_u16'],
    ['first', 'second'], ['src_val', 'dest_val'], ['lhs', 'rhs'], ['Delay', 'Sound'], ['ByteDt', 'ByteSt'],
    ['WordI', 'WordPc', 'WordSp'], ['c8_dt', 'c8_st'], ['c8_i', 'c8_pc', 'c8_sp'], ['Debug', 'Release'],
    ['Inc8bitRegister', 'Dec8bitRegister', 'Write8bitRegister'], ['Inc16bitRegister', 'Dec16bitRegister', 'Write16bitRegister'],
    ['addr', 'indexed_addr'], ['hundreds', 'tens', 'ones'], ['negb', 'id'], ['mod', '/'], ['div', 'mod'],
    ['ReadWrite', 'ReadOnly'], ['fst', 'snd'], ['min', 'max'], ['start', 'stop'],
    ['AbsoluteIndexedWithX', 'AbsoluteIndexedWithY'], ['ZeroPage', 'Absolute', 'Immediate', 'Implied', 'Accumulator'],
    ['msb', 'lsb'], ['hi', 'lo'], ['x', 'y'], ['value', 'overflow'], ['capacity', 'offset'], ['key', 'reg'], ['u8', 'u16'],
]
START = re.compile(rb'^(?:#\[[^\]]*\]\s*)?(?:Local\s+|Global\s+)?(Theorem|Lemma|Corollary|Example|Instance|Fact|Remark|Definition|Fixpoint|Ltac|Inductive|Record|Section|End)\b\s*([\w\']+)?', re.M)


def sh(cmd, **k):
    return subprocess.run(cmd, shell=True, stdout=subprocess.PIPE, stderr=subprocess.STDOUT, text=True, **k)


def mutants(f):
    s = open(SRC + '/theories/' + f).read()
    code = re.sub(r'\(\*.*?\*\)', lambda m: re.sub(r'[^\n]', ' ', m.group()), s, flags=re.S)
    toks = [(m.start(), m.group()) for m in re.finditer(r"0x[0-9a-fA-F]+|[\w.']+|<=\?|<\?|=\?|&&|\|\||[+\-*/]", code)]
    out = []
    for at, t in toks:
        line = code.count('\n', 0, at)
        text = code.split('\n')[line]
        if re.match(r'\s*(From|Require|Import|Section|End|Context|Implicit|Arguments|Notation|Ltac|#)', text):
            continue
        if t == '-' and (code[at - 1:at] == '<' or code[at + 1:at + 2] == '>'):
            continue
        new = []
        if re.fullmatch(r'0x[0-9a-fA-F]+|\d+', t):
            n = int(t, 0)
            new = [str(n + 1)] + ([str(n - 1)] if n > 0 else [])
        for fam in FAMILIES:
            if t in fam:
                new += [x for x in fam if x != t]
        for x in new:
            out.append((at, t, x))
    for m in re.finditer(r'\n +(?:\[ )?((?:SetProgramStatusFlagState|Write8bit|Inc8bit|Dec8bit|Write16bit|WriteMemory)[^;\n]*;)', code):
        out.append((m.start(1), m.group(1), ''))
    return s, out


def owner(path, line):
    raw = open(path, 'rb').read()
    off = 0
    for _ in range(line - 1):
        off = raw.index(b'\n', off) + 1
    ms = [m for m in START.finditer(raw) if m.start() <= off and m.group(1) not in (b'Section', b'End')]
    if not ms:
        return None, None, raw, off
    return ms[-1].group(1).decode(), (ms[-1].group(2) or b'').decode(), raw, ms[-1]


def run():
    """first failing general statement, or None"""
    skipped = []
    while True:
        r = sh('make -j%s COQC="timeout %d coqc"' % (JOBS, LIMIT), cwd=WORK)
        if r.returncode == 0:
            return None, skipped
        errs = re.findall(r'File "\./(theories/\w+\.v)", line (\d+), characters \d+-\d+:\nError', r.stdout)
        if not errs:
            t = re.findall(r'\*\*\* \[Makefile[^:]*:\d+: (theories/\w+)\.vo', r.stdout)
            return ('%s (no answer within the limit)' % t[0] if t else 'make: ' + r.stdout[-300:]), skipped
        f, line = errs[0]
        kind, name, raw, m = owner(WORK + '/' + f, int(line))
        if kind == 'Example':
            p = re.compile(rb'(?<![\w])Proof\.').search(raw, m.end())
            e = re.compile(rb'\bQed\.').search(raw, m.end())
            open(WORK + '/' + f, 'wb').write(raw[:p.start()] + b'Admitted.' + raw[e.end():])
            skipped.append(name)
            continue
        return '%s %s' % (os.path.basename(f)[:-2], name), skipped


def main():
    count, seed = int(sys.argv[1]), int(sys.argv[2])
    files = sys.argv[3:] or sorted(x for x in os.listdir(SRC + '/theories') if re.match(r'Model\w+\.v$', x) and x != 'ModelOpsIo6502.v')
    rnd = random.Random(seed)
    done = set()
    if os.path.exists(RESULTS):
        done = {(d['file'], d['at'], d['new']) for d in map(json.loads, open(RESULTS))}
    per = {f: mutants(f) for f in files}
    n = 0
    while n < count:
        f = rnd.choice(files)
        s, ms = per[f]
        if not ms:
            continue
        at, old, new = rnd.choice(ms)
        if (f, at, new) in done:
            continue
        done.add((f, at, new))
        sh('mkdir -p %s; rsync -a --delete %s/ %s/' % (WORK, SRC, WORK)) if sh('which rsync').returncode == 0 else sh('rm -rf %s; cp -a %s %s' % (WORK, SRC, WORK))
        path = WORK + '/theories/' + f
        open(path, 'w').write(s[:at] + new + s[at + len(old):])
        if f == 'ModelOps6502.v':
            sh('mkdir -p %s/../tools; cp %s/genreads.py %s/../tools/; python3 %s/../tools/genreads.py' % (WORK, TOOLS, WORK, WORK))
        first, skipped = run()
        kind, name, _, _ = owner(path, s.count('\n', 0, at) + 1)
        invalid = first is not None and (first.startswith('Model') or first.startswith('make:'))
        line = s[s.rfind('\n', 0, at) + 1:s.find('\n', at)].strip()
        res = dict(file=f, definition=name, at=at, old=old, new=new, line=line, first=first, skipped=skipped, invalid=invalid)
        open(RESULTS, 'a').write(json.dumps(res) + '\n')
        print(f, name, repr(old), '->', repr(new), '|', line[:80], '=>', first or 'SURVIVES', flush=True)
        if not invalid:
            n += 1


main()
