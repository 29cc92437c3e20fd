#!/usr/bin/env python3
"""Translate the 151 `Generate` impls of src/cpu/mos6502/operations/mod.rs to
Gallina, and print the ISA tables of the isa-mos6502 crate.

Usage: gen6502.py <repo> <outdir>   (writes ModelIsa6502.v, ModelOps6502.v)

The translator knows the small expression language used in those bodies and
fails loudly on anything else; it never guesses.  The output is committed and
is what is proved about; this script is a convenience, not part of the
trusted base beyond "the committed output reads like the Rust".
"""
import re, sys

repo, out = sys.argv[1], sys.argv[2]
PATH = 'src/cpu/mos6502/operations/mod.rs'
src = open(f'{repo}/{PATH}').read()

MODES = ['Absolute', 'AbsoluteIndexedWithX', 'AbsoluteIndexedWithY', 'Accumulator', 'Immediate',
         'Implied', 'Indirect', 'IndirectYIndexed', 'Relative', 'XIndexedIndirect', 'ZeroPage',
         'ZeroPageIndexedWithX', 'ZeroPageIndexedWithY']
MODE_TY = {'Absolute': 'u16', 'AbsoluteIndexedWithX': 'u16', 'AbsoluteIndexedWithY': 'u16',
           'Indirect': 'u16', 'Immediate': 'u8', 'IndirectYIndexed': 'u8', 'XIndexedIndirect': 'u8',
           'ZeroPage': 'u8', 'ZeroPageIndexedWithX': 'u8', 'ZeroPageIndexedWithY': 'u8',
           'Relative': 'i8'}
SIZE = {'u16': 2, 'u8': 1, 'i8': 1}

# ---- ISA tables (isa-mos6502 v1.1.0; bytes and timings as exercised by the
# ---- tests in src/cpu/mos6502/tests and src/cpu/mos6502/operations/tests).
ABS, ABX, ABY, ACC, IMM, IMP, IND, INY, REL, XIN, ZP, ZPX, ZPY = MODES
ALU = [ABS, ABX, ABY, INY, IMM, XIN, ZP, ZPX]
ALUC = [4, 4, 4, 5, 2, 6, 3, 4]
T = []
def fam(mn, modes, bytes_, cycles):
    for m, b, c in zip(modes, bytes_.split(), cycles):
        T.append((int(b, 16), mn, m, c))
for mn, b in [('Adc', '6d 7d 79 71 69 61 65 75'), ('And', '2d 3d 39 31 29 21 25 35'),
              ('Cmp', 'cd dd d9 d1 c9 c1 c5 d5'), ('Eor', '4d 5d 59 51 49 41 45 55'),
              ('Lda', 'ad bd b9 b1 a9 a1 a5 b5'), ('Ora', '0d 1d 19 11 09 01 05 15'),
              ('Sbc', 'ed fd f9 f1 e9 e1 e5 f5')]:
    fam(mn, ALU, b, ALUC)
for mn, b in [('Asl', '0e 1e 0a 06 16'), ('Lsr', '4e 5e 4a 46 56'), ('Rol', '2e 3e 2a 26 36'),
              ('Ror', '6e 7e 6a 66 76')]:
    fam(mn, [ABS, ABX, ACC, ZP, ZPX], b, [6, 7, 2, 5, 6])
fam('Inc', [ABS, ABX, ZP, ZPX], 'ee fe e6 f6', [6, 7, 5, 6])
fam('Dec', [ABS, ABX, ZP, ZPX], 'ce de c6 d6', [6, 7, 5, 6])
fam('Bit', [ABS, ZP], '2c 24', [4, 3])
for mn, b in zip('Bcc Bcs Beq Bmi Bne Bpl Bvc Bvs'.split(), '90 b0 f0 30 d0 10 50 70'.split()):
    fam(mn, [REL], b, [2])
for mn, b in zip('Clc Cld Cli Clv Sec Sed Sei Tax Tay Tsx Txa Txs Tya Nop Inx Iny Dex Dey'.split(),
                 '18 d8 58 b8 38 f8 78 aa a8 ba 8a 9a 98 ea e8 c8 ca 88'.split()):
    fam(mn, [IMP], b, [2])
fam('Brk', [IMP], '00', [7])
fam('Pha', [IMP], '48', [3]); fam('Php', [IMP], '08', [3])
fam('Pla', [IMP], '68', [4]); fam('Plp', [IMP], '28', [4])
fam('Rti', [IMP], '40', [6]); fam('Rts', [IMP], '60', [6])
fam('Cpx', [ABS, IMM, ZP], 'ec e0 e4', [4, 2, 3])
fam('Cpy', [ABS, IMM, ZP], 'cc c0 c4', [4, 2, 3])
fam('Jmp', [ABS, IND], '4c 6c', [3, 5]); fam('Jsr', [ABS], '20', [6])
fam('Ldx', [ABS, ABY, IMM, ZP, ZPY], 'ae be a2 a6 b6', [4, 4, 2, 3, 4])
fam('Ldy', [ABS, ABX, IMM, ZP, ZPX], 'ac bc a0 a4 b4', [4, 4, 2, 3, 4])
fam('Sta', [ABS, ABX, ABY, INY, XIN, ZP, ZPX], '8d 9d 99 91 81 85 95', [4, 5, 5, 6, 6, 3, 4])
fam('Stx', [ABS, ZP, ZPY], '8e 86 96', [4, 3, 4])
fam('Sty', [ABS, ZP, ZPX], '8c 84 94', [4, 3, 4])
assert len(T) == 151 and len({t[0] for t in T}) == 151
CYC = {(mn, m): c for _, mn, m, c in T}
MNEM = sorted({t[1] for t in T})
assert len(MNEM) == 56

# ---- the impls -----------------------------------------------------------
IMPL = re.compile(r'^impl Generate<Mos6502>\s*for\s*Instruction<mnemonic::(\w+),\s*addressing_mode::(\w+)>\s*\{(.*?)^\}\n',
                  re.S | re.M)
impls = []
for m in IMPL.finditer(src):
    l0 = src.count('\n', 0, m.start()) + 1
    l1 = src.count('\n', 0, m.end())
    impls.append((m.group(1), m.group(2), m.group(3), l0, l1))
assert len(impls) == 151

# ---- expression translator ----------------------------------------------
TOK = re.compile(r'\s*(::|<<|>>|>=|[A-Za-z_]\w*!?|\d\w*|[()\[\],.!+\-&|^:;={}])')
def tokens(s):
    s = re.sub(r'//[^\n]*', '', s)
    r, i = [], 0
    s = s.strip()
    while i < len(s):
        m = TOK.match(s, i)
        if not m: raise SyntaxError(s[i:i+40])
        r.append(m.group(1)); i = m.end()
    return r

FLAGS = dict(carry='ps_carry', zero='ps_zero', interrupt_disable='ps_interrupt_disable',
             decimal='ps_decimal', brk='ps_brk', overflow='ps_overflow', negative='ps_negative')
REG_TY = dict(acc='u8', x='u8', y='u8', sp='u8', pc='u16', ps='u8')
OPBIN = {'+': 'operand_add', '-': 'operand_sub', '&': 'operand_and', '|': 'operand_or',
         '^': 'operand_xor', '<<': 'operand_shl', '>>': 'operand_shr', '>=': 'operand_ge'}

class Tr:
    def __init__(s, toks, mn, mode):
        s.t, s.i, s.mn, s.mode, s.env, s.lines, s.n = toks, 0, mn, mode, {}, [], 0
    def peek(s, k=0): return s.t[s.i+k] if s.i+k < len(s.t) else None
    def eat(s, *xs):
        for x in xs:
            assert s.peek() == x, (s.mn, s.mode, 'expected', x, 'got', s.t[s.i:s.i+8])
            s.i += 1
    def has(s, *xs):
        if s.t[s.i:s.i+len(xs)] == list(xs):
            s.i += len(xs); return True
        return False
    def bind(s, term):
        s.n += 1; v = f't{s.n}'
        s.lines.append(f'do! {v} <- {term} ;'); return v
    def self_operand(s):
        return 'operand', MODE_TY[s.mode]
    def args(s, n):
        s.eat('('); r = []
        while not s.has(')'):
            r.append(s.expr()); s.has(',')
        assert len(r) == n, (s.mn, s.mode, r); return r
    # binary operators (no precedence mixing occurs in the source)
    def expr(s):
        a, ta = s.unary()
        op = s.peek()
        if op in OPBIN:
            s.i += 1
            b, tb = s.unary()
            assert s.peek() not in OPBIN
            if ta == 'Operand' and tb == 'Operand':
                return f'({OPBIN[op]} {a} {b})', ('bool' if op == '>=' else 'Operand')
            if op == '+' and ta == 'u16' and tb == 'lit':
                return s.bind(f'add_u16 p {a} {b}'), 'u16'
            if op == '+' and ta == 'usize' and tb == 'usize':
                return f'({a} + {b})%nat', 'usize'
            raise TypeError((s.mn, s.mode, op, ta, tb))
        return a, ta
    def unary(s):
        if s.has('!'):
            a, t = s.unary(); assert t == 'bool'; return f'(negb {a})', 'bool'
        a = s.postfix()
        if s.has('as', 'u16'):
            assert a[1] in ('u8', 'u16'), a; return a[0], 'u16'
        return a
    def postfix(s):
        a, t = s.primary()
        while s.peek() == '.':
            s.eat('.'); f = s.peek(); s.i += 1
            if t == 'Operand' and f == 'unwrap': s.args(0); a, t = f'(operand_unwrap {a})', 'u8'
            elif t == 'Operand' and f in ('carry', 'negative', 'zero'): a, t = f'(op_{f} {a})', 'bool'
            elif t == 'Operand' and f in ('twos_complement_add', 'twos_complement_sub'):
                (b, tb), (c, tc) = s.args(2); assert (tb, tc) == ('Operand', 'bool')
                a, t = f'({f} {a} {b} {c})', ('Operand', 'bool')
            elif t == 'Operand' and f in ('rol', 'ror'):
                (b, tb), (c, tc) = s.args(2); assert (tb, tc) == ('Operand', 'bool')
                a, t = f'(operand_{f} {a} {b} {c})', 'Operand'
            elif t in ('u8', 'u16') and f in ('wrapping_add', 'wrapping_sub'):
                (b, tb), = s.args(1); assert tb == 'lit'; a = f'({f}_{t} {a} {b})'
            elif t in ('u8', 'u16') and f == 'overflowing_add':
                (b, tb), = s.args(1); s.eat('.', '0'); a = f'(wrapping_add_{t} {a} {b})'
            elif t == 'u16' and f == 'to_le_bytes': s.args(0); a, t = f'(u16_to_le_bytes {a})', 'bytes'
            elif t == 'page16' and f == 'contains':
                (b, tb), = s.args(1); assert tb == 'u16'; a, t = f'(page_contains {a} {b})', 'bool'
            else: raise TypeError((s.mn, s.mode, a, t, f))
        return a, t
    def primary(s):
        if s.has('('):
            a = s.expr()
            if s.has(','):
                b = s.expr(); s.eat(')')
                return (a[0], b[0]), (a[1], b[1])
            s.eat(')'); return a
        if s.has('cpu', '.', 'address_map', '.', 'read'):
            (a, t), = s.args(1); assert t == 'u16'
            return s.bind(f'am_read p (amap cpu) {a}'), 'u8'
        if s.has('cpu', '.', 'ps', '.', 'read'): s.args(0); return '(ps_read (reg_ps cpu))', 'u8'
        for r in ('acc', 'x', 'y', 'sp', 'pc'):
            if s.has('cpu', '.', r, '.', 'read'): s.args(0); return f'(reg_{r} cpu)', REG_TY[r]
        if s.has('cpu', '.', 'ps', '.'):
            f = s.peek(); s.i += 1; return f'({FLAGS[f]} (reg_ps cpu))', 'bool'
        if s.has('self', '.', 'addressing_mode', '.', 'unwrap'): s.args(0); return s.self_operand()
        if s.has('self', '.', 'addressing_mode'): return 'operand', 'mode'
        if s.has('self', '.', 'offset'): s.args(0); return f'(inst_offset {s.mode})', 'off'
        if s.has('self', '.', 'cycles'): s.args(0); return f'(inst_cycles {s.mn} {s.mode})', 'usize'
        if s.has('Operand', '::', 'new'):
            (a, t), = s.args(1); assert t in ('u8', 'lit'); return f'(operand_new {a})', 'Operand'
        if s.has('Page', '::', 'from'):
            (a, t), = s.args(1)
            if t == 'u8': return f'(page_from_u8 {a})', 'page16'
            assert t == 'u16'; return s.bind(f'page_from_u16 p {a}'), 'page16'
        if s.has('usize', '::', 'from'):
            (a, t), = s.args(1); assert t == 'bool'; return f'(if {a} then 1 else 0)%nat', 'usize'
        if s.has('u16', '::', 'from_le_bytes', '(', '['):
            a, ta = s.expr(); s.eat(','); b, tb = s.expr(); s.has(','); s.eat(']', ')')
            assert ta == tb == 'u8'; return f'(u16_from_le_bytes {a} {b})', 'u16'
        if s.has('dereference_address_to_operand'):
            _, (a, ta), (b, tb) = s.args(3); assert ta == 'u16' and tb in ('u8', 'lit')
            return s.bind(f'dereference_address_to_operand p cpu {a} {b}'), 'Operand'
        for f in ('dereference_indexed_indirect_address', 'dereference_indirect_indexed_address'):
            if s.has(f):
                _, (a, ta), (b, tb) = s.args(3); assert ta == tb == 'u8'
                return s.bind(f'{f} p cpu {a} {b}'), 'u16'
        if s.has('add_index_to_address'):
            (a, ta), (b, tb) = s.args(2); assert ta == 'u16' and tb == 'u8'
            return f'(add_index_to_address {a} {b})', 'u16'
        if s.has('add_index_to_zeropage_address'):
            (a, ta), (b, tb) = s.args(2); assert ta == 'u8' and tb in ('u8', 'lit')
            return f'(add_index_to_zeropage_address {a} {b})', 'u16'
        if s.has('stack_pointer_from_byte_value'):
            (a, ta), = s.args(1); assert ta == 'u8'
            return f'(stack_pointer_from_byte_value {a})', 'u16'
        if s.has('bit_is_set'):
            (a, ta), (b, tb) = s.args(2); assert ta == 'u8' and tb == 'lit'
            return f'(bit_is_set {a} {b})', 'bool'
        if s.has('cpu'): return 'cpu', 'cpu'
        if s.has('true'): return 'true', 'bool'
        if s.has('false'): return 'false', 'bool'
        k = s.peek()
        if k in ('IRQ_VECTOR_LL', 'IRQ_VECTOR_HH'): s.i += 1; return k, 'u16'
        if re.fullmatch(r'\d+(u8)?', k): s.i += 1; return k.replace('u8', ''), 'lit'
        if k in s.env: s.i += 1; return s.env[k]
        raise SyntaxError((s.mn, s.mode, s.t[s.i:s.i+8]))
    def microcode(s):
        s.eat('Microcode', '::'); k = s.peek(); s.i += 1
        s.eat('(')
        if k == 'WriteMemory':
            a, ta = s.expr(); s.eat(','); b, tb = s.expr(); assert (ta, tb) == ('u16', 'u8'), (s.mn, s.mode)
            r = f'WriteMemory {a} {b}'
        elif k == 'SetProgramStatusFlagState':
            s.eat('ProgramStatusFlags', '::'); f = s.peek(); s.i += 1; s.eat(',')
            b, tb = s.expr(); assert tb == 'bool'; r = f'SetProgramStatusFlagState {f} {b}'
        elif k in ('Write8bitRegister', 'Inc8bitRegister', 'Dec8bitRegister'):
            s.eat('ByteRegisters', '::'); f = s.peek(); s.i += 1; s.eat(',')
            b, tb = s.expr(); assert tb in ('u8', 'lit'); r = f'{k} {f} {b}'
        elif k == 'Write16bitRegister':
            s.eat('WordRegisters', '::', 'Pc', ','); b, tb = s.expr(); assert tb == 'u16'
            r = f'{k} Pc {b}'
        else: raise SyntaxError(k)
        s.has(','); s.eat(')'); return r
    def let(s, name, term, ty):
        self_ref = term
        s.lines.append(f'let {name} := {term} in'); s.env[name] = (name, ty)
    def body(s):
        while s.has('let'):
            if s.has('('):
                a = s.peek(); s.i += 1; s.eat(','); b = s.peek(); s.i += 1; s.eat(')', '=')
                e, t = s.expr()
                if isinstance(e, tuple):
                    s.let(a, e[0], t[0]); s.let(b, e[1], t[1])
                else:
                    s.lines.append(f"let '({a}, {b}) := {e} in"); s.env[a] = (a, t[0]); s.env[b] = (b, t[1])
            elif s.has('['):
                a = s.peek(); s.i += 1; s.eat(','); b = s.peek(); s.i += 1; s.eat(']', '=')
                e, t = s.expr(); assert t == 'bytes'
                s.lines.append(f"let '({a}, {b}) := {e} in"); s.env[a] = (a, 'u8'); s.env[b] = (b, 'u8')
            elif s.has('addressing_mode', '::'):
                assert s.peek() == s.mode; s.i += 1
                s.eat('('); a = s.peek(); s.i += 1; s.eat(')', '=', 'self', '.', 'addressing_mode')
                s.let(a, 'operand', MODE_TY[s.mode])
            else:
                a = s.peek(); s.i += 1
                s.has(':', 'u16'); s.eat('=')
                n0 = len(s.lines)
                e, t = s.expr()
                m = re.fullmatch(r't\d+', e)
                if m and s.lines[-1].startswith(f'do! {e} <- '):
                    s.lines[-1] = s.lines[-1].replace(f'do! {e} <- ', f'do! {a} <- ', 1)
                    s.env[a] = (a, t)
                else: s.let(a, e, t)
            s.eat(';')
        if s.has('branch_on_case'):
            (c, tc), (o, to), (io, _), (cy, _), _ = s.args(5)
            assert tc == 'bool' and to == 'i8'
            s.lines.append(f'branch_on_case p {c} {o} {io} {cy} cpu')
        else:
            s.eat('Operations', '::', 'new', '(')
            off, to = s.expr(); assert to in ('off', 'lit'); s.eat(',')
            cy, tc = s.expr(); assert tc == 'usize'; s.eat(',', 'vec!', '[')
            mcs = []
            while not s.has(']'):
                mcs.append(s.microcode()); s.has(',')
            s.has(','); s.eat(')')
            if mcs:
                s.lines.append(f'Ok (operations_new {off} {cy}')
                s.lines.append('  [ ' + ';\n      '.join(mcs) + ' ])')
            else: s.lines.append(f'Ok (operations_new {off} {cy} [])')
        assert s.i == len(s.t), (s.mn, s.mode, s.t[s.i:])
        return s.lines

HDR = '(** Generated by tools/gen6502.py from /repo; reviewed by hand. %s *)\n'
isa = HDR % '\n    Model of the external crate isa-mos6502 v1.1.0 (Cargo.toml:8-12), whose\n    source is not in /repo: mnemonics, addressing modes, the instruction\n    variants named in src/cpu/mos6502/operations/mod.rs:337-840, opcode\n    bytes, sizes and base cycle counts as exercised by\n    src/cpu/mos6502/tests and src/cpu/mos6502/operations/tests.'
isa += 'From Verif Require Import Base.\n\n'
isa += '(** [isa_mos6502::mnemonic]: the 56 mnemonics. *)\nInductive mnemonic :=\n' + '\n'.join('| ' + m for m in MNEM) + '.\n\n'
isa += '(** [isa_mos6502::addressing_mode]: the 13 addressing modes. *)\nInductive addressing_mode :=\n' + '\n'.join('| ' + m for m in MODES) + '.\n\n'
isa += '(** Operand byte counts ([ByteSized::byte_size] of the mode; mnemonics count\n    1), added up in operations/mod.rs:854-863. *)\nDefinition inst_offset (m : addressing_mode) : Z :=\n  match m with\n'
for m in MODES: isa += f'  | {m} => {1 + (SIZE[MODE_TY[m]] if m in MODE_TY else 0)}\n'
isa += '  end.\n\n(** [CycleCost::cycles] (operations/mod.rs:865-874). Pairs that are not\n    instructions get 0; no generated body mentions them. *)\nDefinition inst_cycles (mn : mnemonic) (m : addressing_mode) : nat :=\n  match mn, m with\n'
for mn in MNEM:
    for m in MODES:
        if (mn, m) in CYC: isa += f'  | {mn}, {m} => {CYC[mn, m]}\n'
isa += '  | _, _ => 0\n  end%nat.\n\n'
isa += '(** [isa_mos6502::InstructionVariant]: the 151 variants of\n    operations/mod.rs:337-840, with their operand where they have one. *)\nInductive instruction_variant :=\n'
for mn, m, *_ in sorted(impls): isa += f'| {mn}{m}' + (' (operand : Z)' if m in MODE_TY else '') + '\n'
isa = isa[:-1] + '.\n\n'
isa += '(** [isa_mos6502::parse_instruction] on the three fetched bytes\n    (src/cpu/mos6502/mod.rs:266-268). *)\nDefinition parse_instruction (b0 b1 b2 : Z) : option instruction_variant :=\n  match b0 with\n'
for b, mn, m, _ in sorted(T):
    a = {None: '', 'u16': ' (u16_from_le_bytes b1 b2)', 'u8': ' b1', 'i8': ' (u8_as_i8 b1)'}[MODE_TY.get(m)]
    isa += f'  | 0x{b:02x} => Some ({mn}{m}{a})\n' if a else f'  | 0x{b:02x} => Some {mn}{m}\n'
isa += '  | _ => None\n  end.\n'
open(f'{out}/ModelIsa6502.v', 'w').write(isa)

ops = HDR % f'\n    Model of {PATH}:337-840 and 880-4113: the\n    microcode generated by each of the 151 instruction variants. Each\n    definition cites the impl it translates.'
ops += 'From Verif Require Import Base ModelMap ModelRegs6502 ModelCpu6502 ModelOperand ModelIsa6502.\n\nSection Generate.\nContext {D : Type} `{Device D}.\n\n'
for mn, mode, body, l0, l1 in impls:
    b = body[body.index('-> Operations {') + len('-> Operations {'):body.rindex('}')]
    b = b.rstrip()
    tr = Tr(tokens(b), mn, mode)
    lines = tr.body()
    arg = ' (operand : Z)' if mode in MODE_TY else ''
    ops += f'(** {PATH}:{l0}-{l1} *)\nDefinition gen_{mn}{mode} (p : profile) (cpu : mos6502 D){arg} : res operations :=\n'
    ops += '\n'.join('  ' + l for l in lines) + '.\n\n'
ops += f'(** {PATH}:337-840, dispatch. *)\nDefinition generate (p : profile) (v : instruction_variant) (cpu : mos6502 D) : res operations :=\n  match v with\n'
dm = re.findall(r'InstructionVariant::(\w+)(\(am\))? => \{?\s*Instruction::new\(\s*mnemonic::(\w+),\s*addressing_mode::(\w+)(\(am\))?,?\s*\)\s*\.generate\(cpu\)', src)
assert len(dm) == 151, len(dm)
for v, a1, mn, mode, a2 in dm:
    assert a1 == a2 and bool(a1) == (mode in MODE_TY), (v, mn, mode)
    ops += f'  | {v} am => gen_{mn}{mode} p cpu am\n' if a1 else f'  | {v} => gen_{mn}{mode} p cpu\n'
ops += '  end.\nEnd Generate.\n'
open(f'{out}/ModelOps6502.v', 'w').write(ops)
