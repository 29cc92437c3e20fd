#!/usr/bin/env python3
"""Translate the repository's unit tests into Coq examples about the model.

Reads  /repo/src/cpu/mos6502/tests/mod.rs
       /repo/src/cpu/mos6502/operations/tests/code_generation.rs
       /repo/src/cpu/chip8/operations/tests/mod.rs
Writes rocq/theories/Conformance6502.v
       rocq/theories/ConformanceChip8.v

Every #[test] becomes one Example: the statements run on the model and the two
sides of all its assertions are compared.  A test with a construct the
translator does not know is reported and makes the script fail.
"""
import re, sys, os

REPO = os.environ.get("REPO", "/repo")
OUT = os.path.join(os.path.dirname(os.path.abspath(__file__)), "..", "rocq", "theories")

# ---------------------------------------------------------------- lexer
TOK = re.compile(r"""\s+|//[^\n]*|
 (?P<num>0x[0-9a-fA-F_]+|0b[01_]+|[0-9][0-9_]*)(?P<suf>u8|u16|usize|i8)?|
 (?P<id>[A-Za-z_]\w*)|(?P<op>::|\.\.=|=>|->|&&|\|\||==|!=|<<|>>|\.\.|[-+*/%!&|^(){}\[\];,.<>=:?\#])""", re.X)


def lex(s):
    out, i = [], 0
    while i < len(s):
        m = TOK.match(s, i)
        if not m:
            raise SyntaxError(s[i:i + 40])
        if m.group("num"):
            out.append(("num", int(m.group("num").replace("_", ""), 0)))
        elif m.group("id"):
            out.append(("id", m.group("id")))
        elif m.group("op"):
            out.append(("op", m.group("op")))
        i = m.end()
    out.append(("eof", None))
    return out


# ---------------------------------------------------------------- parser
class P:
    def __init__(self, toks):
        self.t, self.i = toks, 0

    def peek(self, k=0):
        return self.t[self.i + k]

    def nxt(self):
        self.i += 1
        return self.t[self.i - 1]

    def at(self, v):
        return self.peek() in (("op", v), ("id", v))

    def eat(self, v):
        if self.at(v):
            self.i += 1
            return True
        return False

    def need(self, v):
        if not self.eat(v):
            raise SyntaxError(f"expected {v} got {self.peek()} near {self.t[max(0,self.i-6):self.i+6]}")

    def skip_type(self):
        depth = 0
        while True:
            if depth == 0 and (self.at("=") or self.at(";") or self.at(",") or self.at(")")):
                return
            k = self.nxt()[1]
            if k == "<":
                depth += 1
            if k in (">", ">>"):
                depth -= len(k)

    def pattern(self):
        if self.eat("("):
            ps = []
            while not self.eat(")"):
                ps.append(self.pattern())
                self.eat(",")
            return ("ptuple", ps)
        if self.eat("["):
            ps = []
            while not self.eat("]"):
                ps.append(self.pattern())
                self.eat(",")
            return ("parray", ps)
        self.eat("mut")
        return ("pvar", self.nxt()[1])

    def block(self):
        self.need("{")
        stmts, last = [], None
        while not self.eat("}"):
            if self.eat("let"):
                p = self.pattern()
                if self.eat(":"):
                    self.skip_type()
                self.need("=")
                e = self.expr()
                self.need(";")
                stmts.append(("let", p, e))
                continue
            e = self.expr()
            if self.eat("="):
                r = self.expr()
                self.need(";")
                stmts.append(("assign", e, r))
            elif self.eat(";"):
                stmts.append(("expr", e))
            else:
                if self.at("}"):
                    last = e
                else:
                    stmts.append(("expr", e))
        return ("block", stmts, last)

    PREC = {"||": 1, "&&": 2, "==": 3, "!=": 3, "|": 5, "^": 6, "&": 7, "<<": 8, ">>": 8, "+": 9, "-": 9, "*": 10, "/": 10, "%": 10}

    def expr(self, lvl=0):
        l = self.unary()
        while True:
            k, v = self.peek()
            if (k, v) == ("id", "as"):
                self.nxt()
                l = ("cast", l, self.nxt()[1])
            elif (k, v) == ("op", "..=") and lvl == 0:
                self.nxt()
                l = ("range", l, self.expr(1))
            elif k == "op" and v in self.PREC and self.PREC[v] >= max(lvl, 1):
                self.nxt()
                l = ("bin", v, l, self.expr(self.PREC[v] + 1))
            else:
                return l

    def unary(self):
        if self.eat("-"):
            return ("neg", self.unary())
        if self.eat("!"):
            return ("not", self.unary())
        if self.eat("&") or self.eat("*"):
            self.eat("mut")
            return self.unary()
        return self.postfix()

    def args(self, close):
        a = []
        while not self.eat(close):
            a.append(self.expr())
            if self.at(";"):
                self.nxt()
                n = self.expr()
                self.need(close)
                return [("repeat", a[0], n)]
            if not self.eat(","):
                self.need(close)
                break
        return a

    def postfix(self):
        e = self.primary()
        while True:
            if self.eat("."):
                f = self.nxt()[1]
                if self.eat("("):
                    e = ("method", e, f, self.args(")"))
                else:
                    e = ("field", e, f)
            elif self.at("("):
                self.nxt()
                e = ("call", e, self.args(")"))
            elif self.at("["):
                self.nxt()
                e = ("index", e, self.expr())
                self.need("]")
            elif self.at("?"):
                self.nxt()
            else:
                return e

    def primary(self):
        k, v = self.peek()
        if k == "num":
            self.nxt()
            return ("num", v)
        if self.eat("("):
            a = []
            trailing = False
            while not self.eat(")"):
                a.append(self.expr())
                trailing = self.eat(",")
            return a[0] if len(a) == 1 and not trailing else ("tuple", a)
        if self.eat("["):
            return ("array", self.args("]"))
        if self.at("{"):
            return self.block()
        if self.eat("|") or self.at("||"):
            ps = []
            if not self.eat("||"):
                while not self.eat("|"):
                    ps.append(self.pattern())
                    self.eat(",")
            return ("closure", ps, self.expr())
        if k == "id":
            path = [self.nxt()[1]]
            while self.at("::"):
                self.nxt()
                if self.eat("<"):
                    d = 1
                    while d:
                        t = self.nxt()[1]
                        d += {"<": 1, ">": -1, ">>": -2}.get(t, 0)
                else:
                    path.append(self.nxt()[1])
            if self.at("!") and self.peek(1) in (("op", "("), ("op", "[")):
                self.nxt()
                c = self.nxt()[1]
                return ("macro", path[-1], self.args(")" if c == "(" else "]"))
            return ("path", path)
        raise SyntaxError(f"primary {self.peek()}")


def tests_of(src, skip=()):
    """(name, first line, last line, body) for every #[test] function."""
    for m in re.finditer(r"#\[test\]\s*fn (\w+)\(\) \{", src):
        if m.group(1) in skip:
            continue
        i, d = m.end(), 1
        while d:
            d += (src[i] == "{") - (src[i] == "}")
            i += 1
        line = src.count("\n", 0, m.start()) + 1
        end = src.count("\n", 0, i) + 1
        yield m.group(1), line, end, P(lex(src[m.end() - 1:i])).block()


# ---------------------------------------------------------------- 6502
FIELDS = {"pc": "reg_pc", "acc": "reg_acc", "x": "reg_x", "y": "reg_y", "sp": "reg_sp", "ps": "reg_ps"}
PSF = {"carry": "ps_carry", "zero": "ps_zero", "interrupt_disable": "ps_interrupt_disable", "decimal": "ps_decimal",
       "brk": "ps_brk", "unused": "ps_unused", "overflow": "ps_overflow", "negative": "ps_negative"}
ORDER = ["carry", "zero", "interrupt_disable", "decimal", "brk", "unused", "overflow", "negative"]


class Unknown(Exception):
    pass


class T6502:
    def __init__(self):
        self.lines, self.pairs, self.n = [], [], 0
        self.ty = {}

    def fresh(self, b="t"):
        self.n += 1
        return f"{b}{self.n}"

    def bind(self, e, ty, base="t"):
        v = self.fresh(base)
        self.lines.append(f"do! {v} <- {e} ;")
        self.ty[v] = ty
        return v, ty

    def z(self, e):
        s, t = self.e(e)
        if t != "z":
            raise Unknown(("z", e, t))
        return s

    def e(self, x):
        k = x[0]
        if k == "num":
            return str(x[1]), "z"
        if k == "neg":
            return f"(- {self.z(x[1])})", "z"
        if k == "not":
            s, t = self.e(x[1])
            if t != "bool":
                raise Unknown(x)
            return f"(negb {s})", "bool"
        if k == "cast":
            return self.e(x[1])
        if k == "bin" and x[1] in "+-|":
            a, b = self.z(x[2]), self.z(x[3])
            return (f"(Z.lor {a} {b})" if x[1] == "|" else f"({a} {x[1]} {b})"), "z"
        if k == "tuple":
            es = [self.e(a) for a in x[1]]
            return "(" + ", ".join(a for a, _ in es) + ")", "tuple"
        if k == "block":
            saved = None
            for st in x[1]:
                self.stmt(st)
            return self.e(x[2])
        if k == "path":
            p = x[1]
            if len(p) == 1:
                if p[0] in ("true", "false"):
                    return p[0], "bool"
                if p[0] in self.ty:
                    return p[0], self.ty[p[0]]
            if p[0] == "register":
                p = p[1:]
            if p[0] == "GpRegister":
                return "Gp" + p[1], "gp"
            if p[0] in ("ByteRegisters", "WordRegisters", "ProgramStatusFlags"):
                return p[1], "reg"
            raise Unknown(x)
        if k == "macro" and x[1] == "vec":
            es = [self.e(a)[0] for a in x[2]]
            return "[" + "; ".join(es) + "]", "list"
        if k == "array":
            return "[" + "; ".join(self.e(a)[0] for a in x[1]) + "]", "list"
        if k == "field":
            s, t = self.e(x[1])
            if t == "cpu" and x[2] in FIELDS:
                return f"({FIELDS[x[2]]} {s})", ("ps" if x[2] == "ps" else "reg8")
            if t == "cpu" and x[2] == "address_map":
                return s, "amap"
            if t == "ps":
                return f"({PSF[x[2]]} {s})", "bool"
            raise Unknown(x)
        if k == "call":
            return self.call(x)
        if k == "method":
            return self.method(x)
        raise Unknown(x)

    def call(self, x):
        p = x[1][1]
        if p[0] == "register" and len(p) > 2:
            p = p[1:]
        a = x[2]
        q = "::".join(p)
        if q == "generate_test_cpu_with_instructions":
            return self.bind(f"test_cpu {self.e(a[0])[0]}", "cpu", "cpu")
        if q == "Mos6502::default":
            return self.bind("mos6502_default Debug", "cpu", "cpu")
        if q in ("GeneralPurpose::with_value", "ProgramCounter::with_value", "StackPointer::with_value"):
            return self.e(a[0])
        if q == "ProcessorStatus::with_value":
            return f"(ps_with_value {self.z(a[0])})", "ps"
        if q in ("ProcessorStatus::default", "ProcessorStatus::new"):
            return "ps_default", "ps"
        if q == "StackPointer::default":
            return "stack_pointer_default", "z"
        if q == "Instruction::new":
            mn = a[0][1][-1]
            m = a[1]
            if m[0] == "call":
                mode = m[1][1][-1]
                if mode == "default":
                    mode = m[1][1][-2]
                    if mode in ("Implied", "Accumulator"):
                        return mn + mode, "variant"
                    return f"({mn}{mode} 0)", "variant"
                arg = self.z(m[2][0])
                return f"({mn}{mode} {arg})", "variant"
            return mn + m[1][-1], "variant"
        if q == "Operations::new":
            return f"(operations_new {self.z(a[0])} {self.z(a[1])}%nat {self.e(a[2])[0]})", "ops"
        if p[0] == "Microcode":
            return f"({p[1]} " + " ".join(self.e(b)[0] for b in a) + ")", "mc"
        if q == "u8::from":
            s, t = self.e(a[0])
            if t != "ps":
                raise Unknown(x)
            return f"(ps_read {s})", "z"
        if q == "u16::from_le_bytes":
            e0, e1 = a[0][1]
            return f"(u16_from_le_bytes {self.z(e0)} {self.z(e1)})", "z"
        if q in ("Rom::new", "Ram::new", "Memory::new"):
            kind = {"Rom": "ReadOnly", "Ram": "ReadWrite"}.get(p[0], "ReadOnly")
            return self.bind(f"memory_new Debug {kind} {self.z(a[0])} {self.z(a[1])}", "mem", "m")
        if q == "Vec::from" or q == "Into::into":
            s, t = self.e(a[0])
            if t == "ops":
                return self.bind(f"operations_into_cycles {s}", "list")
        if q == "Ok":
            return self.e(a[0])
        raise Unknown(x)

    def method(self, x):
        _, o, m, a = x
        if m == "unwrap" and o[0] == "method" and o[2] == "write":
            return self.e(o)
        s, t = self.e(o)
        if t == "cpu":
            if m == "with_gp_register":
                return f"(with_gp_register {s} {self.e(a[0])[0]} {self.z(a[1])})", "cpu"
            if m in ("with_pc_register", "with_sp_register"):
                return f"({m} {s} {self.z(a[0])})", "cpu"
            if m == "with_ps_register":
                r, rt = self.e(a[0])
                if rt != "ps":
                    raise Unknown(x)
                return f"({m} {s} {r})", "cpu"
            if m == "reset":
                return self.bind(f"reset Debug {s}", "step", "s")
            if m == "run":
                return self.bind(f"run Debug {s} {self.z(a[0])}%nat", "step", "s")
            if m == "register_address_space":
                lo, hi = self.z(a[0][1]), self.z(a[0][2])
                d, dt = self.e(a[1])
                if dt != "mem":
                    raise Unknown(x)
                return self.bind(f"or_panic (register_address_space {s} {lo} {hi} {d})", "optcpu", "cpu")
            if m == "with_address_map" and a[0][0] == "closure":
                v = a[0][1][0][1]
                self.ty[v] = "amap"
                self.lines.append(f"let {v} := {s} in")
                return self.e(a[0][2])
            if m == "with_address_map_mut" and a[0][0] == "closure":
                v = a[0][1][0][1]
                self.ty[v] = "amap"
                self.lines.append(f"let {v} := {s} in")
                r = self.e(a[0][2])
                self.lines.append(f"let {s} := {v} in")
                return r
            if m == "with_owned_address_map" and a[0][0] == "closure":
                v = a[0][1][0][1]
                self.ty[v] = "amap"
                self.lines.append(f"let {v} := {s} in")
                r, _ = self.e(a[0][2])
                return r, "cpu"
        if t == "mem" and m == "load":
            return f"(memory_load {s} {self.e(a[0])[0]})", "mem"
        if t == "step" and m == "unwrap":
            v = self.fresh("state")
            self.lines.append(f"let {v} := ss_unwrap {s} in")
            self.ty[v] = "cpu"
            return v, "cpu"
        if t == "optcpu" and m == "unwrap":
            return s, "cpu"
        if t in ("reg8", "z") and m == "read":
            return s, "z"
        if t == "ps" and m == "read":
            return f"(ps_read {s})", "z"
        if t == "z" and m in ("wrapping_add", "wrapping_sub"):
            op = "+" if m == "wrapping_add" else "-"
            return f"(({s} {op} {self.z(a[0])}) mod {256 if self.is8(o) else 65536})", "z"
        if t == "z" and m in ("to_le_bytes",):
            return f"(u16_to_le_bytes {s})", "pair"
        if t == "amap" and m == "read":
            return self.bind(f"am_read Debug (amap {s}) {self.z(a[0])}", "z", "r")
        if t == "amap" and m == "write":
            ad, v = self.z(a[0]), self.z(a[1])
            self.lines.append(f"do! {s} <- poke {s} {ad} {v} ;")
            return v, "z"
        if t == "variant" and m == "into":
            return s, "variant"
        if t == "variant" and m == "generate":
            return self.bind(f"generate Debug {s} {self.e(a[0])[0]}", "ops", "mc")
        if t == "ops" and m == "into":
            return self.bind(f"operations_into_cycles {s}", "list")
        raise Unknown((x, s, t))

    def is8(self, o):
        return o[0] == "method" and o[1][0] == "field" and o[1][2] in ("sp", "acc", "x", "y")

    def stmt(self, st):
        if st[0] == "let":
            p, e = st[1], st[2]
            if p[0] == "ptuple" and e[0] == "tuple":
                for a, b in zip(p[1], e[1]):
                    self.stmt(("let", a, b))
                return
            s, t = self.e(e)
            if p[0] == "pvar":
                if p[1] == "_":
                    return
                self.lines.append(f"let {p[1]} := {s} in")
                self.ty[p[1]] = t
                return
            if p[0] in ("parray", "ptuple") and t == "pair":
                a, b = (q[1] for q in p[1])
                self.lines.append(f"let '({a}, {b}) := {s} in")
                self.ty[a] = self.ty[b] = "z"
                return
            raise Unknown(st)
        if st[0] == "assign":
            l, r = st[1], st[2]
            v, vt = self.e(r)
            if l[0] == "field" and l[2] == "ps" and vt == "ps":
                s, t = self.e(l[1])
                self.lines.append(f"let {s} := with_ps_register {s} {v} in")
                return
            # <ps>.flag = b, or cpu.ps.flag = b
            if l[0] == "field" and vt == "bool":
                s, t = self.e(l[1])
                if t == "ps":
                    upd = "mkPs " + " ".join(v if f == l[2] else f"({PSF[f]} {s})" for f in ORDER)
                    if l[1][0] == "path":
                        self.lines.append(f"let {s} := {upd} in")
                        return
                    base = l[1][1][1][0]
                    self.lines.append(f"let {base} := with_ps_register {base} ({upd}) in")
                    return
            raise Unknown(st)
        e = st[1]
        if e[0] == "macro" and e[1] == "assert_eq":
            a, b = self.e(e[2][0])[0], self.e(e[2][1])[0]
            self.pairs.append((a, b))
            return
        if e[0] == "macro" and e[1] == "assert":
            self.pairs.append(("true", self.e(e[2][0])[0]))
            return
        self.e(e)


HEAD = '''(** Generated by tools/gentests.py from /repo; do not edit.

    Conformance of the 6502 model with the repository's own unit tests:
    every test function of src/cpu/mos6502/tests/mod.rs and
    src/cpu/mos6502/operations/tests/code_generation.rs, statement by
    statement, on the model. These are checks of the model (and of the
    instruction tables recovered for the external crate isa-mos6502), not
    property proofs. Plain arithmetic between literals in a test is written
    with unbounded integers. *)
From Verif Require Import Base ModelMap ModelStep ModelRegs6502 ModelIsa6502
  ModelOperand ModelCpu6502 ModelOps6502 ModelRun6502.
Local Open Scope Z_scope.
Import ListNotations.

(** [Result::unwrap] on a registration. *)
Definition or_panic {A} (o : option A) : res A :=
  match o with Some a => Ok a | None => Panic end.

(** [cpu.address_map.write(addr, value).unwrap()]. *)
Definition poke (cpu : mos6502 memory) (addr value : Z) : res (mos6502 memory) :=
  do! r <- am_write Debug (amap cpu) addr value ;
  match snd r with WOk _ => Ok (set_amap cpu (fst r)) | _ => Panic end.

(** src/cpu/mos6502/tests/mod.rs:13-29, [generate_test_cpu_with_instructions]:
    the nop sled starts with the given bytes. *)
Definition test_cpu (opcodes : list Z) : res (mos6502 memory) :=
  let sled := opcodes ++ repeat 0xea (0x1000 - length opcodes) in
  do! d <- mos6502_default Debug ;
  do! s <- reset Debug d ;
  do! rom <- memory_new Debug ReadOnly 0x6000 0x7000 ;
  or_panic (register_address_space (with_pc_register (ss_unwrap s) 0x6000)
              0x6000 0x7000 (memory_load rom sled)).

(** All assertions of a test hold: it does not panic and the expected values
    are the actual ones. *)
Definition passes {A} (r : res (A * A)) : Prop :=
  match r with Ok (expected, actual) => expected = actual | Panic => False end.
'''


# ---------------------------------------------------------------- CHIP-8
HAND8 = {"should_generate_drw_instruction", "should_generate_read_registers_from_memory_operation",
         "should_generate_rnd_immediate_operation"}
IMM = {"Ld": "LdImmediate", "Add": "AddImmediate", "Se": "SeImmediate", "Sne": "SneImmediate", "Rnd": "Rnd"}
VXVY = {"Ld": "LdVxVy", "Add": "AddVxVy", "Se": "SeVxVy", "Sne": "SneVxVy"}


class T8(T6502):
    """The CHIP-8 tests.  [Foo::new(VxVy::new(a, b))] is the opcode whose
    source is [a] and whose destination is [b] (operations/mod.rs:136-174)."""

    def e(self, x):
        k = x[0]
        if k == "path":
            p = [q for q in x[1] if q not in ("register", "chip8")]
            if p[0] == "GpRegisters" and len(p) == 2:
                return p[1], "gp"
            if p[0] == "TimerRegisters":
                return p[1], "timer"
            if p == ["WordRegisters", "ProgramCounter"]:
                return "WordPc", "word"
            if p == ["WordRegisters", "I"]:
                return "WordI", "word"
            if p[0] == "KeyInputValue":
                return p[1], "key"
            if p == ["None"]:
                return "None", "opt"
            if p[0] == "Opcode" and len(p) == 2:
                return p[1], "op"
            if p in (["Cls"], ["Ret"]):
                return p[0], "op"
        if k == "bin" and x[1] == "*":
            return f"({self.z(x[2])} * {self.z(x[3])})", "z"
        return super().e(x)

    def call(self, x):
        p = [q for q in x[1][1] if q not in ("register", "chip8", "addressing_mode")]
        a, q = x[2], "::".join(p)
        if q == "Chip8::default":
            v = self.fresh("c")
            self.lines.append(f"do! ' ({v}, w) <- chip8_default env Debug w ;")
            self.ty[v] = "c8"
            return v, "c8"
        if q == "ClockDecrementing::with_value":
            v = self.fresh("t")
            self.lines.append(f"let '({v}, w) := clock_with_value env {self.z(a[0])} w in")
            return v, "clock"
        if q == "ByteRegisters::GpRegisters":
            return f"(ByteGp {self.e(a[0])[0]})", "byte"
        if q == "ByteRegisters::TimerRegisters":
            return f"(ByteTimer {self.e(a[0])[0]})", "byte"
        if q == "Vec::new":
            return "[]", "list"
        if q == "u12::new":
            return self.bind(f"u12_new {self.z(a[0])}", "z", "a")
        if q == "Some":
            return f"(Some {self.e(a[0])[0]})", "opt"
        if q == "Interrupt::KeyPress":
            return f"(InterruptKeyPress {self.e(a[0])[0]})", "int"
        if p[0] == "Opcode":
            return f"({p[1]} " + " ".join(self.e(b)[0] for b in a) + ")", "op"
        if q in ("VxVy::new", "Immediate::new"):
            return (p[0], [self.e(b)[0] for b in a]), "mode"
        if q in ("VxIIndirect::new", "IRegisterIndexed::new", "SoundTimerDestTx::new", "DelayTimerDestTx::new",
                 "DelayTimerSrcTx::new", "Absolute::new"):
            return (p[0], [self.e(a[0])[0]]), "mode"
        if len(p) == 2 and p[1] == "new":
            m, t = self.e(a[0]) if len(a) == 1 else (None, None)
            if t == "mode":
                mode, r = m
                if mode == "VxVy":
                    return f"({VXVY.get(p[0], p[0])} {r[1]} {r[0]})", "op"
                if mode == "Immediate":
                    return f"({IMM[p[0]]} {r[0]} {r[1]})", "op"
                if mode in ("VxIIndirect",):
                    return f"({p[0]} {r[0]})", "op"
                return f"({p[0]}{mode} {r[0]})", "op"
            if p[0] in ("LdSpriteLocation", "LdK", "Skp", "Sknp", "Call", "JpV0Indexed", "JpNonV0Indexed"):
                return f"({p[0]} {m})", "op"
        return super().call(x)

    def method(self, x):
        _, o, m, a = x
        s, t = self.e(o)
        if t == "c8":
            if m == "clone":
                return s, "c8"
            if m == "with_rng":
                return f"(with_rng {s})", "c8"
            if m == "with_gp_register":
                return self.bind(f"with_gp_register {s} {self.e(a[0])[0]} {self.z(a[1])}", "c8", "c")
            if m == "with_timer_register":
                r, _ = self.e(a[1])
                return f"(with_timer_register {s} {self.e(a[0])[0]} {r})", "c8"
            if m in ("with_i_register", "with_pc_register"):
                return f"({m} {s} {self.z(a[0])})", "c8"
            if m == "with_interrupt" and a[0][0] == "closure":
                return f"(with_interrupt {s} {self.e(a[0][2])[0]})", "c8"
        if t == "op" and m == "generate":
            v = self.fresh("mc")
            c = self.e(a[0])[0]
            self.lines.append(f"do! ' ({v}, w) <- generate env Debug {s} {c} w ;")
            return v, "list"
        return super().method(x)

    def stmt(self, st):
        # cpu.stack.write(a, v);
        if st[0] == "expr" and st[1][0] == "method" and st[1][2] == "write" and st[1][1][0] == "field" and st[1][1][2] == "stack":
            c = st[1][1][1][1][0]
            a, v = (self.z(y) for y in st[1][3])
            self.lines.append(f"do! ' (stk, _) <- ring_write (c8_stack {c}) {a} {v} ;")
            self.lines.append(f"let {c} := set_stack {c} stk in")
            return
        return super().stmt(st)


HEAD8 = '''(** Generated by tools/gentests.py from /repo; do not edit.

    Conformance of the CHIP-8 model with the repository's own unit tests of
    src/cpu/chip8/operations/tests/mod.rs: every decoding test, and every
    microcode test except the three with loops, which are written by hand in
    ConformanceMisc.v. Checks of the model, not property proofs. *)
From Verif Require Import Base ModelMap ModelU12 ModelDisplay ModelChip8 ModelOpsChip8.
Local Open Scope Z_scope.
Import ListNotations.

(** [with_rng(|| 0u8)], and a clock that stands still during a test. *)
Definition env : environment := mkEnv (fun _ => 0) (fun _ => 0).
Definition w0 : world := mkWorld 0 0.

Definition passes {A} (r : res (A * A)) : Prop :=
  match r with Ok (expected, actual) => expected = actual | Panic => False end.
'''


def chip8():
    path = "src/cpu/chip8/operations/tests/mod.rs"
    src = open(os.path.join(REPO, path)).read()
    # Jp::<V0Indexed>::new and Jp::<NonV0Indexed>::new
    src = re.sub(r"Jp::<(Non)?V0Indexed>::new", lambda m: f"Jp{m.group(1) or ''}V0Indexed::new", src)
    out, n, bad = [HEAD8], 0, 0
    blk = src[src.index("generate_parse_test!("):src.index(");\n\n#[test]")]
    for m in re.finditer(r"(\w+), (0x[0-9a-f]{4})u16 to (.*),\n", blk):
        tr = T8()
        want = tr.e(P(lex(m.group(3))).expr())[0]
        v = int(m.group(2), 16)
        tr.lines.append(f"do! got <- decode_bytes_to_opcode [{v >> 8}; {v & 255}] ;")
        tr.pairs.append((f"Some {want}", "got"))
        line = src.count("\n", 0, src.index(m.group(0))) + 1
        out.append(emit("decode_" + m.group(1), path, line, line, tr))
        n += 1
    assert n == blk.count(" to Opcode")
    src = re.sub(r"(fn \w+\()\n\) \{", r"\1) {\n", src)
    for name, a, b, body in tests_of(src, HAND8):
        tr = T8()
        tr.lines.append("let w := w0 in")
        try:
            for st in body[1]:
                tr.stmt(st)
            if body[2]:
                tr.stmt(("expr", body[2]))
            if not tr.pairs:
                raise Unknown("no assertion")
        except (Unknown, KeyError, TypeError, IndexError) as ex:
            bad += 1
            print("UNKNOWN", path, name, repr(ex)[:300], file=sys.stderr)
            continue
        n += 1
        out.append(emit(name, path, a, b, tr))
    open(os.path.join(OUT, "ConformanceChip8.v"), "w").write("".join(out))
    print(n, "tests translated,", bad, "unknown")
    return bad


def emit(name, path, a, b, tr):
    ex = "(" + ", ".join(p for p, _ in tr.pairs) + ")"
    ac = "(" + ", ".join(q for _, q in tr.pairs) + ")"
    body = "\n  ".join(tr.lines)
    return (f"\n(** {path}:{a}-{b} *)\nExample {name} : passes (\n  {body}\n  Ok ({ex},\n      {ac})).\n"
            "Proof. vm_compute. reflexivity. Qed.\n")


def main():
    out, bad, n = [HEAD], 0, 0
    for path, pre in (("src/cpu/mos6502/tests/mod.rs", "run_"),
                      ("src/cpu/mos6502/operations/tests/code_generation.rs", "gen_")):
        src = open(os.path.join(REPO, path)).read()
        seen = 0
        for name, a, b, body in tests_of(src):
            seen += 1
            tr = T6502()
            try:
                for st in body[1]:
                    tr.stmt(st)
                if body[2]:
                    tr.stmt(("expr", body[2]))
                if not tr.pairs:
                    raise Unknown("no assertion")
            except (Unknown, KeyError, TypeError, IndexError) as ex:
                bad += 1
                print("UNKNOWN", path, name, repr(ex)[:300], file=sys.stderr)
                continue
            n += 1
            out.append(emit(pre + name, path, a, b, tr))
        assert seen == src.count("#[test]")
    open(os.path.join(OUT, "Conformance6502.v"), "w").write("".join(out))
    print(n, "tests translated,", bad, "unknown")
    sys.exit(1 if bad + chip8() else 0)


if __name__ == "__main__":
    main()
