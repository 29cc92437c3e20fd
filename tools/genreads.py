#!/usr/bin/env python3
"""Rewrite rocq/theories/ModelOps6502.v (itself generated from /repo) so that
every bus read is a request to an outside world instead of a lookup in a map.
Writes rocq/theories/ModelOpsIo6502.v."""
import os, re
D = os.path.join(os.path.dirname(os.path.abspath(__file__)), "..", "rocq", "theories")
s = open(os.path.join(D, "ModelOps6502.v")).read()
head = '''(** Generated by tools/genreads.py from ModelOps6502.v.
    Model of src/cpu/mos6502/operations/mod.rs:337-840 and 880-4113 with bus
    reads as requests (ModelIo.v): same bodies, same order. Each definition
    cites the impl it translates; ProofBusMap.v proves that answering the
    requests from an address map gives the functions of ModelOps6502.v. *)
From Verif Require Import Base ModelMap ModelRegs6502 ModelCpu6502 ModelOperand ModelIsa6502 ModelIo.

Section Generate.
Context {D : Type}.
'''
body = s[s.index("(** src/cpu/mos6502/operations/mod.rs:880"):]
body = re.sub(r"\bgen_(\w+)", r"ask_\1", body)
body = re.sub(r"\bgenerate\b", "generate_io", body)
body = body.replace("res operations", "io operations").replace("do! ", "io! ")
body = body.replace("am_read p (amap cpu) ", "io_read ")
for f in ("page_from_u16", "add_u16"):
    body = re.sub(r"<- (%s [^;]*) ;" % f, r"<- io_lift (\1) ;", body)
for f in ("dereference_address_to_operand", "dereference_indexed_indirect_address",
          "dereference_indirect_indexed_address"):
    body = body.replace(f, f + "_io")
body = re.sub(r"\n  (branch_on_case [^.]*)\.\n", r"\n  io_lift (\1).\n", body)
body = body.replace("  Ok (", "  Ret (")
assert "Ok " not in body and "am_read" not in body and "Panic" not in body
open(os.path.join(D, "ModelOpsIo6502.v"), "w").write(head + "\n" + body)
