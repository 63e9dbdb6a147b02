#!/usr/bin/env python3
"""Writes rocq/theories/Sources.v: the LASM sources of the examples, copied from /repo byte for byte."""
import os
repo = os.environ.get("REPO", "/repo")
here = os.path.dirname(os.path.dirname(os.path.abspath(__file__)))
files = [("benchmark_source", "examples/benchmark/src/source.lasm"),
         ("hello_source", "examples/hello_world/src/display.lasm"),
         ("hw_detect_source", "examples/hw_detect/src/source.lasm"),
         ("brainfuck_source", "examples/brainfuck/src/source.lasm"),
         ("disassemble_source", "examples/disassemble/src/source.lasm"),
         ("async_source", "examples/async_hw/src/source.lasm"),
         ("demo_source", "lrvm_tools/src/tests/demo.lasm")]
out = ["(** The assembly sources of the examples, as they are in /repo. GENERATED by tools/gen_sources.py; do not edit. *)",
       "From Coq Require Import String.", "Open Scope string_scope.", ""]
for name, path in files:
    text = open(os.path.join(repo, path), newline="").read()
    n = text.count("\n")
    assert all(ord(c) < 128 for c in text), path
    out.append("(** %s:1-%d. *)" % (path, n))
    out.append("Definition %s : string := \"%s\"." % (name, text.replace('"', '""')))
    out.append("")
# the source in a string constant of the elapsed_time example
rs = open(os.path.join(repo, "examples/elapsed_time/src/main.rs"), newline="").read()
start = rs.index('LASM_SOURCE: &str = "') + len('LASM_SOURCE: &str = "')
text = rs[start:rs.index('";', start)]
out.append("(** examples/elapsed_time/src/main.rs:%d-%d. *)" % (rs[:start].count("\n") + 1, rs[:start].count("\n") + 1 + text.count("\n")))
out.append("Definition elapsed_source : string := \"%s\"." % text)
out.append("")
open(os.path.join(here, "rocq/theories/Sources.v"), "w").write("\n".join(out))
