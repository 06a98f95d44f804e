#!/usr/bin/env python3
"""Write the lines of files of the repository as Rocq strings.

usage: embed.py REPO > SourceText.v             (operand.h, table.h, helper.cpp, parse.cpp and opcode.h)
       embed.py REPO context > SourceContext.v  (context.cpp)
"""
import sys

repo = sys.argv[1]
if sys.argv[2:] == ["context"]:
    name, what, files = "SourceContext", "context.cpp", [("context", "cpp")]
else:
    name, what = "SourceText", "operand.h, table.h, helper.cpp, parse.cpp and opcode.h"
    files = [("operand", "h"), ("table", "h"), ("helper", "cpp"), ("parse", "cpp"), ("opcode", "h")]
print(f"""(** * {name}: the lines of /repo/src/{what}, as they are.

    Generated by tools/embed.py; do not edit. *)
From Coq Require Import List String.
Import ListNotations.
Local Open Scope string_scope.
Local Open Scope list_scope.
""")
for n, x in files:
    ls = open(f"{repo}/src/{n}.{x}").read().split("\n")
    assert ls[-1] == ""
    print(f"(** /repo/src/{n}.{x}:1-{len(ls) - 1}. *)")
    print(f"Definition {n}_{x} : list string := [")
    print(";\n".join('  "' + l.replace('"', '""') + '"' for l in ls[:-1]))
    print("].\n")
