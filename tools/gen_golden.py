#!/usr/bin/env python3
"""Generates rocq/theories/Golden.v, the repository's own test-suite
(tests/CMakeLists.txt) as a list of expected outputs for the model.
Usage: gen_golden.py /repo /verif/rocq/theories"""
import re, sys
repo, out = sys.argv[1], sys.argv[2]
s = open(repo + '/tests/CMakeLists.txt').read()
def block(name):
    a = s.index('set(%s' % name)
    body = s[a:]
    res = []
    for l in body.split('\n')[1:]:
        if l.strip() == ')': break
        m = re.match(r'\s*"(.*)"\s*(#.*)?$', l)
        if m: res.append(m.group(1))
        else: assert not l.strip() or l.strip().startswith('#'), l
    return res
good = [(t.split(' ', 1)[0], t.split(' ', 1)[1]) for t in block('tests')]
bad = block('failure_tests')
f = open(out + '/Golden.v', 'w')
f.write('''(** * Golden: the repository's own test-suite run on the model.

    Generated by tools/gen_golden.py from /repo/tests/CMakeLists.txt; do not
    edit.  These are TESTS of the fidelity of the model, not proofs of any
    property: the real assembler passes them, so must the model.  The checks
    run while this file is compiled and leave no proof term behind; no other
    file depends on them. *)
From Verif Require Import Base Lexer Operand Parse Assemble.
Local Open Scope string_scope.
Local Open Scope list_scope.
Open Scope N_scope.

(** tests/tester.cpp:16-38: append ';' and compare the second word. *)
Definition test_passes (t : N * string) : bool :=
  match assemble true (lit (snd t) ++ lit ";") with
  | Ok (_ :: w :: _) => N.eqb w (fst t)
  | _ => false
  end.
(** WILL_FAIL tests: the process exits with a diagnostic. *)
Definition failure_passes (t : string) : bool :=
  match assemble true (lit t ++ lit ";") with Fatal _ => true | _ => false end.

Definition golden_tests : list (N * string) := [
''')
f.write(';\n'.join('  (%s, "%s")' % (a, b) for a, b in good))
f.write('\n].\n\nDefinition failure_tests : list string := [\n')
f.write(';\n'.join('  "%s"' % b for b in bad))
f.write('''
].

(** Fail the build unless every test passes. *)
Goal True.
  let r := eval vm_compute in (List.filter (fun t => negb (test_passes t)) golden_tests) in
  match r with [] => idtac | _ => idtac r; fail 1 "golden tests failed" end.
  let r := eval vm_compute in (List.filter (fun t => negb (failure_passes t)) failure_tests) in
  match r with [] => idtac | _ => idtac r; fail 1 "failure tests failed" end.
  exact I.
Qed.
''')
f.close()
print(len(good), len(bad))
