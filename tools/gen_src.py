#!/usr/bin/env python3
"""Copy /repo/gen_repo/impl/prebuilt/{pol,unpol}/*.py verbatim into Coq string literals.

One literal per source line (the terminating newline of each line is dropped;
the script insists that every line ends in exactly one newline, is pure ASCII
and contains no double quote).  Nothing is interpreted.
Usage: tools/gen_src.py            (writes rocq/theories/Src*.v)
"""
import os
import sys

BASE = "/repo/gen_repo/impl/prebuilt"
OUT = os.path.join(os.path.dirname(os.path.abspath(__file__)), "..", "rocq", "theories")
CHUNK = 170_000  # bytes of source text per Coq file


def lines(kind, name):
  raw = open(os.path.join(BASE, kind, name + ".py"), "rb").read()
  assert raw.endswith(b"\n") and b'"' not in raw and b"\r" not in raw, (kind, name)
  text = raw.decode("ascii")
  return text[:-1].split("\n"), len(raw)


def main():
  pol = sorted(f[:-3] for f in os.listdir(os.path.join(BASE, "pol")) if f.endswith(".py"))
  unpol = sorted(f[:-3] for f in os.listdir(os.path.join(BASE, "unpol")) if f.endswith(".py"))
  assert pol == unpol
  chunks, cur, size = [], [], 0
  for n in pol:
    defs = []
    for kind in ("pol", "unpol"):
      ls, k = lines(kind, n)
      size += k
      body = ";\n".join('  "%s"' % l for l in ls)
      defs.append("(* gen_repo/impl/prebuilt/%s/%s.py *)\nDefinition %s_%s : list bstr := [\n%s]%%b.\n" %
                  (kind, n, kind, n, body))
    cur.append((n, "\n".join(defs)))
    if size > CHUNK:
      chunks.append(cur)
      cur, size = [], 0
  if cur:
    chunks.append(cur)
  head = ("(* Generated by tools/gen_src.py: verbatim text of the prebuilt programs. *)\n"
          "From Coq Require Import List.\nFrom Verif Require Import Bytes.\nImport ListNotations.\n\n")
  for i, c in enumerate(chunks):
    with open(os.path.join(OUT, "Src%d.v" % (i + 1)), "w") as f:
      f.write(head + "\n".join(d for _, d in c))
  with open(os.path.join(OUT, "Src.v"), "w") as f:
    f.write("(* Generated by tools/gen_src.py: the table of all prebuilt programs, in file-name order. *)\n"
            "From Coq Require Import List.\nFrom Verif Require Export Bytes %s.\nImport ListNotations.\n\n"
            % " ".join("Src%d" % (i + 1) for i in range(len(chunks))))
    f.write("(** A prebuilt functional: its name and the text of its polarized and\n"
            "    unpolarized programs. *)\n"
            "Record source := Source { src_name : bstr; src_pol : list bstr; src_unpol : list bstr }.\n\n")
    for n in pol:
      f.write('Definition f_%s : source := Source "%s" pol_%s unpol_%s.\n' % (n, n, n, n))
    f.write("\nDefinition all_sources : list source := [\n  %s].\n" % ";\n  ".join("f_" + n for n in pol))
  # Parsed programs: computed by Coq, with a kernel-checked equation for each.
  for i, c in enumerate(chunks):
    with open(os.path.join(OUT, "Ast%d.v" % (i + 1)), "w") as f:
      f.write("(* Generated by tools/gen_src.py: the generated programs of Src%d.v, evaluated once. *)\n"
              "From Coq Require Import List QArith.\n"
              "From Verif Require Import Bytes Syntax Parser PostProcess PostFast Src.\nImport ListNotations.\n\n"
              % (i + 1))
      for n, _ in c:
        for kind in ("pol", "unpol"):
          x = "%s_%s" % (kind, n)
          f.write("Definition ast_%s : program := Eval vm_compute in from_some (generated_fast %s).\n" % (x, x))
          f.write("Lemma gen_%s : generated %s = Some ast_%s.\n"
                  "Proof. apply by_fast. vm_cast_no_check (eq_refl (Some ast_%s)). Qed.\n" % (x, x, x, x))
  with open(os.path.join(OUT, "Ast.v"), "w") as f:
    f.write("(* Generated by tools/gen_src.py: the table of all generated programs. *)\n"
            "From Coq Require Import List.\n"
            "From Verif Require Import Bytes Syntax Parser PostProcess Src %s.\nImport ListNotations.\n\n"
            % " ".join("Ast%d" % (i + 1) for i in range(len(chunks))))
    f.write("Record compiled := Compiled {\n  c_src : source; c_pol : program; c_unpol : program;\n"
            "  c_pol_ok : generated (src_pol c_src) = Some c_pol;\n"
            "  c_unpol_ok : generated (src_unpol c_src) = Some c_unpol }.\n\n")
    for n in pol:
      f.write("Definition a_%s : compiled :=\n  Compiled f_%s ast_pol_%s ast_unpol_%s gen_pol_%s gen_unpol_%s.\n"
              % (n, n, n, n, n, n))
    f.write("\nDefinition all_compiled : list compiled := [\n  %s].\n" % ";\n  ".join("a_" + n for n in pol))
    f.write("\nLemma all_compiled_sources : map c_src all_compiled = all_sources.\nProof. reflexivity. Qed.\n")
  print(len(pol), "functionals,", len(chunks), "files")


if __name__ == "__main__":
  sys.exit(main())
