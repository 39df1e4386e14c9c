#!/usr/bin/env python3
"""Write rocq/theories/SrcText.v: the text of src/float.rs and src/float/*.rs, or
with a second argument SrcText2.v: the text of the other files.

Only lines that are nothing but a `//` comment, blank lines and everything from
the first `#[cfg(test)]` on are left out.
Usage: gen_src.py /repo > SrcText.v; gen_src.py /repo rest > SrcText2.v
"""
import os, sys

repo = sys.argv[1]
rest = len(sys.argv) > 2
names = sorted(
    os.path.relpath(os.path.join(d, f), os.path.join(repo, "src"))
    for d, _, fs in os.walk(os.path.join(repo, "src")) for f in fs if f.endswith(".rs"))
floats = ["float.rs"] + [n for n in names if n.startswith("float/")]
names = [n for n in names if n not in floats] if rest else floats
print('(** * Text of the files other than src/float.rs and src/float/*.rs' if rest
      else '(** * Text of src/float.rs and src/float/*.rs')
print('')
print('    Written by tools/gen_src.py, which copies the files and leaves out comment')
print('    lines, blank lines and the test modules; quotes are doubled, as Coq asks. *)')
print('')
print('From Coq Require Import String List.')
print('Import ListNotations.')
print('Open Scope string_scope.')
print('')
defs = []
for n in names:
    out = []
    for line in open(os.path.join(repo, "src", n), encoding="utf-8"):
        if line.startswith("#[cfg(test)]"):
            break
        if line.strip() == "" or line.strip().startswith("//"):
            continue
        out.append(line.rstrip("\n"))
    text = "\n".join(out) + "\n"
    assert text.isascii()
    d = "src_" + n[:-3].replace("/", "_")
    defs.append((d, n))
    print(f'(** src/{n} *)')
    print(f'Definition {d} : string := "{text.replace(chr(34), chr(34)*2)}".')
    print('')
print(f'Definition sources{2 if rest else ""} : list string :=')
print('  [ ' + ';\n    '.join(d for d, _ in defs) + ' ].')
