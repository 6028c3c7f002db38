#!/usr/bin/env python3
"""Emit a Coq record with one setter per field: genrec.py name Ctor prefix field:type ..."""
import sys
def gen(name, ctor, fields):
    out = [f"Record {name} : Type := {ctor} {{"]
    out.append(";\n".join(f"  {f} : {t}" for f, t in fields))
    out.append("}.")
    for i, (f, t) in enumerate(fields):
        args = " ".join("v" if j == i else f"({g} r)" for j, (g, _) in enumerate(fields))
        out.append(f"Definition set_{f} (r : {name}) (v : {t}) : {name} := {ctor} {args}.")
    return "\n".join(out)
if __name__ == "__main__":
    fs = [tuple(a.split(":", 1)) for a in sys.argv[3:]]
    print(gen(sys.argv[1], sys.argv[2], fs))
