#!/usr/bin/env python3
"""Writes rocq/theories/CameraData.v from the camera files of the repository.

Joins the files the way data/cameras/join.rs does and parses the result."""
import glob, tomllib
files = sorted(glob.glob('/repo/data/cameras/*/**/*.toml', recursive=True), key=lambda f: f.split('/'))
text = "".join("[[cameras]]\n" + open(f).read() + "\n" for f in files)
cams = tomllib.loads(text)["cameras"]
assert len(cams) == len(files)
def val(v):
    if isinstance(v, bool): raise ValueError(v)
    if isinstance(v, str):
        assert '"' not in v and v.isascii(), v
        return f'VStr "{v}"'
    if isinstance(v, int):
        return f"VInt {v}" if v >= 0 else f"VInt ({v})"
    if isinstance(v, list): return "VArr [" + "; ".join(map(val, v)) + "]"
    if isinstance(v, dict): return "VTable " + table(v)
    raise ValueError(v)
def table(t): return "[" + "; ".join(f'("{k}", {val(v)})' for k, v in t.items()) + "]"
out = ['''(** The camera files of data/cameras, in the order in which data/cameras/join.rs
    joins them.  Written by tools/cameras.py. *)
From Coq Require Import String ZArith List.
From Verif Require Import Base Camera.
Import ListNotations.
Local Open Scope Z_scope.
Local Open Scope string_scope.
''']
for i, (f, c) in enumerate(zip(files, cams)):
    out.append(f"(** {f[len('/repo/'):]} *)\nDefinition cam_{i} : table :=\n  {table(c)}.")
out.append("Definition shipped : list table :=\n  [" + ";\n   ".join("; ".join(f"cam_{j}" for j in range(i, min(i + 12, len(cams)))) for i in range(0, len(cams), 12)) + "].")
open('/verif/rocq/theories/CameraData.v', 'w').write("\n".join(out) + "\n")
