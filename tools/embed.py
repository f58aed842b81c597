#!/usr/bin/env python3
"""Write rocq/theories/Source.v and rocq/theories/SourceDefs.v: the files of /repo/src and /repo/tests, verbatim, as strings
of bytes.  With --check: compare instead of writing."""
import sys, os
repo = os.environ.get("REPO", "/repo")
theories = os.path.join(os.path.dirname(os.path.abspath(__file__)), "..", "rocq", "theories")
mods = ["lib", "macros", "whitespace", "term", "argument", "attribute", "common", "dictionary", "interface", "literal",
        "mixin", "namespace", "types"]
s = """(** * The source of the crate: the files of /repo/src, verbatim.

    Written by tools/embed.py; [tools/embed.py --check] compares this file with /repo. *)
From Coq Require Import String List.
Import ListNotations.
Open Scope string_scope.

"""
for m in mods:
    t = open(f"{repo}/src/{m}.rs").read()
    assert all(ord(c) < 128 for c in t)
    s += f"(** src/{m}.rs *)\nDefinition src_{m} : string := \"" + t.replace('"', '""') + "\".\n\n"
s += "(** The files by the name of the module. *)\nDefinition sources : list (string * string) := [\n  "
s += ";\n  ".join(f'("{m}", src_{m})' for m in mods) + "].\n"
defs = ["dom", "html", "interface-constructor", "mediacapture-streams", "streams", "webgpu"]
d = """(** * The integration tests of the crate: the files of /repo/tests, verbatim.

    Written by tools/embed.py; [tools/embed.py --check] compares this file with /repo. *)
From Coq Require Import String List.
Import ListNotations.
Open Scope string_scope.

"""
def quote(t):
    return "\"" + t.replace('"', '""') + "\""
def read(f):
    return open(f"{repo}/{f}").read()
def parts(t):                               # long literals overflow the stack of Coq
    r = [""]
    for line in t.splitlines(keepends=True):
        if len(r[-1]) > 10000: r.append("")
        r[-1] += line
    return "[" + "; ".join(quote(x) for x in r) + "]"
d += "(** tests/webidl.rs *)\nDefinition src_webidl : string := " + quote(read("tests/webidl.rs")) + ".\n\n"
for m in defs:
    n = m.replace("-", "_")
    d += f"(** tests/defs/{m}.webidl *)\nDefinition def_{n} : list string := " + parts(read(f"tests/defs/{m}.webidl")) + ".\n\n"
d += "(** The files by their paths in tests/webidl.rs, in parts. *)\nDefinition defs : list (string * list string) := [\n  "
d += ";\n  ".join(f'("./tests/defs/{m}.webidl", def_{m.replace("-", "_")})' for m in defs) + "].\n"
same = True
for name, text in [("Source.v", s), ("SourceDefs.v", d)]:
    out = os.path.join(theories, name)
    if "--check" in sys.argv:
        ok = open(out).read() == text
        print(name, "same" if ok else "DIFFERENT")
        same = same and ok
    else:
        open(out, "w").write(text)
sys.exit(0 if same else 1)
