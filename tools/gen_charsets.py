#!/usr/bin/env python3
"""Generates rocq/theories/CharsetTables.v from /repo/encoding/gsm7/charset/*.go."""
import re, os, glob
SRC = "/repo/encoding/gsm7/charset"
OUT = os.path.join(os.path.dirname(os.path.abspath(__file__)), "..", "rocq", "theories", "CharsetTables.v")
ESC = {'n':10,'r':13,'f':12,'t':9,'\\':92,"'":39,'"':34,'a':7,'b':8,'v':11}
def rune(lit):
    lit = lit.strip()
    if lit.startswith("0x"):
        return int(lit, 16)
    assert lit[0] == "'" and lit[-1] == "'", lit
    b = lit[1:-1]
    if len(b) == 1:
        return ord(b)
    assert b[0] == '\\', repr(lit)
    if b[1] == 'u':
        assert len(b) == 6
        return int(b[2:], 16)
    if b[1] == 'x':
        return int(b[2:], 16)
    assert len(b) == 2
    return ESC[b[1]]
def gostr(s):
    out = []; i = 0
    while i < len(s):
        c = s[i]
        if c == '\\':
            if s[i+1] == 'x':
                out.append(int(s[i+2:i+4], 16)); i += 4
            else:
                out.append(ESC[s[i+1]]); i += 2
        else:
            out.append(ord(c)); i += 1
    return out
defs = []
for f in sorted(glob.glob(SRC + "/*.go")):
    base = os.path.basename(f)
    if base.endswith("_test.go") or base == "charset.go":
        continue
    lines = open(f, encoding="utf-8").read().split("\n")
    i = 0
    while i < len(lines):
        m = re.match(r"\s*(\w+)\s*=\s*Decoder\{$", lines[i])
        if m:
            start = i + 1; ents = []; i += 1
            while lines[i].strip() != "}":
                l = re.sub(r"\s+//.*$", "", lines[i]).strip()
                if l and not l.startswith("//"):
                    # one or more entries per line
                    pos = 0
                    while pos < len(l):
                        mm = re.compile(r"\s*(0x[0-9a-fA-F]+):\s*('(?:\\.[0-9a-fA-F]*|[^'\\])'|0x[0-9a-fA-F]+),").match(l, pos)
                        assert mm, (base, l[pos:])
                        ents.append((int(mm.group(1), 16), rune(mm.group(2))))
                        pos = mm.end()
                i += 1
            keys = [k for k, _ in ents]
            assert len(set(keys)) == len(keys)
            defs.append((m.group(1), base, start, i + 1, "map", ents))
        m = re.match(r"\s*(\w+)\s*=\s*\[\]rune\($", lines[i])
        if m:
            start = i + 1; txt = ""; i += 1
            while True:
                mm = re.match(r'\s*"((?:\\.|[^"\\])*)"( \+|\))$', lines[i])
                assert mm, lines[i]
                txt += mm.group(1)
                if mm.group(2) == ")":
                    break
                i += 1
            rs = gostr(txt)
            assert len(rs) == 128, (base, len(rs))
            defs.append((m.group(1), base, start, i + 1, "runes", rs))
        i += 1
with open(OUT, "w") as o:
    o.write("(** Generated by tools/gen_charsets.py from encoding/gsm7/charset/*.go. Do not edit.\n"
            "    A Go map literal is the list of its (key, value) entries in source order;\n"
            "    a rune string is the list of its runes. *)\n"
            "From Coq Require Import List ZArith.\nImport ListNotations.\nOpen Scope Z_scope.\n\n")
    for name, base, a, b, kind, v in defs:
        o.write("(** encoding/gsm7/charset/%s:%d-%d [%s] *)\n" % (base, a, b, name))
        if kind == "map":
            o.write("Definition %s : list (Z * Z) :=\n  [" % name)
            items = ["(%d,%d)" % e for e in v]
        else:
            o.write("Definition %s : list Z :=\n  [" % name)
            items = [str(x) for x in v]
        line = ""; res = []
        for k, it in enumerate(items):
            t = it + ("; " if k + 1 < len(items) else "")
            if len(line) + len(t) > 72:
                res.append(line.rstrip()); line = ""
            line += t
        res.append(line)
        o.write("\n   ".join(res) + "].\n\n")
for d in defs: print(d[0], d[1], d[2], d[3], d[4], len(d[5]))
