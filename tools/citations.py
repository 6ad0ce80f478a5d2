#!/usr/bin/env python3
"""Check that every "file.go:lines [Symbol]" citation in the model points at the symbol in /repo."""
import re, os, sys, glob
bad = n = 0
for f in sorted(glob.glob("/verif/rocq/theories/*.v")):
    src = open(f).read()
    for com in re.finditer(r"\(\*.*?\*\)", src, re.S):
        t = re.sub(r"\s+", " ", com.group(0))
        cur = None
        for m in re.finditer(r"([A-Za-z0-9_/]+\.go)(?::([0-9]+)(?:-([0-9]+))?)?|\b(?:and )?([0-9]+)-([0-9]+)\b(?= \[)|\[([A-Za-z0-9_.]+)\]", t):
            if m.group(1):
                p = "/repo/" + m.group(1)
                n += 1
                if not os.path.exists(p):
                    print(f, "no file", m.group(0)); bad += 1; cur = None; continue
                lines = open(p).read().split("\n")
                a = int(m.group(2) or 0); b = int(m.group(3) or a)
                if b > len(lines) or b < a:
                    print(f, "range", m.group(0)); bad += 1
                cur = (lines, a, b, m.group(0)) if a else None
            elif m.group(4):
                if cur: cur = (cur[0], int(m.group(4)), int(m.group(5)), m.group(0))
            elif m.group(6) and cur:
                s = m.group(6).split(".")[-1]
                seg = "\n".join(cur[0][cur[1]-1:cur[2]])
                if not re.search(r"\b" + re.escape(s) + r"\b", seg):
                    print(os.path.basename(f), cur[3], "->", m.group(6)); bad += 1
print(n, "citations,", bad, "suspicious")
