#!/usr/bin/env python3
"""Transcribes the numeric tables of the crate into Coq.

Every literal becomes the exact decimal pair (mantissa, exponent of ten).
Usage: gen_tables.py REPO THEORIES
Writes T_Epv00.v, T_Nut.v, T_Cio.v, T_Tests.v, T_TestsRot.v, T_TestsBp.v, T_TestsCio.v and fills the DAT_DATA table of M_DeltaAt.v
(if it still contains the placeholder)."""
import re, sys
repo, out = sys.argv[1], sys.argv[2]
src = repo + "/crates/tofas/src/"

def dec(s):
    s = s.strip().lower()
    m = re.fullmatch(r"(-?)\s*(\d+)(?:\.(\d*))?(?:e([+-]?\d+))?", s)
    assert m, s
    sign, ip, fp, ex = m.groups()
    fp = fp or ""
    man = int(ip + fp)
    e = int(ex or 0) - len(fp)
    while man and man % 10 == 0 and e < 0:
        man //= 10
        e += 1
    if man == 0:
        e = 0
    return (-man if sign else man), e

def d(s):
    m, e = dec(s)
    return "(%s, %s)" % (str(m) if m >= 0 else "(%d)" % m, str(e) if e >= 0 else "(%d)" % e)

def z(n):
    n = int(n)
    return str(n) if n >= 0 else "(%d)" % n

def strip_comments(t):
    return re.sub(r"//[^\n]*", "", t)

def parse_array(text):
    """Parses nested [...] of literals into nested lists of strings."""
    pos = 0
    def skip():
        nonlocal pos
        while pos < len(text) and text[pos] in " \t\r\n,":
            pos += 1
    def val():
        nonlocal pos
        skip()
        if text[pos] == "[":
            pos += 1
            r = []
            while True:
                skip()
                if text[pos] == "]":
                    pos += 1
                    return r
                r.append(val())
        m = re.compile(r"[-+0-9.eE]+").match(text, pos)
        pos = m.end()
        return m.group(0)
    return val()

def const(text, name):
    m = re.search(r"const\s+%s\s*:[^=]*=\s*&?\s*" % name, text)
    return parse_array(text[m.end():])

HEAD = """(** * %s

    Generated by tools/gen_tables.py from %s; every literal is the exact
    decimal (mantissa, exponent of ten) of the source. *)

From Coq Require Import ZArith List.
Import ListNotations.
Open Scope Z_scope.

"""

# epv00
t = strip_comments(open(src + "epv00_data.rs").read())
with open(out + "/T_Epv00.v", "w") as f:
    f.write(HEAD % ("Tables of crates/tofas/src/epv00_data.rs", "crates/tofas/src/epv00_data.rs"))
    for n in ["E0", "E1", "E2", "S0", "S1", "S2"]:
        a = const(t, n)
        f.write("(** epv00_data.rs [%s] : [[[R;3];%d];3] *)\n" % (n, len(a[0])))
        parts = []
        for q, block in enumerate(a):
            assert all(len(r) == 3 for r in block)
            f.write("Definition %s_%d : list (list (Z * Z)) := [\n" % (n, q))
            f.write(";\n".join("  [%s]" % "; ".join(d(x) for x in row) for row in block))
            f.write("\n].\n")
        f.write("Definition %s : list (list (list (Z * Z))) := [%s].\n\n" % (n, "; ".join("%s_%d" % (n, q) for q in range(len(a)))))

# nutation
t = strip_comments(open(src + "frames.rs").read())
with open(out + "/T_Nut.v", "w") as f:
    f.write(HEAD % ("Nutation tables of crates/tofas/src/frames.rs", "crates/tofas/src/frames.rs:92-250"))
    a = const(t, "NALS")
    f.write("(** frames.rs:92-170 [NALS], i8 *)\nDefinition NALS : list (list Z) := [\n")
    f.write(";\n".join("  [%s]" % "; ".join(z(x) for x in r) for r in a) + "\n].\n\n")
    a = const(t, "CLS")
    f.write("(** frames.rs:172-250 [CLS] *)\nDefinition CLS : list (list (Z * Z)) := [\n")
    f.write(";\n".join("  [%s]" % "; ".join(d(x) for x in r) for r in a) + "\n].\n")

# cio
t = strip_comments(open(src + "locator.rs").read())
with open(out + "/T_Cio.v", "w") as f:
    f.write(HEAD % ("CIO locator tables of crates/tofas/src/locator.rs", "crates/tofas/src/locator.rs:18-204"))
    a = const(t, "SP")
    f.write("(** locator.rs:18-25 [SP] *)\nDefinition SP : list (Z * Z) := [%s].\n\n" % "; ".join(d(x) for x in a))
    for k in range(5):
        a = const(t, "KS%d" % k)
        f.write("(** locator.rs [KS%d], i8 *)\nDefinition KS%d : list (list Z) := [\n" % (k, k))
        f.write(";\n".join("  [%s]" % "; ".join(z(x) for x in r) for r in a) + "\n].\n\n")
    for k in range(5):
        a = const(t, "SS%d" % k)
        f.write("(** locator.rs [SS%d] *)\nDefinition SS%d : list (list (Z * Z)) := [\n" % (k, k))
        f.write(";\n".join("  [%s]" % "; ".join(d(x) for x in r) for r in a) + "\n].\n\n")
    f.write("(** locator.rs:190-196 [KSS] *)\nDefinition KSS : list (list (list Z)) := [KS0; KS1; KS2; KS3; KS4].\n")
    f.write("(** locator.rs:198-204 [SSS] *)\nDefinition SSS : list (list (list (Z * Z))) := [SS0; SS1; SS2; SS3; SS4].\n")

# delta_at
t = open(src + "delta_at.rs").read()
rows = re.findall(r"DatData \{ year:(\d+),month:(\d+),dat:([\d.]+),drift:(None|Some\(\[([\d.]+),([\d.]+)\]\)) \}", t)
lines = []
for y, m, v, dr, d0, d1 in rows:
    lines.append("  MkDat %s %s %s %s" % (y, m, d(v), "None" if dr == "None" else "(Some (%s, %s))" % (d(d0), d(d1))))
p = out + "/M_DeltaAt.v"
s = open(p).read()
if "@@DAT@@" in s:
    open(p, "w").write(s.replace("@@DAT@@", ";\n".join(lines)))
else:
    assert ";\n".join(lines) in s, "DAT_DATA in M_DeltaAt.v differs from the source"
print(len(rows), "delta_at rows")

# reference values of the tests that do not call libm
rows = open(src + "test_data.rs").read().split("\n")
with open(out + "/T_Tests.v", "w") as f:
    f.write(HEAD % ("Reference values of crates/tofas/src/test_data.rs", "crates/tofas/src/test_data.rs:16010-17011, 17012-18013"))
    for n in ["ERA00", "PR00"]:
        i = next(k for k, l in enumerate(rows) if n + "_DATA" in l)
        j = next(k for k in range(i, len(rows)) if rows[k].strip() == "];")
        f.write("(** test_data.rs:%d-%d [%s_DATA] *)\nDefinition %s_DATA : list (list (Z * Z)) := [\n" % (i + 1, j + 1, n, n))
        f.write(";\n".join("  [%s]" % "; ".join(d(x) for x in re.findall(r"[-+0-9.eE]+", l)) for l in rows[i+1:j]) + "\n].\n\n")

# reference values of the tests of matrices made of three elementary rotations
with open(out + "/T_TestsRot.v", "w") as f:
    f.write(HEAD % ("Reference matrices of crates/tofas/src/test_data.rs", "crates/tofas/src/test_data.rs:2-1003, 2006-6007"))
    for n in ["POM00", "NUMAT"]:
        i = next(k for k, l in enumerate(rows) if n + "_DATA" in l)
        j = next(k for k in range(i, len(rows)) if rows[k].strip() == "];")
        x = re.findall(r"[-+0-9.eE]+", " ".join(rows[i+1:j]))
        assert len(x) == 12000
        f.write("(** test_data.rs:%d-%d [%s_DATA] *)\nDefinition %s_DATA : list (list (Z * Z)) := [\n" % (i + 1, j + 1, n, n))
        f.write(";\n".join("  [%s]" % "; ".join(d(y) for y in x[k:k+12]) for k in range(0, 12000, 12)) + "\n].\n\n")

# reference values of the test of bias and precession
with open(out + "/T_TestsBp.v", "w") as f:
    f.write(HEAD % ("Reference matrices of bias and precession of crates/tofas/src/test_data.rs", "crates/tofas/src/test_data.rs:6008-16009"))
    i = next(k for k, l in enumerate(rows) if "BP00_DATA" in l)
    j = next(k for k in range(i, len(rows)) if rows[k].strip() == "];")
    x = re.findall(r"[-+0-9.eE]+", " ".join(rows[i+1:j]))
    assert len(x) == 29000
    f.write("(** test_data.rs:%d-%d [BP00_DATA] *)\nDefinition BP00_DATA : list (list (Z * Z)) := [\n" % (i + 1, j + 1))
    f.write(";\n".join("  [%s]" % "; ".join(d(y) for y in x[k:k+29]) for k in range(0, 29000, 29)) + "\n].\n")

# reference values of the test of the matrix from celestial to terrestrial coordinates out of its components
with open(out + "/T_TestsCio.v", "w") as f:
    f.write(HEAD % ("Reference matrices from celestial to terrestrial coordinates of crates/tofas/src/test_data.rs", "crates/tofas/src/test_data.rs:26018-36019"))
    i = next(k for k, l in enumerate(rows) if "C2TCIO_DATA" in l)
    j = next(k for k in range(i, len(rows)) if rows[k].strip() == "];")
    x = re.findall(r"[-+0-9.eE]+", " ".join(rows[i+1:j]))
    assert len(x) == 28000 and (i + 1, j + 1) == (26018, 36019)
    f.write("(** test_data.rs:%d-%d [C2TCIO_DATA] *)\nDefinition C2TCIO_DATA : list (list (Z * Z)) := [\n" % (i + 1, j + 1))
    f.write(";\n".join("  [%s]" % "; ".join(d(y) for y in x[k:k+28]) for k in range(0, 28000, 28)) + "\n].\n")
