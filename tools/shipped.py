#!/usr/bin/env python3
"""Write theories/Shipped/{BLines,DLines,BTables,DTables,Depths,Catalog}.v from the files of a
tables directory.  Usage: shipped.py TABLES_DIR THEORIES/Shipped

Every distinct line becomes a named literal; a table is the list of its lines.  Depths.v
holds, for each table D without cycles, the nesting depth of the sequences deeper than 1:
a certificate that Coq checks."""
import os, sys

src, out = sys.argv[1], sys.argv[2]
HEAD = "(** Generated by tools/shipped.py from %s. *)\n"


def literal(line):
    s = line.decode("utf8")
    if s.endswith("\r"):
        return "cr " + '"' + s[:-1].replace('"', '""') + '"'
    return '"' + s.replace('"', '""') + '"'


def write(name, text):
    with open(os.path.join(out, name), "w", encoding="utf8", newline="") as f:
        f.write(text)


def fcode(s):
    return {"0": 0, "1": 1, "2": 2, "3": 3, "B": 0, "R": 1, "C": 2, "D": 3}[s[0]] << 14 | int(s[1:3]) << 8 | int(s[3:6])


def sequences(lines):
    res = []
    for l in lines:
        if l[1:2] != b" ":
            res.append((fcode(l[1:7].decode()), [fcode(l[7:].split()[1].decode())]))
        else:
            res[-1][1].append(fcode(l[11:17].decode()))
    return res


def depths(seqs):
    d = {c: 1 for c, _ in seqs}
    for _ in range(40):
        changed = False
        for c, body in seqs:
            n = 1 + max(0 if e < 49152 else d.get(e, 1) for e in body)
            if d[c] < n:
                d[c] = n
                changed = True
        if not changed:
            return sorted((c, n) for c, n in d.items() if n > 1)
    return None


catalog = HEAD % "the names of the files of /repo/tables"
catalog += "From Coq Require Import List String.\nFrom Verif Require Import Shipped.Text Shipped.BTables Shipped.DTables.\nImport ListNotations.\nLocal Open Scope string_scope.\n"
for kind in "BD":
    names = {}
    order = []
    files = {}
    tables = []
    certs = []
    for f in sorted(os.listdir(src)):
        if f[0] != kind or not f.endswith(".txt"):
            continue
        content = open(os.path.join(src, f), "rb").read()
        ident = f[:-4]
        if content in files:
            tables.append((ident, files[content], None))
            continue
        files[content] = ident
        lines = content.split(b"\n")
        assert lines.pop() == b""
        for l in lines:
            if l not in names:
                names[l] = "%s%d" % (kind.lower(), len(names))
                order.append(l)
        tables.append((ident, None, [names[l] for l in lines]))
        if kind == "D":
            certs.append((ident, depths(sequences(lines))))
    text = HEAD % ("the files of /repo/tables: tables " + kind)
    text += "From Verif Require Import Shipped.Text.\nLocal Open Scope text_scope.\n\n"
    text += "".join("Definition %s : text := %s.\n" % (names[l], literal(l)) for l in order)
    write(kind + "Lines.v", text)
    text = HEAD % ("the files of /repo/tables: tables " + kind)
    text += "From Coq Require Import List.\nFrom Verif Require Import Shipped.Text Shipped.%sLines.\nImport ListNotations.\n" % kind
    for ident, same, refs in tables:
        if same:
            text += "\nDefinition %s : list text := %s.\n" % (ident, same)
        else:
            rows = ["; ".join(refs[i:i + 16]) for i in range(0, len(refs), 16)]
            text += "\nDefinition %s : list text := [\n%s].\n" % (ident, ";\n".join(rows))
    write(kind + "Tables.v", text)
    catalog += "\n(** The tables %s: name of the file and lines. *)\nDefinition shipped_%s : list (string * list text) := [\n%s].\n" % (
        kind, kind.lower(), ";\n".join('  ("%s.txt", %s)' % (t[0], t[0]) for t in tables))
    if kind == "D":
        text = HEAD % "the files of /repo/tables"
        text += "From Coq Require Import List ZArith String.\nImport ListNotations.\nLocal Open Scope string_scope.\nLocal Open Scope Z_scope.\n"
        for ident, cert in certs:
            if cert is not None:
                text += "\nDefinition depths_%s : list (Z * nat) := [\n%s].\n" % (
                    ident, ";\n".join("; ".join("(%d, %d%%nat)" % p for p in cert[i:i + 10]) for i in range(0, len(cert), 10)))
            else:
                print("cycle in", ident)
        same = dict((t[0], t[1] or t[0]) for t in tables)
        known = dict(certs)
        text += "\nDefinition depth_lists : list (string * list (Z * nat)) := [\n%s].\n" % ";\n".join(
            '  ("%s.txt", depths_%s)' % (t[0], same[t[0]]) for t in tables if known[same[t[0]]] is not None)
        write("Depths.v", text)
write("Catalog.v", catalog)
