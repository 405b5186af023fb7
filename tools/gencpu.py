#!/usr/bin/env python3
"""Write the tables of one processor family as Coq data, with opcodes and operand modes.
Usage: gencpu.py CPU DEFS_MODULE OUTFILE
Rows are the macro calls of /repo/src/table_CPU.cpp, transliterated; the macros and the
enumerators they name are defined in DEFS_MODULE."""
import re, sys, os
sys.path.insert(0, os.path.dirname(__file__))
from gentables import strip, arrays, split_rows, text, q, S

def num(x):
    x = x.strip()
    m = re.fullmatch(r'0[0-7]+', x)
    if m: return str(int(x, 8))
    return x
def expr(x):
    x = x.strip().split('::')[-1]
    if re.fullmatch(r'TEXT_\w+', x): return q(text(x))
    if re.fullmatch(r'\w+', x): return num(x)
    if '|' in x:
        parts = [expr(p) for p in x.split('|')]
        r = parts[0]
        for p in parts[1:]: r = '(Z.lor %s %s)' % (r, p)
        return r
    return '(%s)' % x

def main():
    cpu, defs, out = sys.argv[1:4]
    w = ["(** Generated by tools/gencpu.py from /repo/src: the instruction tables of table_%s.cpp and the" % cpu,
         "    register names of reg_%s.cpp. *)" % cpu,
         "From Coq Require Import String ZArith List.",
         "From Verif Require Import M_Char M_Table %s." % defs,
         "Import ListNotations.",
         "Local Open Scope string_scope.", "Local Open Scope list_scope.", "Local Open Scope Z_scope.", ""]
    base = 'table_%s.cpp' % cpu
    arr = arrays(strip(open(S + base).read()))
    for n, (t, b, l0, l1) in arr.items():
        w.append("(* src/%s:%d-%d *)" % (base, l0, l1))
        if t == 'Entry':
            rows = split_rows(b)
            w.append("Definition %s : list entry := [" % n)
            w.append(";\n".join("  " + " ".join([m] + [expr(x) for x in r]) for m, r in rows) + "].")
        elif t == 'uint8_t':
            w.append("Definition %s : list Z := [%s]." % (n, "; ".join(re.findall(r'\b\d+\b', b))))
        elif t == 'EntryPage':
            pl = []
            for _, row in split_rows(b):
                rs = [re.fullmatch(r'ARRAY_RANGE\((\w+)\)', x) for x in row]
                rr = [m.group(1) for m in rs if m]
                rest = [expr(x) for x, m in zip(row, rs) if not m]
                info = 'tt' if not rest else rest[0] if len(rest) == 1 else '(%s)' % ', '.join(rest)
                pl.append("mkPage %s %s %s" % (info, *rr))
            w.append("Definition %s : list epage := [%s]." % (n, "; ".join(pl)))
        elif t == 'Cpu':
            rows = []
            for _, r in split_rows(b):
                a = ', '.join(r[2:])
                m = re.match(r'ARRAY_RANGE\((\w+)\)', a)
                if m: pg = m.group(1)
                else:
                    m = re.fullmatch(r'&(\w+)\[(\d+)\], &\1\[(\d+)\]', a)
                    pg = '(firstn %d (skipn %s %s))' % (int(m.group(3)) - int(m.group(2)), m.group(2), m.group(1))
                rows.append("(%s, %s, %s)" % (r[0], q(text(r[1])), pg))
            w.append("Definition %s : list (Z * string * list epage) := [%s]." % ('CPU_' + n if n in ('TABLE',) else n, ";\n  ".join(rows)))
        else: w.pop()
        if w[-1]: w.append("")
    base = 'reg_%s.cpp' % cpu
    if os.path.exists(S + base):
        for n, (t, b, l0, l1) in arrays(strip(open(S + base).read())).items():
            if t == 'NameEntry':
                w.append("(* src/%s:%d-%d *)" % (base, l0, l1))
                w.append("Definition %s : list (string * Z) := [%s]." % (n, "; ".join("(%s, %s)" % (q(text(r[0])), r[1]) for _, r in split_rows(b))))
                w.append("")
    open(out, 'w').write("\n".join(w) + "\n")
main()
