#!/usr/bin/env python3
"""Extract the instruction, index, register-name and directive tables of /repo/src as Coq data.
Usage: gentables.py OUTFILE   (prints a summary)"""
import re, glob, os, sys
S = '/repo/src/'

def blank(m):
    return re.sub(r'[^\n]', ' ', m.group(0))

def strip(s):
    """Remove comments, keeping line numbers."""
    s = re.sub(r'/\*.*?\*/', blank, s, flags=re.S)
    s = re.sub(r'//[^\n]*', '', s)
    # host configuration: no LIBASM_* option is defined
    out, stack = [], [True]
    for l in s.split('\n'):
        m = re.match(r'\s*#\s*(if|ifdef|ifndef|elif|else|endif)\b(.*)', l)
        if m:
            k, e = m.groups()
            if k == 'if': stack.append(bool(eval(re.sub(r'defined\(\w+\)', 'False', e).replace('&&', ' and ').replace('||', ' or ').replace('!', ' not ').strip())))
            elif k == 'ifndef': stack.append(True)
            elif k == 'ifdef': stack.append(False)
            elif k == 'else': stack[-1] = not stack[-1]
            elif k == 'elif': stack[-1] = False    # never the chosen branch here
            else: stack.pop()
            out.append('')
        else:
            out.append(l if all(stack) else '')
    return '\n'.join(out)

def texts():
    m = {}
    for f in sorted(glob.glob(S + 'text_*.cpp') + glob.glob(S + 'asm_*.cpp')):
        for n, v in re.findall(r'constexpr char ((?:TEXT|PSTR)_\w+)\[\]\s*PROGMEM\s*=\s*"((?:[^"\\]|\\.)*)"', open(f).read()):
            m.setdefault(n, set()).add(v)
    return m

T = texts()
def text(n):
    vs = T[n]
    assert len({v.lower() for v in vs}) == 1, (n, vs)
    v = min(vs)          # the upper-case spelling where both exist
    assert '\\' not in v and '"' not in v
    return v

def arrays(s):
    """name -> (element type, body, first line, last line)"""
    out = {}
    for m in re.finditer(r'constexpr (\w+) (\w+)\[\](?: PROGMEM)?(?: =)? \{(.*?)\n\s*\};', s, flags=re.S):
        a = s.count('\n', 0, m.start()) + 1
        b = s.count('\n', 0, m.end()) + 1
        out[m.group(2)] = (m.group(1), m.group(3), a, b)
    return out

def split_rows(body):
    """Macro rows  NAME(a, b, ...)  at top level."""
    rows, i = [], 0
    while True:
        m = re.compile(r'\s*,?\s*(\w*)\s*([({])').match(body, i)
        if not m: break
        d, j = 1, m.end()
        while d:
            if body[j] in '({': d += 1
            if body[j] in ')}': d -= 1
            j += 1
        rows.append((m.group(1), [x.strip() for x in body[m.end():j-1].split(',')]))
        i = j
    assert body[i:].strip(' \n,') == '', body[i:i+80]
    return rows

def q(s): return '"%s"' % s.replace('"', '""')

def load():
    tables, pages, cpus, regs, pseudos = [], [], [], [], []
    for f in sorted(glob.glob(S + 'table_*.cpp')):
        base = os.path.basename(f)
        cpu = base[6:-4]
        arr = arrays(strip(open(f).read()))
        seen = {}
        for n, (t, b, l0, l1) in arr.items():
            if t == 'EntryPage':
                pl = []
                for mac, row in split_rows(b):
                    rs = [re.fullmatch(r'ARRAY_RANGE\((\w+)\)', x) for x in row]
                    rr = [m.group(1) for m in rs if m]
                    rest = [x for x, m in zip(row, rs) if not m]
                    assert len(rr) == 2, (base, n, row)
                    key = tuple(rr)
                    if key not in seen:
                        ents = []
                        for mac2, r in split_rows(arr[rr[0]][1]):
                            names = [k for k, x in enumerate(r) if x.startswith('TEXT_')]
                            assert len(names) == 1, (base, rr, r)
                            k = names[0]
                            shape = mac2 + '(' + ','.join(r[1:k] + r[k+1:] if k else r[1:]) + ')'
                            ents.append((text(r[k]), shape, r[0] if k else ''))
                        idx = [int(x) for x in re.findall(r'\d+', arr[rr[1]][1])]
                        seen[key] = len(tables)
                        tables.append((cpu, rr[0], rr[1], base, arr[rr[0]][2:], arr[rr[1]][2:], ents, idx))
                    pl.append((rest, seen[key]))
                pages.append((cpu, n, base, (l0, l1), pl))
        for n, (t, b, l0, l1) in arr.items():
            if t in ('Cpu', 'Fpu', 'Mmu'):
                for _, r in split_rows(b):
                    a = ', '.join(r[2:])
                    m = re.match(r'(ARRAY|EMPTY)_RANGE\((\w+)\)', a)
                    if m:
                        pl = [x for x in pages if x[0] == cpu and x[1] == m.group(2)][0][4]
                        if m.group(1) == 'EMPTY': pl = []
                    else:
                        m = re.fullmatch(r'&(\w+)\[(\d+)\], &\1\[(\d+)\]', a)
                        pl = [x for x in pages if x[0] == cpu and x[1] == m.group(1)][0][4][int(m.group(2)):int(m.group(3))]
                    cpus.append((cpu, n, base, (l0, l1), r[0], text(r[1]), [i for _, i in pl]))
    for f in sorted(glob.glob(S + 'reg_*.cpp')):
        base = os.path.basename(f)
        for n, (t, b, l0, l1) in arrays(strip(open(f).read())).items():
            if t == 'NameEntry':
                rows = split_rows(b)
                regs.append((base[4:-4], n, base, (l0, l1), [(text(r[0]), r[1]) for _, r in rows]))
    for f in sorted(glob.glob(S + 'asm_*.cpp')):
        base = os.path.basename(f)
        for n, (t, b, l0, l1) in arrays(strip(open(f).read())).items():
            if t == 'Pseudo':
                rows = split_rows(b)
                pseudos.append((base[4:-4], n, base, (l0, l1), [(text(r[0]), ','.join(r[1:])) for _, r in rows]))
    return tables, pages, cpus, regs, pseudos

if __name__ == '__main__':
    tables, pages, cpus, regs, pseudos = load()
    for cpu, t, i, base, lt, li, ents, idx in tables:
        names = [e[0].lower() for e in ents]
        keys = [(names[k], k) for k in idx]
        miss = [k for k in range(len(ents)) if k not in idx]
        bad = [k for k in miss if not any(ents[m][:2] == ents[k][:2] and m in idx for m in range(k))]
        srt = keys == sorted(keys) and len(set(idx)) == len(idx)
        if miss or bad or not srt: print(base, t, i, len(ents), len(idx), 'miss', miss, 'bad', bad, 'sorted', srt)
    for cpu, n, base, l, es in regs + pseudos:
        names = [e[0].lower() for e in es]
        if names != sorted(names) or len(set(names)) != len(names):
            print(base, n, 'UNSORTED/dup', [(a, b) for a, b in zip(names, names[1:]) if a >= b])
        if any(not re.fullmatch(r"[a-z0-9']+", x) for x in names) and base.startswith('reg'): print(base, n, [x for x in names if not re.fullmatch(r"[a-z0-9']+", x)])
    print(len(tables), sum(len(t[6]) for t in tables), len(pages), len(regs), sum(len(r[4]) for r in regs), len(pseudos), sum(len(r[4]) for r in pseudos))
    print(sorted({t[0] for t in tables}))
    print(len(cpus))
    if len(sys.argv) < 2: sys.exit()
    w = []
    w.append("(** Generated by tools/gentables.py from /repo/src: the instruction tables with their name")
    w.append("    indexes, the register tables, the directive tables and the processors' table pages.")
    w.append("    An instruction is its mnemonic and its operands (macro name and arguments, without the opcode).")
    w.append("    Simplification: opcodes and the encoding of the macro arguments are not kept. *)")
    w.append("From Coq Require Import ZArith String List.")
    w.append("From Verif Require Import M_Table.")
    w.append("Import ListNotations.")
    w.append("Local Open Scope string_scope.")
    w.append("Local Open Scope list_scope.")
    w.append("Local Open Scope Z_scope.")
    w.append("")
    tn = []
    for cpu, t, i, base, lt, li, ents, idx in tables:
        name = 't_%s_%s' % (cpu, t); k = name; c = 2
        while name in tn: name = '%s_%d' % (k, c); c += 1
        tn.append(name)
        w.append("(* src/%s:%d-%d %s, %d-%d %s *)" % (base, *lt, t, *li, i))
        w.append("Definition %s : insn_table := mkIT [" % name)
        w.append(";\n".join("  (%s, %s)" % (q(a), q(b)) for a, b, _ in ents) + "]")
        w.append("  [" + "; ".join(map(str, idx)) + "].")
        w.append("")
    rn, pn = [], []
    for l, names, pre, typ in ((regs, rn, 'r', 'name_table'), (pseudos, pn, 'd', 'name_table')):
        for cpu, n, base, (l0, l1), es in l:
            name = '%s_%s_%s' % (pre, cpu, n); names.append(name)
            w.append("(* src/%s:%d-%d %s *)" % (base, l0, l1, n))
            w.append("Definition %s : %s := [" % (name, typ))
            w.append(";\n".join("  (%s, %s)" % (q(a), q(b)) for a, b in es) + "].")
            w.append("")
    w.append("(* every pair of an instruction table and an index used by a page *)")
    w.append("Definition insn_tables : list insn_table := [" + "; ".join(tn) + "].")
    w.append("Definition register_tables : list name_table := [" + "; ".join(rn) + "].")
    w.append("Definition directive_tables : list name_table := [" + "; ".join(pn) + "].")
    w.append("")
    w.append("(* the CPU, FPU and MMU rows: file and row, name, pages, directive tables in search order (asm_base.cpp:105-110) *)")
    w.append("Definition processors : list processor := [")
    w.append(";\n".join("  mkPr %s %s [%s] [%s] (* src/%s:%d-%d *)" % (q(cpu + ' ' + row), q(nm), "; ".join(tn[i] for i in pl), 'd_%s_PSEUDOS; d_base_PSEUDOS' % cpu, base, l0, l1)
             for cpu, n, base, (l0, l1), row, nm, pl in cpus) + "].")
    open(sys.argv[1], 'w').write("\n".join(w) + "\n")
