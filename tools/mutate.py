#!/usr/bin/env python3
"""Run seeded bugs against the theorems.

usage: mutate.py mutations.json [id ...]

mutations.json holds a list of {id, file, definition, old, new, claim}.  Each is applied to a
scratch copy of rocq/ (with its compiled files).  Files depending on the edited one are rebuilt;
a proof that no longer goes through is replaced by Admitted in the scratch copy so that all the
theorems which fail, directly or through a lemma, can be listed.  One line per mutation is
appended to seeded/LOG.jsonl."""
import json, os, re, shutil, subprocess, sys
ROOT = '/verif'
BASE = os.environ.get('MUT_BASE', ROOT + '/rocq')
SCR = os.environ.get('MUT_DIR', '/tmp/mut')
TH = SCR + '/theories'

def sh(cmd, timeout=None):
    return subprocess.run(cmd, shell=True, capture_output=True, text=True, timeout=timeout)

def files():
    return [l.strip()[len('theories/'):-2] for l in open(SCR + '/_CoqProject') if l.strip().endswith('.v')]

def deps():
    d = {}
    for f in files():
        src = open(f'{TH}/{f}.v').read()
        req = re.findall(r'From Verif Require (?:Import|Export)?([^.]*)\.', src)
        d[f] = set(' '.join(req).split())
    return d

def compile(f, limit):
    return sh(f'ulimit -v 6000000; cd {SCR}; timeout {limit} coqc -w -all -Q theories Verif theories/{f}.v')

START = re.compile(r'^\s*(?:Local |Global |#\[[^\]]*\] )*(Lemma|Theorem|Example|Corollary|Fact|Remark|Instance|Goal|Program Lemma)\s+([A-Za-z0-9_\']+)', re.M)

def blocks(src):
    """(kind, name, start, proof_start, end) of every proof"""
    out = []
    for m in START.finditer(src):
        e = re.compile(r'\b(Qed|Defined|Admitted|Abort)\.').search(src, m.end())
        if not e: continue
        nxt = START.search(src, m.end())
        if nxt and nxt.start() < e.start():
            continue
        p = re.compile(r'\bProof\b[^.]*\.').search(src, m.end(), e.start())
        out.append((m.group(1), m.group(2), m.start(), p.start() if p else None, e.end()))
    return out

def admit_at(f, line, name=None):
    path = f'{TH}/{f}.v'
    src = open(path).read()
    pos = sum(len(l) + 1 for l in src.split('\n')[:line - 1]) if line else None
    best = None
    for b in blocks(src):
        if (name and b[1] == name) or (not name and b[2] <= pos):
            best = b
    if not best or (not name and best[4] < pos):
        return None
    if best[3] is None or 'Admitted' in src[best[3]:best[4]]:
        return None
    open(path, 'w').write(src[:best[3]] + 'Admitted.' + '\n' * src[best[3]:best[4]].count('\n') + src[best[4]:])
    return best[1]

def locate_timeout(f, limit):
    """which proof is running when the time limit is hit"""
    r = sh(f'ulimit -v 6000000; cd {SCR}; timeout {limit} coqc -w -all -time -Q theories Verif theories/{f}.v')
    last = 0
    for m in re.finditer(r'^Chars (\d+) - (\d+)', r.stdout, re.M):
        last = int(m.group(2))
    src = open(f'{TH}/{f}.v', 'rb').read()
    return src[:last + 2].count(b'\n') + 1

def run(m, limit=int(os.environ.get('MUT_LIMIT', '240'))):
    if os.path.exists(SCR): shutil.rmtree(SCR)
    shutil.copytree(BASE, SCR)
    path = f'{TH}/{m["file"]}'
    src = open(path).read()
    if src.count(m['old']) < 1:
        return {'error': 'old text not found'}
    open(path, 'w').write(src.replace(m['old'], m['new'], 1))
    d = deps()
    dirty = {m['file'][:-2]}
    failed, propfail, builderr = [], [], None
    for f in files():
        if f not in dirty and not (d[f] & dirty): continue
        dirty.add(f)
        for _ in range(60):
            r = compile(f, limit)
            if r.returncode == 0: break
            if r.returncode in (124, 137) or 'out of memory' in r.stderr.lower():
                line = locate_timeout(f, limit)
            else:
                mm = re.search(r'line (\d+), characters', r.stderr)
                line = int(mm.group(1)) if mm else None
            name = admit_at(f, line) if line else None
            if not name:
                builderr = f'{f}: ' + r.stderr.strip()[-300:]
                break
            failed.append(f'{f}.{name}')
        if builderr: break
        if f.startswith('Prop_'):
            srcp = open(f'{TH}/{f}.v').read()
            names = re.findall(r'^(?:Theorem|Example)\s+(\S+)', srcp, re.M)
            q = f'{SCR}/q.v'
            open(q, 'w').write(f'From Verif Require Import {f}.\n' + ''.join(f'Print Assumptions {n}.\n' for n in names))
            o = sh(f'cd {SCR}; coqc -w -all -Q theories Verif q.v').stdout
            parts = re.split(r'(?=Closed under the global context|Axioms:|Section Variables:)', o)
            parts = [p for p in parts if p.strip()]
            for n, p in zip(names, parts):
                if not p.startswith('Closed') and n.startswith('C'):
                    propfail.append(n)
    return {'failed_lemmas': failed, 'failed': propfail, 'build_error': builderr}

def main():
    muts = json.load(open(sys.argv[1]))
    ids = sys.argv[2:]
    for m in muts:
        if ids and m['id'] not in ids: continue
        res = run(m)
        entry = {'id': m['id'], 'definition': m['file'] + ': ' + m['definition'], 'edit': f"{m['old']}  ==>  {m['new']}",
                 'claim_broken': m['claim'], 'theorems_failed': res.get('failed'), 'tightened': m.get('tightened', [])}
        if res.get('build_error'): entry['build_error'] = res['build_error']
        if res.get('error'):
            print(m['id'], 'ERROR', res['error']); continue
        print(m['id'], '->', res['failed'], '| lemmas', res['failed_lemmas'][:6], res['build_error'] or '')
        sys.stdout.flush()
        with open(ROOT + '/seeded/LOG.jsonl', 'a') as g:
            g.write(json.dumps(entry) + '\n')

main()
