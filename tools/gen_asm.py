#!/usr/bin/env python3
"""Writes rocq/theories/AsmProg.v: the instructions of primitivefuncs_amd64.s, one constructor per line, comments dropped.
usage: gen_asm.py <primitivefuncs_amd64.s>"""
import re, sys, os
root = os.path.dirname(os.path.dirname(os.path.abspath(__file__)))
out = ['''(** The instructions of primitivefuncs_amd64.s, generated from that file by tools/gen_asm.py (one constructor per line).
    [f_frame] and [f_args] are the two sizes in the TEXT line, in bytes. *)
Require Import ZArith List.
From Verif Require Import ModelAsm.
Import ListNotations.
Open Scope Z_scope.
''']
REG = 'AX BX CX DX BP SI DI R8 R9 R10 R11 R12 R13 R14 R15'.split()
def op(s):
    s = s.strip()
    if s in REG: return '(Reg %s)' % s
    if s.startswith('$'): return '(Imm %s)' % s[1:]
    m = re.fullmatch(r'(?:\w+\+)(\d+)\(FP\)', s)
    if m: return '(FPm %s)' % m.group(1)
    m = re.fullmatch(r'(\d*)\(SP\)', s)
    if m: return '(SPm %s)' % (m.group(1) or '0')
    if s in ('DL', 'BL', 'AL', 'CL'): return s[0] + 'X'
    raise SystemExit('operand ' + s)
fn = None; ins = []; start = 0
def flush():
    if fn:
        name, frame, args = fn
        out.append('(** primitivefuncs_amd64.s:%d TEXT %s $%s-%s *)\nDefinition asm_%s : func := mkFunc %s %s [\n  %s].\n' % (start, name, frame, args, name, frame, args, ';\n  '.join(ins)))
for n, l in enumerate(open(sys.argv[1]), 1):
    l = re.sub(r'//.*', '', l).strip()
    if not l or l.startswith('#'): continue
    m = re.fullmatch(r'TEXT ·(\w+)\(SB\), \$(\d+)-(\d+)', l)
    if m:
        flush(); fn = m.groups(); ins = []; start = n; continue
    p = l.split(None, 1)
    ops = [op(x) for x in p[1].split(',')] if len(p) > 1 else []
    ins.append(' '.join([p[0]] + ops))
flush()
open(root + '/rocq/theories/AsmProg.v', 'w').write('\n'.join(out))
