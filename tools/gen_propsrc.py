#!/usr/bin/env python3
"""Writes rocq/theories/Properties_Src.v: the statements of the lemmas src_..._ok of the Src*.v files, grouped by source file."""
import re, os
root = os.path.dirname(os.path.dirname(os.path.abspath(__file__))) + '/rocq/theories/'
FILES = ['SrcTower', 'SrcCurve', 'SrcLoops', 'SrcLoops2', 'SrcBytes']
FILES += [f for f in ['SrcPairing', 'SrcPairing2', 'SrcPairing3', 'SrcHash', 'SrcHash2', 'SrcBls', 'SrcBls2', 'SrcRepr', 'SrcRepr2', 'SrcFq', 'SrcFq2'] if os.path.exists(root + f + '.v')]
code = open(root + 'SrcCode.v').read()
where = {m.group(2): m.group(1) for m in re.finditer(r'\(\*\* ([\w./]+\.go):[\d-]+ \*\)\nDefinition (src_\w+) ', code)}
groups, limb = {}, set()
for f in FILES:
    for m in re.finditer(r'^Lemma (src_\w+_ok) ([^:]*):\s(.*?)\.\nProof', open(root + f + '.v').read(), re.M | re.S):
        name, binders, st = m.group(1), m.group(2).strip(), ' '.join(m.group(3).split())
        fn = re.search(r'src_\w+', st).group(0)
        if f in ('SrcRepr', 'SrcRepr2', 'SrcFq', 'SrcFq2'): limb.add(where[fn]); st = re.sub(r'("\w+"),', r'\1%string,', st)
        groups.setdefault('hash' if f.startswith('SrcHash') else where[fn], []).append((name, binders, st))
out = '''(** C81: the functions of the package, run statement by statement from their source text, compute the functions of the model.

    [runB B n src_F args] runs the syntax tree of the Go function F (SrcCode.v, written from the text of the repository by
    tools/gen_srccode.py) on [args] with the meaning of SrcSem.v; functions and methods that F calls are those of the model. [n] bounds
    the number of turns of a loop. [Done ps rs]: the run ends without panic, the parameters the caller can see (pointers, slices) have
    the values [ps], the results are [rs]. Each line holds for every field [B], every bound and all arguments.
    [runL n src_F args] is the same for the functions below the towers, on limbs (the FQ of the values is the record of six words). *)
Require Import ZArith Bool String List.
From Verif Require Import Words ModelRepr ModelFq ModelFr ModelOps ModelTower ModelCurve ModelPairing ModelHash ModelBls ModelStr ReprProofs FqProofs FqProofs2 FrProofs
  SrcAst SrcSem SrcCode SrcCall SrcTac SrcLimb %s.
Import ListNotations.
Open Scope Z_scope.
''' % ' '.join(FILES)
for g, ls in groups.items():
    t = 'C81_' + g.replace('.go', '').replace('/', '_').replace('.', '_') + '_source'
    parts = ['(forall %s, %s)' % (b, s) if b else '(%s)' % s for _, b, s in ls]
    if g in limb:
        nf = len({re.search(r'src_\w+', s).group(0) for _, _, s in ls})
        out += '\n(** %s: %d functions, on limbs *)\nTheorem %s :\n  %s.\n' % (g, nf, t, ' /\\\n  '.join(parts))
        pf = 'exact (%s%s%s).' % (''.join('conj %s (' % n for n, _, _ in ls[:-1]), ls[-1][0], ')' * (len(ls) - 1))
        out += 'Proof. %s Qed.\nPrint Assumptions %s.\n' % (pf, t)
        continue
    if g == 'hash':
        parts = [re.sub(r'\brunH ', r'runT B (t_hash sha B) ', p) for p in parts]
        out += '\n(** hash.go and the hashing functions of g1.go, g2.go, fq2.go and fr.go: %d functions, for every hash function sha *)\nTheorem %s : forall (sha : list Z -> list Z) (F : Type) (B : BOps F),\n  %s.\n' % (len(ls), t, ' /\\\n  '.join(parts))
        pf = 'exact (fun sha F B => %s%s%s).' % (''.join('conj (%s sha B) (' % n for n, _, _ in ls[:-1]), '%s sha B' % ls[-1][0], ')' * (len(ls) - 1))
        out += 'Proof. %s Qed.\nPrint Assumptions %s.\n' % (pf, t)
        continue
    if 'pubs' in g:
        parts = [re.sub(r'\brun([12]) ', r'runT B (t_g\1pubs sha fuel B) ', p) for p in parts]
        out += '\n(** %s: %d functions, for every hash function sha and every bound fuel on the search of HashG2WithDomain *)\nTheorem %s : forall (sha : list Z -> list Z) (fuel : nat) (F : Type) (B : BOps F),\n  %s.\n' % (g, len(ls), t, ' /\\\n  '.join(parts))
        pf = 'exact (fun sha fuel F B => %s%s%s).' % (''.join('conj (%s sha fuel B) (' % n for n, _, _ in ls[:-1]), '%s sha fuel B' % ls[-1][0], ')' * (len(ls) - 1))
        out += 'Proof. %s Qed.\nPrint Assumptions %s.\n' % (pf, t)
        continue
    out += '\n(** %s: %d functions *)\nTheorem %s : forall (F : Type) (B : BOps F),\n  %s.\n' % (g, len(ls), t, ' /\\\n  '.join(parts))
    pf = 'exact (fun F B => %s%s%s).' % (''.join('conj (%s B) (' % n for n, _, _ in ls[:-1]), '@' + ls[-1][0] + ' F B', ')' * (len(ls) - 1))
    out += 'Proof. %s Qed.\nPrint Assumptions %s.\n' % (pf, t)
extra = os.path.join(os.path.dirname(os.path.abspath(__file__)), 'propsrc_examples.txt')
if os.path.exists(extra): out += '\n' + open(extra).read()
open(root + 'Properties_Src.v', 'w').write(out)
print({g: len(l) for g, l in groups.items()})
