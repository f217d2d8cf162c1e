#!/usr/bin/env python3
"""Transcribe tricub_construct_coefs (be_tricub/coefficients.h) to Gallina.

Every statement `coefs[i] (=|+=|-=) [-(] [tri_consts[k] *] b[j] [)];` is
replayed in order; coefficient i becomes one expression with the same
operations in the same order."""
import re, sys
src = open('/repo/sixtracklib/common/be_tricub/coefficients.h').read()
consts = [2, 3, 4, 6, 8, 9, 12, 18, 27]
pat = re.compile(r'coefs\[(\d+)\] (=|\+=|-=) (-\()?(?:tri_consts\[(\d)\] \* )?(-)?b\[(\d+)\](\))?;')
body = src[src.index('tri_consts[9]'):]
stmts = pat.findall(body)
assert len(stmts) == body.count('coefs['), (len(stmts), body.count('coefs['))
expr = {}
for i, op, neg, k, neg2, j, cl in stmts:
    i = int(i)
    t = 'b %s' % j
    if k != '':
        t = '#%d *. b %s' % (consts[int(k)], j)
    if neg or neg2:
        t = '-. (%s)' % t
    if op == '=':
        assert i not in expr
        expr[i] = t
    else:
        assert i in expr, 'uninitialised coefficient %d' % i
        expr[i] = '(%s) %s (%s)' % (expr[i], {'+=': '+.', '-=': '-.'}[op], t)
assert sorted(expr) == list(range(64))
out = []
for i in range(64):
    e = expr[i]
    # drop the redundant parentheses of the left-nested sums
    terms = []
    seq = [s for s in stmts if int(s[0]) == i]
    txt = ''
    for n, (_, op, neg, k, neg2, j, cl) in enumerate(seq):
        t = 'b %s' % j
        if k != '':
            t = '#%d *. b %s' % (consts[int(k)], j)
        if neg or neg2:
            t = '-. (%s)' % t
        if n == 0:
            txt = '(%s)' % t if (neg or neg2) else t
        else:
            txt += ' %s %s' % ({'+=': '+.', '-=': '-.'}[op], t)
    # wrap lines
    words = txt.split(' ')
    lines, cur = [], '  '
    for w in words:
        if len(cur) + len(w) + 1 > 88:
            lines.append(cur.rstrip()); cur = '    '
        cur += w + ' '
    lines.append(cur.rstrip())
    out.append('Definition coef_%d (b : nat -> T) : T :=\n%s.\n' % (i, '\n'.join(lines)))
sys.stdout.write('''(* GENERATED by tools/gen_tricub.py from
   sixtracklib/common/be_tricub/coefficients.h 36-1042: tricub_construct_coefs.
   Each coefficient is the expression the assignments to coefs[i] build up, in
   program order. *)
From Coq Require Import ZArith List.
From Verif Require Import Num.
Import ListNotations.

Set Implicit Arguments.

Section Coefs.
Variable T : Type.
Variable N : NumOps T.

Local Notation "a +. b" := (nadd N a b) (at level 50, left associativity).
Local Notation "a -. b" := (nsub N a b) (at level 50, left associativity).
Local Notation "a *. b" := (nmul N a b) (at level 40, left associativity).
Local Notation "-. a" := (nopp N a) (at level 35, right associativity).
Local Notation "'#' z" := (nofZ N z) (at level 5).

''' + '\n'.join(out) + '''
Definition construct_coefs (b : nat -> T) : list T :=
  [''' + ';\n   '.join('; '.join('coef_%d b' % i for i in range(k, k + 8)) for k in range(0, 64, 8)) + '''].

End Coefs.
''')
