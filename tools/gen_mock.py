#!/usr/bin/env python3
"""Generates rocq/theories/Model_Mock.v from bitcoin-cash-base/src/opcode.rs (signatures of the functions in mod func)."""
import re
src=open('/repo/bitcoin-cash-base/src/opcode.rs').read()
start=src.index('pub mod func'); end=src.index('pub fn is_disabled')
mod=src[start:end]
T={'BitcoinInteger':'PT RInt','BitcoinBoolean':'PT RBool','BitcoinByteArray':'PT RBytes'}
def L(xs): return '['+'; '.join(xs)+']'
rows=[]
for m in re.finditer(r'pub fn (OP_\w+)\s*(?:<([^>]*)>)?\s*\(([^)]*)\)\s*(?:->\s*(\([^)]*\)|\w+))?\s*\{',mod):
    line=src[:start+m.start()].count('\n')+1
    name,gen,params,ret=m.groups()
    vs=[g.split(':')[0].strip() for g in gen.split(',')] if gen else []
    def ty(t):
        t=t.strip()
        return T[t] if t in T else 'PVar %d'%vs.index(t)
    ps=[ty(p.split(':')[1]) for p in params.split(',') if p.strip()]
    if ret is None: rs=[]
    elif ret.startswith('('): rs=[ty(r) for r in ret[1:-1].split(',')]
    else: rs=[ty(ret)]
    rows.append((name,ps,rs,line))
assert len(rows)==len(re.findall(r'pub fn OP_',mod))
out='''(** Generated by tools/gen_mock.py from bitcoin-cash-base/src/opcode.rs:2435-2830: the signatures of the functions of [mod func], which
    the code generated by the script macro calls so that rustc checks the types of a script.  The number at each row is its source line. *)
From Verif Require Import Base Model_Opcode.
Local Open Scope list_scope.

(** data_type.rs:18-23: the types of data on the stack ([BitcoinInteger], [BitcoinBoolean], [BitcoinByteArray]) *)
Inductive rty : Type := RInt | RBool | RBytes.
(** a parameter or result: one of these, or the function's n-th type parameter *)
Inductive pty : Type := PT (t : rty) | PVar (n : nat).
(** opcode.rs:2435-2830 [mod func]: parameter and result types *)
Definition mock (c : opcode) : option (list pty * list pty) :=
  match c with
'''
for n,p,r,l in rows: out+='  | %s => Some (%s, %s) (* %d *)\n'%(n,L(p),L(r),l)
out+='''  | _ => None
  end.
'''
open('/verif/rocq/theories/Model_Mock.v','w').write(out)
