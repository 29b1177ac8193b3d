#!/usr/bin/env python3
"""Generates rocq/theories/Model_Behavior.v from bitcoin-cash-base/src/opcode.rs (behavior and func tables)."""
import re
src=open('/repo/bitcoin-cash-base/src/opcode.rs').read().split('\n')
start=next(i for i,l in enumerate(src) if 'pub fn behavior(self)' in l)
end=next(i for i in range(start,len(src)) if 'opcode if opcode.is_disabled()' in src[i])
mstart=next(i for i in range(start,len(src)) if 'match self {' in src[i])
text=[];lineno=[]
for i in range(mstart+1,end):
    for ch in src[i]+'\n': text.append(ch); lineno.append(i+1)
text=''.join(text)
pat=re.compile(r'((?:OP_\w+\s*\|?\s*)+)=>\s*(o|u)\(((?:[^()]|\((?:[^()]|\([^()]*\))*\))*)\)')
def lst(s):
    s=s.strip(); assert s.startswith('&[') and s.endswith(']'),s
    s=s[2:-1].strip().rstrip(',')
    return [x.strip() for x in s.split(',')] if s else []
def ty(t):
    if t=='T': return 'TGeneric'
    if t=='Integer': return 'TInteger'
    if t=='Boolean': return 'TBoolean'
    m=re.match(r'ByteArray\((None|Some\((\d+)\))\)',t); assert m,t
    return 'TByteArray None' if m.group(1)=='None' else '(TByteArray (Some %s))'%m.group(2)
def L(xs): return '['+'; '.join(xs)+']'
rows=[]
for m in pat.finditer(text):
    ops=[x.strip() for x in m.group(1).split('|')]
    args=re.findall(r'&\[[^\]]*\]',m.group(3),re.S)
    ln=lineno[m.start(1)]
    ins=[ty(t) for t in lst(args[0])]; outs=[ty(t) for t in lst(args[1])]
    if m.group(2)=='o': order='(Some %s)'%L([x+'%nat' for x in lst(args[2])]); delta=lst(args[3])
    else: order='None'; delta=lst(args[2])
    rows.append((ops,ins,outs,order,delta,ln))
funcs=[]
fs=next(i for i,l in enumerate(src) if l.startswith('pub mod func'))
for i in range(fs,start):
    m=re.match(r'    pub fn (OP_\w+)',src[i])
    if m: funcs.append((m.group(1),i+1))
out='''(** Generated by tools/gen_behavior.py from bitcoin-cash-base/src/opcode.rs: the table of [Opcode::behavior]
    (2852-3049) and the list of functions in the type-checking module [func] (2435-2830).  The number at each row is
    its source line. *)
From Verif Require Import Base Model_Opcode.
Local Open Scope list_scope.

(** data_type.rs:3-9 [DataType] *)
Inductive data_type : Type := TGeneric | TInteger | TBoolean | TByteArray (size : option nat).
(** opcode.rs:23-32 [StackItemDelta] *)
Inductive item_delta : Type := Untouched | Added | Changed | Moved | MovedIndirectly | Observed | Removed.
(** opcode.rs:34-40 [OpcodeBehavior] *)
Record behavior : Type := Behavior {
  b_input_types : list data_type; b_output_types : list data_type;
  b_output_order : option (list nat); b_delta : list item_delta
}.
(** opcode.rs:2852-3049 [behavior] *)
Definition opcode_behavior (c : opcode) : outcome behavior :=
  match c with
'''
for ops,ins,outs,order,delta,ln in rows:
    out+='  | %s => Ok (Behavior %s %s %s %s) (* %d *)\n'%(' | '.join(ops),L(ins),L(outs),order,L(delta),ln)
out+='''  | OP_IFDUP | OP_CHECKMULTISIG | OP_CHECKMULTISIGVERIFY => Panic
  | _ => if opcode_is_disabled c then Panic else Ok (Behavior [] [] None [])
  end.
(** opcode.rs:2435-2830 [mod func]: the opcodes the generated code can call (any other is a compile error) *)
Definition func_exists (c : opcode) : bool :=
  match c with
'''
for f,ln in funcs: out+='  | %s (* %d *)\n'%(f,ln)
out=out.rstrip('\n')+' => true\n  | _ => false\n  end.\n'
open('/verif/rocq/theories/Model_Behavior.v','w').write(out)
