#!/usr/bin/env python3
"""Regenerates the enum part of rocq/theories/Model_Opcode.v from /repo (text only)."""
import re
src=open('/repo/bitcoin-cash-base/src/opcode.rs').read().split('\n')
items=[]
start=next(i for i,l in enumerate(src) if l.startswith('pub enum Opcode'))
for i in range(start+1,len(src)):
    l=src[i]
    if l.startswith('}'): end=i+1;break
    m=re.match(r'\s+(\w+)\s*=\s*(0x[0-9a-fA-F]+|\d+),',l)
    if m: items.append((m.group(1),int(m.group(2),0),i+1))
    elif re.match(r'\s+(\w+),$',l): items.append((l.strip()[:-1],items[-1][1]+1,i+1))
    elif l.strip() and not l.strip().startswith('//'): print('UNPARSED',i+1,l)
out=[]
w=out.append
w('(** Model of bitcoin-cash-base/src/opcode.rs: the [Opcode] enum (63-%d), its conversions and')
w('    the disabled / retains_input tables.  The constructor list, numbering and names are generated')
w('    from the source text by tools/gen_opcode.py; the comment at each constructor is its line. *)')
out[0]=out[0]%end
w('From Verif Require Import Base.')
w('Local Open Scope Z_scope.')
w('')
w('(** opcode.rs:%d-%d [enum Opcode] *)'%(start+1,end))
w('Inductive opcode : Type :=')
for n,v,l in items: w('| %s (* %d *)'%(n,l))
out[-1]+='.'
w('')
w('(** Explicit discriminants ([opcode as u8]), opcode.rs:%d-%d *)'%(start+1,end))
w('Definition opcode_u8 (o : opcode) : Z :=')
w('  match o with')
for n,v,l in items: w('  | %s => %s'%(n,hex(v)))
w('  end.')
w('')
w('(** [derive(FromPrimitive)]: [num::FromPrimitive::from_u8], opcode.rs:%d *)'%start)
w('Definition opcode_from_u8 (b : Z) : option opcode :=')
w('  match b with')
for n,v,l in items: w('  | %s => Some %s'%(hex(v),n))
w('  | _ => None')
w('  end.')
w('')
w('(** [derive(Debug, IntoStaticStr)]: the variant name, opcode.rs:%d *)'%start)
w('Definition opcode_name (o : opcode) : string :=')
w('  (match o with')
for n,v,l in items: w('  | %s => "%s"'%(n,n))
w('  end)%string.')
w('')
w('Definition all_opcodes : list opcode :=')
w('  ['+'; '.join(n for n,_,_ in items)+'].')
w('')
open('/tmp/opcode_head.v','w').write('\n'.join(out)+'\n')
print(len(items))
open('/verif/rocq/theories/Model_Opcode.v','w').write(open('/tmp/opcode_head.v').read()+open('/verif/tools/opcode_tail.txt').read())
