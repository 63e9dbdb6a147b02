#!/usr/bin/env python3
"""Transcribe /repo/lrvm_tools/src/lasm/customasm.def into rocq/theories/LasmRules.v (one Coq line per line of the file)."""
import re,sys,os
src=sys.argv[1] if len(sys.argv)>1 else '/repo/lrvm_tools/src/lasm/customasm.def'
out=os.path.join(os.path.dirname(os.path.abspath(__file__)),'..','rocq','theories','LasmRules.v')
L=open(src).read().split('\n')
subs={}; cur=None; rules=[]; mode=None
for n,l in enumerate(L,1):
    l=l.split(';')[0].rstrip()
    m=re.match(r'#subruledef (\w+)',l)
    if m: cur=m.group(1); subs[cur]=[]; mode='sub'; continue
    if l.startswith('#ruledef'): mode='rule'; continue
    if l.startswith('#bankdef'): mode='bank'; continue
    if '=>' not in l: continue
    a,b=[x.strip() for x in l.split('=>')]
    if mode=='sub': subs[cur].append((a,int(b,0),n))
    elif mode=='rule':
        m=re.match(r'(\w+)\s*(.*)$',a); mn=m.group(1); ops=[]
        if m.group(2):
            for o in m.group(2).split(','):
                q=re.match(r'\{(\w+):\s*(\w+)\}$',o.strip()); ops.append((q.group(1),q.group(2)))
        bs=[]
        for e in b.split('@'):
            e=e.strip()
            q=re.match(r'\(\((0x\w+) << 3\) \+ (0b\d+)\)\[7:0\]$',e)
            if q: bs.append('BConst (%d * 8 + %d)'%(int(q.group(1),0),int(q.group(2),0))); continue
            if re.match(r'0x\w+$',e): bs.append('BConst %d'%int(e,0)); continue
            q=re.match(r'(\w+)\[(\d+):(\d+)\]$',e)
            names=[x for x,_ in ops]
            assert q,(n,e)
            hi={('7','0'):'BLow',('15','8'):'BHigh'}[(q.group(2),q.group(3))]
            bs.append('%s %d%%nat'%(hi,names.index(q.group(1))) if q.group(1) in names else 'BUnknown')
        assert len(bs)==4
        rules.append((mn,ops,bs,n))
pat={'u8':'PU8','u16':'PU16','i8':'PI8','i16':'PI16','reg':'PReg','arflag':'PFlag','div_mode':'PDivMode','hw_info':'PHwInfo','if2_mode':'PIf2Mode'}
o=['(** The LASM rules given to customasm. GENERATED by tools/gen_rules.py from /repo/lrvm_tools/src/lasm/customasm.def; do not edit.',
'    The comment at the end of each line is the line number there. *)','From Coq Require Import String ZArith List.','Import ListNotations.','Open Scope Z_scope.','Open Scope string_scope.','',
'(** Kinds of operands: a name of a sub-rule table (customasm.def:9-107), or an integer of a given range. *)',
'Inductive pat : Type := PReg | PFlag | PDivMode | PHwInfo | PIf2Mode | PU8 | PU16 | PI8 | PI16.',
'(** A byte of the output: a constant, the lower or upper byte of operand number [k], or a name the rule does not define. *)',
'Inductive byte_expr : Type := BConst (n : Z) | BLow (k : nat) | BHigh (k : nat) | BUnknown.',
'Record rule : Type := Rule { ru_mnemonic : string; ru_operands : list pat; ru_bytes : list byte_expr }.','']
for s,t in subs.items():
    o.append('(** customasm.def:%d-%d. *)'%(t[0][2],t[-1][2]))
    o.append('Definition table_%s : list (string * Z) := ['%s)
    o.append(';\n'.join('  ("%s", %d)'%(a,v) for a,v,_ in t))
    o.append('].')
o.append('(** customasm.def:%d-%d. *)'%(rules[0][3],rules[-1][3]))
o.append('Definition rules : list rule := [')
for k,(mn,ops,bs,n) in enumerate(rules):
    o.append('  Rule "%s" [%s] [%s]%s (* %d *)'%(mn,'; '.join(pat[t] for _,t in ops),'; '.join(bs),';' if k<len(rules)-1 else '',n))
o.append('].')
open(out,'w').write('\n'.join(o)+'\n')
