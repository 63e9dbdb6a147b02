#!/usr/bin/env python3
"""Generate rocq/theories/Prop*.v (statements only) from the lemmas P_* and E_* of rocq/theories/Proof*.v.
Each P_name becomes Theorem name (proved by the lemma, followed by Print Assumptions), each E_name becomes
Example name_example."""
import re,glob,os,sys
root=os.path.join(os.path.dirname(os.path.abspath(__file__)),'..','rocq','theories')
pat=re.compile(r'(?P<doc>\(\*\*(?:(?!\*\)).)*\*\)\s*\n)?(?:Lemma|Theorem) (?P<k>[PE])_(?P<n>\w+)(?P<st>(?:(?!\nProof\.).)*)\.\s*\nProof\.',re.S)
allthms={}
for f in sorted(glob.glob(os.path.join(root,'Proof*.v'))):
    s=open(f).read()
    base=os.path.basename(f)[:-2]
    out='Prop'+base[len('Proof'):]
    reqs=[]
    for m in re.finditer(r"^From (?:Coq|Verif) Require Import [^.]*\.",s,re.M):
        reqs.append(m.group(0).strip())
    head="(** Properties proved in %s.v: statements only. Generated by tools/gen_props.py. *)\n"%base
    head+="\n".join(reqs)+"\nFrom Verif Require Import %s.\nImport ListNotations.\n"%base
    scopes=[x for x in re.findall(r"^Open Scope \w+\.",s,re.M)]
    head+="\n".join(scopes if scopes else ["Open Scope Z_scope."])+"\n"
    body=""
    names=[]
    sec=re.compile(r'^\(\*\* \* .*?\*\)\s*$',re.M)
    items=[(m.start(),'sec',m) for m in sec.finditer(s)]+[(m.start(),'thm',m) for m in pat.finditer(s)]
    # an Example whose theorem has the same name is put right after the theorem
    exs={m.group('n'):m for _,k,m in items if k=='thm' and m.group('k')=='E'}
    thms={m.group('n') for _,k,m in items if k=='thm' and m.group('k')=='P'}
    def example(m):
        doc=(m.group('doc') or '').rstrip()
        if doc.startswith('(** * '): doc=''
        return "\n"+(doc+"\n" if doc else "")+"Example %s_example%s.\nProof. exact E_%s. Qed.\n"%(m.group('n'),m.group('st'),m.group('n'))
    for _,k,m in sorted(items,key=lambda x:x[0]):
        if k=='sec':
            body+="\n"+m.group(0).strip()+"\n"; continue
        doc=(m.group('doc') or '').rstrip()
        if doc.startswith('(** * '): doc=''
        st=m.group('st')
        if ':' not in st: sys.exit('bad '+m.group('n'))
        if m.group('k')=='P':
            body+="\n"+(doc+"\n" if doc else "")+"Theorem %s%s.\nProof. exact P_%s. Qed.\nPrint Assumptions %s.\n"%(m.group('n'),st,m.group('n'),m.group('n'))
            names.append(m.group('n'))
            if m.group('n') in exs: body+=example(exs[m.group('n')])
        elif m.group('n') not in thms: body+=example(m)
    # check count
    cnt=len(re.findall(r'^(?:Lemma|Theorem) P_',s,re.M)); assert cnt==len(names),(base,cnt,len(names))
    if names:
        new=head+body
        p=os.path.join(root,out+'.v')
        if not os.path.exists(p) or open(p).read()!=new: open(p,'w').write(new)
        allthms[out]=names
cp=os.path.join(root,'..','_CoqProject')
lines=open(cp).read().split('\n')
for o in allthms:
    l='theories/%s.v'%o
    if l not in lines:
        lines=[x for x in lines if x]+[l]
open(cp,'w').write('\n'.join([x for x in lines if x])+'\n')
for o,n in allthms.items(): print(o,' '.join(n))
