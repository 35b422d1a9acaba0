#!/usr/bin/env python3
"""Regenerate rocq/theories/Prop*.v from rocq/theories/*Thms.v.

Every `Lemma NAME_pf BINDERS : STATEMENT.` of XThms.v becomes
`Theorem NAME BINDERS : STATEMENT. Proof. exact NAME_pf. Qed. Print Assumptions NAME.`
(names ending in _ex become Example, without Print Assumptions), preceded by the doc comment in front of the lemma."""
import re,glob,os
root=os.path.join(os.path.dirname(__file__),'..','rocq','theories')
for f in sorted(glob.glob(os.path.join(root,'*Thms.v'))):
    x=os.path.basename(f)[:-6]
    s=open(f).read()
    m=re.search(r'^From Verif Require Import ([^.]*)\.',s,re.M)
    extra='\n'.join(re.findall(r'^From (?!Verif)[^\n]*\.$',s,re.M))
    out=['(** Property theorems (generated by tools/mkprop.py from %sThms.v, which holds the proofs). *)'%x]
    if extra: out.append(extra)
    out.append('From Verif Require Import %s %sThms.\n'%(re.sub(r'\s+',' ',m.group(1)),x))
    for m in re.finditer(r'((?:\(\*\*(?:(?!\*\)).)*\*\)\n)?)Lemma (\w+)_pf\b((?:(?!\nProof).)*?)\.\nProof',s,re.S):
        doc,name,rest=m.groups()
        kind='Example' if re.search(r'_ex\d*$',name) else 'Theorem'
        out.append('%s%s %s%s.\nProof. exact %s_pf. Qed.'%(doc,kind,name,rest,name))
        if kind=='Theorem': out.append('Print Assumptions %s.'%name)
        out.append('')
    open(os.path.join(root,'Prop%s.v'%x),'w').write('\n'.join(out))
