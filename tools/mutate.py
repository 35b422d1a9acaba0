#!/usr/bin/env python3
"""Seeded wrong programs.  usage: mutate.py SPEC.py [name ...]

A spec file contains calls  M(name, file, old, new, claim, {theorem: tactics}).
For each: a scratch copy of the built model gets the edit; then
1. for every listed theorem the NEGATION of its statement is proved in the edited
   model with the given tactics (H : the statement) - the theorem is false of the
   edited program, not merely its proof script broken;
2. the whole development is rebuilt and the lemmas at which it stops are listed.
One JSON line per edit goes to seeded/LOG.jsonl."""
import sys,re,os,subprocess,json,shutil,glob
V='/verif'; S='/tmp/mut'; BASE=S+'/base'
specs=[]
def M(name,file,old,new,claim,refute,tightened=(),note='',pre=''): specs.append(dict(pre=pre,name=name,file=file,old=old,new=new,claim=claim,refute=refute,tightened=list(tightened),note=note))
def sh(c,t=900): 
    try: return subprocess.run(c,shell=True,capture_output=True,text=True,timeout=t)
    except subprocess.TimeoutExpired as e: return subprocess.CompletedProcess(c,124,(e.stdout or b'').decode() if isinstance(e.stdout,bytes) else '', (e.stderr or b'').decode() if isinstance(e.stderr,bytes) else 'timeout')
def statement(thm):
    for f in glob.glob(V+'/rocq/theories/*Thms.v'):
        s=open(f).read()
        m=re.search(r'Lemma %s_pf\b((?:(?!\nProof).)*?)\.\nProof'%re.escape(thm),s,re.S)
        if m:
            imp=re.sub(r'\s+',' ',re.search(r'^From Verif Require Import ([^.]*)\.',s,re.M).group(1)).split()
            b,st=m.group(1).split(':',1) if m.group(1).lstrip().startswith(':') else (None,None)
            if b is None: raise SystemExit('binders in '+thm)
            return imp,st.strip(),f
    raise SystemExit('no theorem '+thm)
def enclosing(path,line):
    L=open(path).read().split('\n')[:line]
    for l in reversed(L):
        m=re.match(r'\s*(?:Lemma|Theorem|Example|Definition|Fixpoint|Fact|Remark|Corollary)\s+(\w+)',l)
        if m: return m.group(1)
    return '?'
def definition(path,old):
    s=open(path).read(); i=s.index(old)
    return enclosing(path,s[:i].count('\n')+1)
def main():
    exec(open(sys.argv[1]).read(),dict(M=M)); only=sys.argv[2:]
    full='--norebuild' not in only; only=[x for x in only if not x.startswith('--')]
    os.makedirs(S,exist_ok=True)
    sh('rm -rf %s && cp -a %s/rocq %s'%(BASE,V,BASE)); r=sh('cd %s && coq_makefile -f _CoqProject -o Makefile && make -j4'%BASE,3000)
    if r.returncode: print(r.stderr[-2000:]); return
    for m in specs:
        if only and m['name'] not in only: continue
        w=S+'/w'; sh('rm -rf %s && cp -a %s %s'%(w,BASE,w)); p=w+'/theories/'+m['file']
        s=open(p).read(); n=s.count(m['old'])
        if n!=1: print(m['name'],'EDIT MATCHES',n); continue
        d=definition(p,m['old']); open(p,'w').write(s.replace(m['old'],m['new']))
        ok=[];bad=[]
        for t,tac in m['refute'].items():
            imp,st,f=statement(t)
            r=sh('cd %s && ulimit -v 8000000 && make -j4 %s'%(w,' '.join('theories/%s.vo'%i for i in imp+m['pre'].split())),600)
            if r.returncode: bad.append((t,r.stderr[-1500:])); continue
            extra='\n'.join(re.findall(r'^From (?!Verif)[^\n]*\.$',open(f).read(),re.M))
            open(w+'/theories/Refute.v','w').write('%s\nFrom Verif Require Import %s.\nDefinition claim : Prop := %s.\nLemma refuted : ~ claim.\nProof. intros H. unfold claim in H. %s Qed.\n'%(extra,' '.join(imp+m['pre'].split()),st,tac))
            r=sh('cd %s && ulimit -v 8000000 && timeout 200 coqc -Q theories Verif theories/Refute.v'%w)
            (ok.append(t) if r.returncode==0 else bad.append((t,r.stderr[-2500:])))
        errs=[]
        if full and not bad:
            r=sh('cd %s && rm -f theories/Refute.* && ulimit -v 8000000 && ulimit -t 300 && make -k -j4'%w,1500)
            for f,l in re.findall(r'File "\./(theories/\w+\.v)", line (\d+)',r.stderr):
                e=os.path.basename(f)[:-2]+'.'+enclosing(w+'/'+f,int(l))
                if e not in errs: errs.append(e)
        print(m['name'],d,'refuted',ok,'stops at',errs)
        for t,e in bad: print('   NOT REFUTED',t,e)
        if not bad:
            rec=dict(name=m['name'],definition='%s (theories/%s)'%(d,m['file']),edit=m['old'].strip()+'  ==>  '+m['new'].strip(),claim=m['claim'],theorems_failed=ok,rebuild_stops_at=errs,theorems_tightened=m['tightened'])
            if m['note']: rec['note']=m['note']
            lg=V+'/seeded/LOG.jsonl'; old=[json.loads(x) for x in open(lg)] if os.path.exists(lg) else []
            old=[x for x in old if x.get('name')!=m['name']]+[rec]
            open(lg,'w').write(''.join(json.dumps(x)+'\n' for x in old))
main()
