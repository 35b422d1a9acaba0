#!/usr/bin/env python3
"""Automatic wrong programs: every single-token edit of the model (constants, comparisons,
connectives, strings, outcomes, table rows), rebuilt until the first failure.
usage: automut.py list | automut.py run SEED COUNT [FILE ...]
Results: /tmp/am/results.jsonl (file, line, definition, edit, where the build stopped, or SURVIVED)."""
import re,sys,os,json,random,subprocess,hashlib
V='/verif/rocq'; S='/tmp/am'
MODEL='Base Utf8 B64 Util MatterTables Matter StdStr CounterTables Counter IndexerTables Indexer Prims Signer Data Json Common Saider Tholder Sadder Pretty Pather Prefixer Wasm Defaults Hash Float Convert'.split()
def mask(s):
    out=list(s); d=0; i=0
    while i<len(s):
        if s.startswith('(*',i): d+=1; out[i]=out[i+1]=' '; i+=2; continue
        if s.startswith('*)',i) and d: d-=1; out[i]=out[i+1]=' '; i+=2; continue
        if d and s[i]!='\n': out[i]=' '
        i+=1
    return ''.join(out)
def enclosing(s,pos):
    n='?'
    for m in re.finditer(r'^\s*(?:Definition|Fixpoint|with|Class|Record|Inductive|Lemma|Theorem)\s+(\w+)',s,re.M):
        if m.start()>pos: break
        n=m.group(1)
    return n
OPS=[(r'(?<![\w.])\d+(?![\w.])',lambda t:[str(int(t)+1)]+([str(int(t)-1)] if int(t)>0 else [])),
 (r'<\?',lambda t:['<=?']),(r'<=\?',lambda t:['<?']),(r'&&',lambda t:['||']),(r'\|\|',lambda t:['&&']),
 (r'\bnegb\b',lambda t:['id']),(r'\btrue\b',lambda t:['false']),(r'\bfalse\b',lambda t:['true']),
 (r'"[^"\n]+"',lambda t:['"'+chr(ord(t[1])+1)+t[2:]] if t[1].isalnum() else ['"~'+t[1:]]),
 (r'(?<!:=) \bPanic\b',lambda t:[' Err E_Value']),(r'\bErr E_\w+',lambda t:['Panic']),
 (r'\bSome \w+\b(?= =>)',lambda t:[]),(r' - ',lambda t:[' + ']),(r' \+ ',lambda t:[' - ']),
 (r'\bfst\b',lambda t:['snd']),(r'\bsnd\b',lambda t:['fst'])]
def mutants(f):
    s=open('%s/theories/%s.v'%(V,f)).read(); m=mask(s); r=[]
    for pat,fn in OPS:
        for x in re.finditer(pat,m):
            line=m[m.rfind('\n',0,x.start())+1:m.find('\n',x.start())]
            if re.match(r'\s*(From|Require|Import|Open|Local|Notation|Infix|Delimit|Context|Section|End)\b',line): continue
            if re.match(r'\s*(Lemma|Theorem|Proof|Qed)\b',line): continue
            for t in fn(x.group()):
                r.append((f,x.start(),x.group(),t))
    return r
def run(mt):
    f,pos,old,new=mt
    w=S+'/w'; subprocess.run('rm -rf %s; cp -a %s/base %s'%(w,S,w),shell=True)
    p='%s/theories/%s.v'%(w,f); s=open(p).read(); assert s[pos:pos+len(old)]==old
    ln=s.count('\n',0,pos)+1; d=enclosing(mask(s),pos)
    open(p,'w').write(s[:pos]+new+s[pos+len(old):])
    try: r=subprocess.run('cd %s && ulimit -v 6000000 && ulimit -t 400 && make -j3 2>&1'%w,shell=True,capture_output=True,text=True,timeout=1500); out=r.stdout; rc=r.returncode
    except subprocess.TimeoutExpired: out='TIMEOUT'; rc=124
    subprocess.run('pkill -f am/w/ 2>/dev/null',shell=True)
    e=re.findall(r'File "\./theories/(\w+)\.v", line (\d+), characters [^\n]*\nError',out); where='SURVIVED' if rc==0 else (['%s:%s:%s'%(a,b,enclosing(open('%s/theories/%s.v'%(w,a)).read(),len('\n'.join(open('%s/theories/%s.v'%(w,a)).read().split('\n')[:int(b)])))) for a,b in e][:1] or [out[-200:]])[0]
    if where.split(':')[0] in MODEL: where='STILLBORN '+where
    line=s.split('\n')[ln-1].strip()
    rec=dict(file=f,line=ln,definition=d,old=old,new=new,text=line[:160],result=where)
    open(S+'/results.jsonl','a').write(json.dumps(rec)+'\n'); return rec
if __name__=='__main__':
    if sys.argv[1]=='list':
        for f in MODEL: print(f,len(mutants(f)))
    else:
        seed,count=int(sys.argv[2]),int(sys.argv[3]); fs=sys.argv[4:] or MODEL
        done=set()
        if os.path.exists(S+'/results.jsonl'):
            for l in open(S+'/results.jsonl'): x=json.loads(l); done.add((x['file'],x['line'],x['old'],x['new'],x['text']))
        rnd=random.Random(seed); M=[]
        for f in fs: M+=mutants(f)
        rnd.shuffle(M)
        n=0
        for m in M:
            if n>=count: break
            s=open('%s/theories/%s.v'%(V,m[0])).read(); ln=s.count('\n',0,m[1])+1
            if (m[0],ln,m[2],m[3],s.split('\n')[ln-1].strip()[:160]) in done: continue
            n+=1; rec=run(m); print(rec['file'],rec['line'],rec['definition'],repr(rec['old']),'->',repr(rec['new']),rec['result'],flush=True)
