import sys,os,re,subprocess,glob
# val.py dir coqfun module [pattern]
d,fun,mods=sys.argv[1:4]
pat=sys.argv[4] if len(sys.argv)>4 else None
files=sorted(f for f in glob.glob('/repo/test/highlight/'+d+'/**/*',recursive=True) if os.path.isfile(f) and os.path.isfile(f+'.html'))
if pat: files=[f for f in files if re.search(pat,f)]
names={}
for l in open('/verif/rocq/theories/M_Types.v'):
    m=re.match(r'\s*\((hl_\w+), \(bs "([^"]*)", bs "([^"]*)"\)\)',l)
    if m: names[m.group(1)]=m.group(3)
val={}
for l in open('/verif/rocq/theories/M_Types.v'):
    m=re.match(r'Definition (hl_\w+) : N := (\d+)',l)
    if m and m.group(1) in names: val[int(m.group(2))]=names[m.group(1)]
def expected(h):
    out=[];i=0;pos=0;stack=[]
    ent={b'&lt;':b'<',b'&gt;':b'>',b'&amp;':b'&',b'&quot;':b'"',b'&apos;':b"'",b'&#39;':b"'"}
    src=bytearray()
    while i<len(h):
        m=re.match(rb'<h- data-h=([\w]+)>',h[i:i+60])
        if m: stack.append((len(src),m.group(1).decode()));i+=m.end();continue
        if h.startswith(b'</h->',i):
            b,n=stack.pop();out.append((b,len(src)-b,n));i+=5;continue
        if h[i:i+1]==b'&':
            for k,v in ent.items():
                if h.startswith(k,i): src+=v;i+=len(k);break
            else: raise Exception('ent '+repr(h[i:i+10]))
            continue
        src.append(h[i]);i+=1
    return bytes(src),out
v='From Coq Require Import List NArith ZArith Bool Arith.\nFrom Verif Require Import M_Base M_Emit M_Types M_Chars M_Parse M_Utf8 M_Api M_Highlighter '+mods+'.\nImport ListNotations. Open Scope N_scope.\n'
v+='''Fixpoint fl (off:nat) (o:out_op) : list (nat*nat*N) := match o with OEmit b l t _ => [((off+b)%nat,l,t)] | ONested _ b _ os => (fix go (l:list out_op) := match l with [] => [] | x::l => fl (off+b) x ++ go l end) os end.
Fixpoint co (l:list out_op) (acc:list out_op) := match l with [] => rev acc | OEmit b n t true :: l => match acc with OEmit b' n' t' f :: acc' => if ((t =? t') && Nat.eqb (b'+n') b)%bool then co l (OEmit b' (n'+n) t' f :: acc') else co l (OEmit b n t true :: acc) | _ => co l (OEmit b n t true :: acc) end | o :: l => co l (o :: acc) end.
Definition val (r:res (bool*list out_op)) : list (N*N*N) := match r with Ok (true,l) => List.map (fun x => let '(a,b,c) := x in (N.of_nat a,N.of_nat b,c)) (flat_map (fl 0) (co l [])) | Ok (false,_) => [(9999999,0,0)] | Fail f => [(9999998,match f with FAssert => 1 | FDebugAssert => 2 | FUB => 3 | FThrow => 4 | FFuel => 5 end,0)] end.
'''
exp=[]
for f in files:
    s=open(f,'rb').read(); h=open(f+'.html','rb').read()
    src,e=expected(h)
    if src!=s: print('SRC MISMATCH',f)
    exp.append(e)
    v+='Eval vm_compute in val (%s [%s]%%N false).\n'%(fun,';'.join(str(c) for c in s))
out='/tmp/val/V_%s.v'%re.sub(r'\W','_',d); open(out,'w').write(v)
r=subprocess.run(['coqc','-Q','/verif/rocq/theories','Verif',out],capture_output=True,text=True)
if r.returncode: print(r.stderr[-2000:]); sys.exit(1)
parts=r.stdout.split('= ')[1:]
bad=0
for f,e,p in zip(files,exp,parts):
    t=[tuple(map(int,x)) for x in re.findall(r'\(\s*(\d+),\s+(\d+),\s+(\d+)\)',p)]
    got=[(a,b,val.get(c,c)) for a,b,c in t]
    if got!=e:
        bad+=1
        s=open(f,'rb').read()
        for i in range(max(len(got),len(e))):
            g=got[i] if i<len(got) else None; x=e[i] if i<len(e) else None
            if g!=x:
                print('DIFF',f,'token',i,'model',g, s[g[0]:g[0]+g[1]] if g else '', 'expected',x,s[x[0]:x[0]+x[1]] if x else ''); break
print(d,len(files),'files',len(parts),'results',bad,'bad')
