# Finds the table that rocq/theories/ShapeTable.v holds: for every function of the parser the
# ways it is called and what it returns, and for every node type the children its nodes have.
# The table is only a guess; Coq checks it (ShapeCheck.v).
#   python3 tools/shape_table.py > rocq/theories/ShapeTable.v
import sys
from program_reader import progs,sigs,ROOT
from collections import defaultdict
NOTKNOWN={'F_parse_expr','F_parse_statement','F_parse_token'}
MARK='~('  # any word but (
EXPRKNOW=[frozenset(['UNNEST']),frozenset(['*']),frozenset([MARK])]
AMODE={'F_push_trailing_alias'}
STRS={'F_parse_keyword_with_statements'}
fs=frozenset
TAGKEY='leading_label'
# ---- words: None = any, frozenset
def jw(a,b): return None if a is None or b is None else a|b
# ---- entry=(ty,tok,words,must,may)  may=tuple sorted (k,(kinds,types,words))
def mkmay(d): return tuple(sorted(d.items(),key=lambda x:x[0]))
def jc(a,b): return (a[0]|b[0],a[1]|b[1],jw(a[2],b[2]))
def jentry(a,b):
    tok=a[1] if a[1]==b[1] else 2
    w = jw(a[2],b[2])
    d=dict(a[4])
    for k,c in b[4]: d[k]=jc(d[k],c) if k in d else c
    return (a[0],tok,w,a[3]&b[3],mkmay(d))
def tag(e): return (e[0],TAGKEY in e[3])
def jdesc(a,b):
    d={tag(e):e for e in a}
    for e in b: d[tag(e)]=jentry(d[tag(e)],e) if tag(e) in d else e
    return tuple(d[k] for k in sorted(d))
def mkd(es):
    r=()
    for e in es: r=jdesc(r,(e,))
    return r
CLASS=['N_Identifier','N_NumericLiteral','N_StringLiteral','N_BooleanLiteral','N_Parameter','N_Template','N_NullLiteral','N_Unknown']
NAMES=['N_Identifier','N_Parameter','N_Template','N_Unknown']
def name_like(w): return 'A'<=w[:1]<='Z' and w not in('TRUE','FALSE','NULL')
def dconstruct(ty,w):
    if w is not None and MARK in w: w=None
    if ty=='N_Unknown': return mkd([(t,1,w,fs(),()) for t in (NAMES if w is not None and all(map(name_like,w)) else CLASS)])
    if ty=='N_EOF': return mkd([(ty,0,fs(),fs(),())])
    return mkd([(ty,1,w,fs(),())])
lost={}
def dpush(desc,k,kind,types,w,where):
    out=[]
    for ty,tok,ww,must,may in desc:
        m=dict(may)
        if k in m:
            lost[(ty,k)]=jw(lost.get((ty,k),fs()),m[k][2])
            diag('overwrite',where,ty,k)
        m[k]=(fs([kind]),types,w)
        out.append((ty,tok,ww,must|{k},mkmay(m)))
    return mkd(out)
def dsettype(desc,ty):
    e=None
    for x in desc: e=x if e is None else jentry(e,x)
    return mkd([(ty,)+e[1:]])
schema={}
changed=[False]
def consume(desc):
    w=fs()
    for e in desc:
        t=e[0]; w=jw(w,e[2])
        n=jentry(schema[t],e) if t in schema else e
        if n!=schema.get(t): schema[t]=n; changed[0]=True
    return fs(e[0] for e in desc),w
def expand(types): return mkd([schema[t] for t in sorted(types) if t in schema])
diags=set(); cur=[None]
def diag(kind,*a): diags.add((kind,cur[0][0])+tuple(str(x)[:150] for x in a))
UNDEF=('undef',)
def zero(v):
    if v[0]=='node': return v[2]
    if v[0]=='vec': return v[2]=='empty'
    if v[0]=='top': return v[1]
    return True
def jval(a,b):
    if a==b: return a
    if a[0]=='node' and b[0]=='node': return ('node',jdesc(a[1],b[1]),a[2] and b[2])
    if a[0]=='vec' and b[0]=='vec': return ('vec',a[1]|b[1],a[2] if a[2]==b[2] else 'any')
    if a[0]=='bool' and b[0]=='bool': return ('bool',None)
    return ('top',zero(a) and zero(b))
def jslot(a,b):
    assert a[0]==b[0],(a,b)
    v=jval(a[1],b[1])
    if a[2]==b[2]: f=a[2]
    elif {a[2],b[2]}=={'live','held'}: f='live'
    else:
        y=b if a[2]=='stale' else a
        f='stale'
        if not zero(y[1]): diag('stalejoin',a[0])
    return (a[0],v,f)
def jknow(a,b): return tuple(jw(x,y) for x,y in zip(a,b))
def join1(a,b):
    sl=tuple(jslot(x,y) for x,y in zip(a[0],b[0]))
    st=a[1]
    if a[1]!=b[1]: diag('stjoin',a[1],b[1],[x[0] for x in a[0]]); st='U'
    return (sl,st,jknow(a[2],b[2]))
def pkey(s): return (s[2][2] is None,)+tuple(v[1] if v[0]=='bool' else None for n,v,f in s[0])
def mkS(l):
    d={}
    for s in l:
        k=pkey(s)
        d[k]=join1(d[k],s) if k in d else s
    return tuple(d.values())
def sortS(l): return tuple(sorted(l,key=lambda s:repr(pkey(s))))
def join(a,b): return sortS(mkS(a+b))
def leave(n,S):
    out=[]
    for s in S:
        k=len(s[0])-n
        assert k>=0
        for x in s[0][:k]:
            if x[2]!='stale' and not zero(x[1]): diag('dropped',x[0])
        out.append((s[0][k:],s[1],s[2]))
    return sortS(mkS(out))
def get(s,x):
    for n,v,f in s[0]:
        if n==x: return v,f
    raise Exception('no var '+x)
def setv(s,x,v,f='live'):
    l=list(s[0])
    for i,(n,_,_) in enumerate(l):
        if n==x: l[i]=(n,v,f); return (tuple(l),s[1],s[2])
    raise Exception('no var '+x)
def unhold(s): return (tuple((n,v,'live' if f=='held' else f) for n,v,f in s[0]),s[1],s[2])
def words(p):
    if p[0] in('TIs','TUpperIs','TLiteralIs'): return {p[1].upper()}
    if p[0]=='TIn': return set(x.upper() for x in p[1])
    return None
def setk(s,k,w):
    kn=list(s[2]); kn[k]=w; return (s[0],s[1],tuple(kn))
def tokset(k,ws,b,s,exactneg=True):
    ws=fs(ws)
    if b:
        if not ws: return None
        if k<3:
            r=ws if s[2][k] is None else ws-({'('}-s[2][k]) if MARK in s[2][k] else s[2][k]&ws
            if not r: return None
            return setk(s,k,fs(r))
        return s
    if k==0 and exactneg and s[2][k] is None and ws=={'('}: return setk(s,k,fs([MARK]))
    if k<3 and exactneg and s[2][k] is not None:
        r=s[2][k]-ws
        if not r: return None
        return setk(s,k,fs(r))
    return s
def test0(c,b,s):
    t=c[0]
    if t=='CVar':
        v,f=get(s,c[1])
        if v[0]=='bool':
            if v[1] is not None: return s if v[1]==b else None
            return setv(s,c[1],('bool',b))
        return s
    if t=='CTok':
        w=words(c[2])
        if w is None: return s
        return tokset(c[1],w,b,s,c[2][0]!='TLiteralIs')
    if t=='CTypeIs':
        v,f=get(s,c[1])
        if v[0]=='node':
            d=tuple(e for e in v[1] if (e[0]==c[2][0])==b)
            if not d: return None
            return setv(s,c[1],('node',d,v[2]),f)
        return s
    if t=='CHasKey':
        v,f=get(s,c[1]);k=c[2]
        if v[0]=='node':
            d=[]
            for ty,tok,w,must,may in v[1]:
                m=dict(may)
                if b:
                    if k in m: d.append((ty,tok,w,must|{k},may))
                elif k not in must:
                    m.pop(k,None); d.append((ty,tok,w,must,mkmay(m)))
            if not d: return None
            return setv(s,c[1],('node',mkd(d),v[2]),f)
        return s
    if t=='CNonEmpty':
        v,f=get(s,c[1])
        if v[0]=='vec':
            if b: return None if v[2]=='empty' else s
            return None if v[2]=='one' else setv(s,c[1],('vec',v[1],'empty'),f)
        return s
    if t=='CLenIs1':
        v,f=get(s,c[1])
        if v[0]=='vec':
            if b: return None if v[2]=='empty' else setv(s,c[1],('vec',v[1],'one'),f)
            return None if v[2]=='one' else s
        return s
    return s
def test(c,b,s):
    t=c[0]
    if t=='CTrue': return [s] if b else []
    if t=='CNot': return test(c[1],not b,s)
    if t=='CAnd':
        both=[z for y in test(c[1],True,s) for z in test(c[2],b,y)]
        return both if b else test(c[1],False,s)+both
    if t=='COr':
        both=[z for y in test(c[1],False,s) for z in test(c[2],b,y)]
        return test(c[1],True,s)+both if b else both
    if t=='CTok' and c[2][0]=='TInVar':
        v,f=get(s,c[2][1])
        if v[0]!='strs': return [s]
        r=tokset(c[1],[x.upper() for x in v[1]],b,s)
    else: r=test0(c,b,s)
    return [] if r is None else [r]
def free(s,where):
    if s[1]=='F': return s
    for n,v,f in s[0]:
        if f=='held':
            return (tuple((n2,v2,'stale' if f2=='held' else f2) for n2,v2,f2 in s[0]),'F',s[2])
    diag('construct-used',where)
    return (s[0],'F',s[2])
def evalb(b,s):
    if b[0]=='BConst': return b[1]
    if b[0]=='BVar':
        v,_=get(s,b[1]); return v[1] if v[0]=='bool' else None
    if b[0]=='BNot':
        r=evalb(b[1],s); return None if r is None else not r
    return None
summ={}
leftT=defaultdict(fs)
def call(f,args,s,where):
    av=[]
    for a in args:
        if a[0]=='ABool': av.append(('bool',evalb(a[1],s)))
        elif a[0]=='ANode':
            v,fl=get(s,a[1])
            if fl=='stale': diag('use-stale',where)
            if v[0]!='node': diag('arg-not-node',where,v)
            s=setv(s,a[1],UNDEF)
            if f in AMODE: av.append(v)
            else:
                t,_=consume(v[1])
                if not t<=leftT[f]: leftT[f]|=t; changed[0]=True
                av.append(('conf',))
        elif a[0]=='AStrs' and f in STRS: av.append(('strs',tuple(a[1])))
        else: av.append(('scalar',))
    know=(None,None,None) if f in NOTKNOWN else s[2]
    if f=='F_parse_expr' and s[2][0] in EXPRKNOW: know=(s[2][0],None,None)
    mode='U' if f in AMODE else 'F'
    if mode=='F': s=free(s,where)
    elif s[1]!='U': diag('amode-free',where)
    ctx=(f,mode,know,tuple(av))
    if ctx not in summ: summ[ctx]=None; changed[0]=True
    r=summ[ctx]
    if r is None: return None
    v,st,k1=r
    return v,(unhold(s)[0],st,(None,k1,None))
def nexp(e,s,where):
    t=e[0]
    if t=='EConstruct':
        s=free(s,where)
        return ('node',dconstruct(e[1][0],s[2][0]),False),(s[0],'U',s[2])
    if t=='ECall': return call(e[1][0],e[2],s,where)
    if t=='EVar':
        v,f=get(s,e[1])
        if f=='stale': diag('use-stale',where)
        if v[0]!='node': diag('var-not-node',where,v)
        return v,setv(s,e[1],UNDEF)
    if t=='EEmpty': return ('node',mkd([(e[1][0],0,None,fs(),())]),True),s
    if t=='EPop':
        v,f=get(s,e[1])
        return ('node',expand(v[1]),False),setv(s,e[1],('vec',v[1],'empty' if v[2]=='one' else 'any'),f)
    raise Exception(t)
def vexp(e,s,where):
    t=e[0]
    if t=='XNew': return ('vec',fs(),'empty'),s
    if t=='XVar':
        v,f=get(s,e[1])
        if f=='stale': diag('use-stale',where)
        if v[0]!='vec': diag('var-not-vec',where,v)
        return v,setv(s,e[1],UNDEF)
    if t=='XCall': return call(e[1][0],e[2],s,where)
    if t=='XList':
        ts=fs()
        for x in e[1]:
            r=nexp(x,s,where)
            if r is None: return None
            v,s=r
            ts|=consume(v[1])[0]
        return ('vec',ts,'any'),s
    raise Exception(t)
def overwritten(s,x,where):
    v,f=get(s,x)
    if f!='stale' and not zero(v): diag('overwrite-var',where,x)
def basic(c,s):
    t=c[0]
    def let(x,v,f,s): return (((x,v,f),)+s[0],s[1],s[2])
    if t in('LetNode','SetNode','LetVec','SetVec'):
        r=(nexp if t[3:]=='Node' else vexp)(c[2],s,c)
        if r is None: return None
        v,s=r; held=c[2][0]=='EConstruct'
        if held: s=unhold(s)
        fl='held' if held else 'live'
        if t[:3]=='Let': return let(c[1],v,fl,s)
        overwritten(s,c[1],c)
        return setv(s,c[1],v,fl)
    if t in('LetBool','SetBool'):
        a=test(c[2],True,s); b=test(c[2],False,s)
        v=('bool',None if a and b else (True if a else False))
        if t=='LetBool': return let(c[1],v,'live',s)
        return setv(s,c[1],v)
    if t in('LetNum','LetStrs','LetUpper'): return let(c[1],('scalar',),'live',s)
    if t=='SetNum': return s
    if t=='Declare': return let(c[1],UNDEF,'live',s)
    if t=='Next':
        if s[1]=='F': diag('next-free',c)
        s=unhold(s); return (s[0],'F',(s[2][1],s[2][2],None))
    if t in('Push','PushVec'):
        r=(nexp if t=='Push' else vexp)(c[3],s,c)
        if r is None: return None
        v,s=r
        types,w=consume(v[1]) if t=='Push' else (v[1],None)
        x,f=get(s,c[1])
        if f=='stale': diag('use-stale',c)
        if x[0]!='node': diag('push-not-node',c,x); return s
        d=dpush(x[1],c[2],'n' if t=='Push' else 'v',types,w,c)
        return setv(s,c[1],('node',d,x[2] and zero(v)))
    if t=='VecPush':
        r=nexp(c[2],s,c)
        if r is None: return None
        v,s=r; ts,_=consume(v[1]); x,f=get(s,c[1])
        return setv(s,c[1],('vec',x[1]|ts,'any'))
    if t=='SetType':
        x,f=get(s,c[1])
        return setv(s,c[1],('node',dsettype(x[1],c[2][0]),x[2]),f)
    raise Exception(t)
rets=[None]
def doret(v,s,where):
    for n,w,f in s[0]:
        if f!='stale' and not zero(w): diag('ret-dropped',where,n)
    r=rets[0]
    if r is None: rets[0]=(v,s[1],s[2][1])
    else:
        if r[1]!=s[1]: diag('ret-st',where,r[1],s[1])
        rets[0]=(jval(r[0],v),s[1],jw(r[2],s[2][1]))
def opt(x): return [] if x is None else [x]
def mapS(f,S): return sortS(mkS([x for x in map(f,S) if x is not None]))
def flatS(f,S): return sortS(mkS([x for s in S for x in f(s)]))
def run(c,S):
    if not S: return (),()
    t=c[0]
    n=len(S[0][0])
    def branch(tf,c1,c2):
        n1,b1=run(c1,flatS(lambda s:tf(True,s),S)); n2,b2=run(c2,flatS(lambda s:tf(False,s),S))
        return join(leave(n,n1),leave(n,n2)),join(b1,b2)
    if t=='Skip': return S,()
    if t=='Seq':
        n1,b1=run(c[1],S)
        n2,b2=run(c[2],n1)
        return n2,join(b1,leave(n,b2))
    if t=='If': return branch(lambda b,s:test(c[1],b,s),c[2],c[3])
    if t=='CaseUpper': return branch(lambda b,s:opt(tokset(c[1],c[2],b,s)),c[3],c[4])
    if t=='CaseLiteral': return branch(lambda b,s:opt(tokset(c[1],[x.upper() for x in c[2]],b,s,False)),c[3],c[4])
    if t=='CaseVar': return branch(lambda b,s:[s],c[3],c[4])
    if t in('While','WhilePop','ForFrom1'):
        I=S
        def popb(s):
            v,f=get(s,c[2])
            s=setv(s,c[2],('vec',v[1],'any'),f)
            return (((c[1],('node',expand(v[1]),False),'live'),)+s[0],s[1],s[2])
        def pope(s):
            v,f=get(s,c[2]); return setv(s,c[2],('vec',v[1],'empty'),f)
        k=0
        while True:
            k+=1
            if t=='While': a=flatS(lambda s:test(c[1],True,s),I)
            elif t=='WhilePop': a=mapS(popb,I)
            else: a=I
            n1,b1=run(c[3] if t=='WhilePop' else c[2],a)
            n1=leave(n,n1); b1=leave(n,b1)
            J=join(I,n1)
            if J==sortS(I): break
            I=J
        global maxr
        maxr=max(maxr,k)
        if t=='While': e=flatS(lambda s:test(c[1],False,s),I)
        elif t=='WhilePop': e=mapS(pope,I)
        else: e=I
        return join(e,b1),()
    if t=='Break': return (),S
    if t in('Return','ReturnVec'):
        for s in S:
            r=(nexp if t=='Return' else vexp)(c[1],s,c)
            if r is not None: doret(r[0],r[1],c)
        return (),()
    if t=='Fail': return (),()
    if t=='Try':
        a1=[]
        for s in S:
            r=call(c[2][0],c[3],s,c)
            if r is not None:
                v,s1=r; overwritten(s1,c[1],c); a1.append(setv(s1,c[1],v))
        n2,b2=run(c[4],S)
        return join(sortS(mkS(a1)),leave(n,n2)),b2
    return mapS(lambda s:basic(c,s),S),()
maxr=0
def ctxargs(ctx):
    f,mode,know,av=ctx
    return tuple(('node',expand(leftT[f]),False) if a[0]=='conf' else a for a in av)
def analyse(ctx):
    f,mode,know,av=ctx
    cur[0]=ctx
    params,body=progs[f]
    slots=[(p,a,'live') for p,a in zip(params,ctxargs(ctx))]
    s=(tuple(reversed(slots)),mode,know)
    rets[0]=None
    n,b=run(body,(s,))
    if n: diag('falls-off')
    if b: diag('break-out')
    return rets[0]
def main():
    TOP=('F_parse_statement','F',(None,None,None),(('bool',True),))
    summ[TOP]=None
    it=0
    while True:
        it+=1
        changed[0]=False
        diags.clear()
        for ctx in list(summ):
            r=analyse(ctx)
            old=summ[ctx]
            if r is not None and old is not None:
                if r[1]!=old[1]: diag('summ-st')
                r=(jval(old[0],r[0]),r[1],jw(old[2],r[2]))
            if r!=old: summ[ctx]=r; changed[0]=True
        if summ[TOP] is not None: consume(summ[TOP][0][1])
        consume(dconstruct('N_EOF',None))
        if not changed[0]: break
    print('iterations',it,'contexts',len(summ),'rounds',maxr,file=sys.stderr)

import re
cst=open(ROOT+'/rocq/theories/Cst.v').read()
i=cst.index('Definition all_node_types'); ALL=re.findall(r'N_\w+',cst[i:cst.index('].',i)])
IDX={t:k for k,t in enumerate(ALL)}
defs=[];names={}
def define(kind,ty,body):
    if (kind,body) not in names:
        names[(kind,body)]='%s%d'%(kind,len(names))
        defs.append('Definition %s : %s := %s.'%(names[(kind,body)],ty,body))
    return names[(kind,body)]
def q(s): return '"'+s.replace('"','""')+'"'
def lst(l): return '['+'; '.join(l)+']'
def ewords(w): return 'None' if w is None else '(Some %s)'%define('w','list string',lst([q(x) for x in sorted(w)]))
def emask(ts): return define('m','N','%d%%N'%sum(1<<IDX[t] for t in ts))
def bl(b): return 'true' if b else 'false'
def ecd(c): return '(CD %s %s %s %s)'%(bl('n' in c[0]),bl('v' in c[0]),emask(c[1]),ewords(c[2]))
def ee(e):
    ty,tok,w,must,may=e
    return define('e','entry','En %s %s %s %s %s'%(ty,{0:'(Some false)',1:'(Some true)',2:'None'}[tok],ewords(w),
        define('k','list string',lst([q(x) for x in sorted(must)])),
        define('c','list (string * cdesc)',lst(['(%s, %s)'%(q(k),ecd(c)) for k,c in may]))))
def ed(d): return define('d','desc',lst([ee(e) for e in d]))
def ev(v):
    if v[0]=='undef': return 'AUndef'
    if v[0]=='node': return '(ANd %s %s)'%(ed(v[1]),bl(v[2]))
    if v[0]=='vec': return '(AVc %s %s)'%(emask(v[1]),{'empty':'LEmpty','one':'LOne','any':'LAny'}[v[2]])
    if v[0]=='bool': return '(ABo %s)'%('None' if v[1] is None else '(Some %s)'%bl(v[1]))
    if v[0]=='scalar': return 'ASc'
    if v[0]=='strs': return '(ASs %s)'%lst([q(x) for x in v[1]])
    raise Exception(v)
def emit():
    out=[]
    bytab=defaultdict(list)
    for c in summ: bytab[c[0]].append(c)
    rows=[]
    for f in progs:
        # the most specific context first
        l=sorted(bytab[f],key=lambda c:(sum(w is None for w in c[2]),sum(len(w) for w in c[2] if w is not None),sum(a==('bool',None) for a in c[3])))
        rows.append('  | %s => %s'%(f,lst(['\n      Ctx %s %s %s %s %s %s %s %s'%(bl(c[1]=='U'),ewords(c[2][0]),ewords(c[2][1]),ewords(c[2][2]),lst([ev(a) for a in ctxargs(c)]),ev(summ[c][0]),bl(summ[c][1]=='U'),ewords(summ[c][2])) for c in l])))
    # comments are no part of the table: no complete node has such a description
    sch=['  | %s => %s'%(t,ee(schema[t]) if t in schema else 'En N_EOF None None [] []') for t in ALL]
    print("""(* Generated by tools/shape_table.py: what the functions of the parser are called with and
   return, and what nodes look like. Nothing here is trusted: ShapeCheck.v checks it. *)
From Verif Require Import Chars Token Cst MiniRust Program Shape.
Local Open Scope string_scope.
Local Open Scope list_scope.
""")
    print('\n'.join(defs))
    print('\nDefinition schema (t : node_type) : entry :=\n  match t with\n'+'\n'.join(sch)+'\n  end.')
    print('\nDefinition table (f : fn) : list ctx :=\n  match f with\n'+'\n'.join(rows)+'\n  end.')
if __name__=='__main__':
    main()
    bad=[d for d in sorted(diags) if d[0]!='overwrite']
    for d in bad: print(d,file=sys.stderr)
    print({k:sorted(v) for k,v in lost.items()},file=sys.stderr)
    emit()
