# Writes rocq/theories/TypesDeviations.v: the deviations from types.rs that the table of
# shape_table.py leaves open, and texts in which they occur (types_witnesses.json).
# Coq checks both (Properties_Types.v).
#   python3 tools/types_deviations.py > rocq/theories/TypesDeviations.v
import json,os
import shape_table as S
from types_schema import SCHEMA
HERE=os.path.dirname(os.path.abspath(__file__))
# these need a character that is no bracket or dot but has one as its upper case
DISGUISED={('CallingFunction','func'):['Unknown'],('CallingUnnest','func'):['Unknown'],('DotOperator','left'):['Unknown']}
S.main()
extra={};missing={};odd={};token=[]
for n in sorted(SCHEMA):
    dt,f=SCHEMA[n]
    if n=='Comment': continue
    ty,tk,w,must,may=S.schema['N_'+n]
    if dt=='required' and tk!=1: token.append(n)
    assert not(dt=='null' and tk!=0)
    for k,(kinds,types,ww) in may:
        if k not in f or f[k][1]=='undefined': extra.setdefault(n,[]).append(k); continue
        c=f[k][1]
        assert kinds=={'n' if c[0]=='Node' else 'v'}
        if c[1] is not None:
            b=sorted(x[2:] for x in types if x[2:] not in c[1])
            if b: odd[(n,k)]=b
    for k,(o,c) in sorted(f.items()):
        if c!='undefined' and not o and k not in must: missing.setdefault(n,[]).append(k)
undeclared=sorted(t[2:] for t in S.schema if t[2:] not in SCHEMA)
def q(s): return '"'+s.replace('"','""')+'"'
def N(s): return 'N_'+s
def keys(name,d,doc):
    print('(* %s *)'%doc)
    print('Definition %s : list (node_type * list string) :=\n  [%s].\n'%(name,';\n   '.join('(%s, [%s])'%(N(t),'; '.join(map(q,d[t]))) for t in sorted(d))))
def odds(name,d,doc):
    print('(* %s *)'%doc)
    print('Definition %s : list (list (node_type * string) * list node_type) :=\n  [%s].\n'%(name,';\n   '.join('([%s],\n    [%s])'%('; '.join('(%s, %s)'%(N(t),q(k)) for t,k in tk),'; '.join(map(N,l))) for tk,l in d)))
def group(d):
    g={}
    for tk in sorted(d): g.setdefault(tuple(d[tk]),[]).append(tk)
    return [(g[l],l) for l in g]
print("""(* Generated by tools/types_deviations.py: the deviations from types.rs that occur, and texts
   in which they occur. *)
From Verif Require Import Chars Token Cst TypesSchema TypesSpec.
Local Open Scope string_scope.
Local Open Scope list_scope.
""")
print('(* node types that are not declared *)\nDefinition undeclared_types : list node_type := [%s].\n'%'; '.join(map(N,undeclared)))
print('(* node types that are declared with a token but may have none *)\nDefinition tokenless_types : list node_type := [%s].\n'%'; '.join(map(N,token)))
for tk in DISGUISED:
    assert set(DISGUISED[tk])<=set(odd[tk])
    odd[tk]=[u for u in odd[tk] if u not in DISGUISED[tk]]
    if not odd[tk]: del odd[tk]
keys('extra_children',{t:l for t,l in extra.items() if l},'children that are not declared')
keys('missing_children',missing,'children that are declared as required but may be absent')
odds('odd_children',group(odd),'children of types that are not declared')
odds('disguised_odd_children',group(DISGUISED),'these take a character, not ASCII, whose upper case is a bracket or a dot')
W=json.load(open(os.path.join(HERE,'types_witnesses.json')))
print('(* an expression of each type *)\nDefinition sample_exprs : list string :=\n  [%s].\n'%';\n   '.join(map(q,W['exprs'])))
print('Definition sample_texts : list string :=\n  [%s].'%';\n   '.join(map(q,W['programs'])))
