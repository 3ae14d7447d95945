#!/usr/bin/env python3
"""Translate the parse_* functions of /repo/src/parser.rs into MiniRust (theories/Program.v).

The translation is syntax directed: every Rust construct the source uses is mapped to
one MiniRust constructor, and any construct that is not recognised aborts the
translation. Three source fragments are recognised as a whole (the text is compared
literally): the look-ahead loop of parse_table, the clone/restore of parse_table and
the first_node loop of parse_expr. The two `offset` loops of parse_statement become
a chain of the five possible offsets.

usage: translate.py /repo/src/parser.rs > theories/Program.v
"""
import re, sys

SRC = open(sys.argv[1]).read()

# ---------------------------------------------------------------- tokenizer
TOK = re.compile(r'''(?P<ws>\s+|//[^\n]*)|(?P<str>"(?:[^"\\]|\\.)*")|(?P<chr>'(?:[^'\\]|\\.)')|(?P<num>\d+)
 |(?P<id>[A-Za-z_][A-Za-z0-9_]*!?(?!=))|(?P<id2>[A-Za-z_][A-Za-z0-9_]*)
 |(?P<op>::|=>|->|==|!=|<=|>=|&&|\|\||\+=|\.\.|[-+*/<>=!&|.,;:(){}\[\]?'])''', re.X)
toks = []
pos = SRC.index('    pub fn parse_code')
line = 1 + SRC[:pos].count('\n')
while pos < len(SRC):
    m = TOK.match(SRC, pos)
    assert m, (line, SRC[pos:pos+30])
    k = m.lastgroup
    if k != 'ws':
        toks.append(('id' if k == 'id2' else k, m.group(), line))
    line += m.group().count('\n')
    pos = m.end()

P = 0
def peek(i=0): return toks[P+i][1]
def kind(i=0): return toks[P+i][0]
def ln(): return toks[P][2]
def adv():
    global P
    P += 1
    return toks[P-1][1]
def eat(s):
    assert peek() == s, (toks[P], s)
    return adv()
def maybe(s):
    if peek() == s:
        adv(); return True
    return False

# ---------------------------------------------------------------- parser
# expressions: ('str',s) ('chr',c) ('num',n) ('path',[..]) ('macro',name,args) ('not',e) ('ref',e)
# ('bin',op,a,b) ('call',f,args) ('meth',e,name,args) ('field',e,name) ('try',e) ('unit',)
# ('if',c,block,else,line) ('match',e,arms,line) ('loop',block) ('while',c,block) ...
def p_args(close):
    a = []
    while peek() != close:
        a.append(p_expr())
        if not maybe(','): break
    eat(close)
    return a

def p_primary():
    k, t, l = toks[P]
    if k == 'str': adv(); return ('str', eval(t))
    if k == 'chr': adv(); return ('chr', eval(t))
    if k == 'num': adv(); return ('num', int(t))
    if t == '(':
        adv()
        if maybe(')'): return ('unit',)
        e = p_expr(); eat(')'); return e
    if t == '{': return ('block', p_block(), l)
    if t == 'if': return p_if()
    if t == 'match': return p_match()
    if t == '|':
        adv(); x = adv(); eat('|')
        return ('closure', x, p_expr())
    if t == 'return':
        adv()
        return ('return', p_expr(), l)
    if t == 'break': adv(); return ('break',)
    if k == 'id':
        adv()
        if t.endswith('!'):
            close = {'[': ']', '(': ')'}[adv()]
            return ('macro', t[:-1], p_args(close))
        path = [t]
        while peek() == '::':
            adv(); path.append(adv())
        return ('path', path)
    raise Exception(('primary', toks[P]))

def p_postfix():
    e = p_primary()
    while True:
        if peek() == '?': adv(); e = ('try', e)
        elif peek() == '.':
            adv(); n = adv()
            if maybe('('): e = ('meth', e, n, p_args(')'))
            else: e = ('field', e, n)
        elif peek() == '(' and e[0] == 'path':
            adv(); e = ('call', e[1], p_args(')'))
        else: return e

def p_unary():
    if maybe('!'): return ('not', p_unary())
    if maybe('&'):
        if peek() == 'mut': adv()
        return ('ref', p_unary())
    return p_postfix()

LEVELS = [['||'], ['&&'], ['==', '!=', '<', '>'], ['+']]
def p_expr(lv=0):
    if lv == len(LEVELS): return p_unary()
    a = p_expr(lv+1)
    while peek() in LEVELS[lv]:
        op = adv(); a = ('bin', op, a, p_expr(lv+1))
    return a

def p_if():
    l = ln(); eat('if')
    assert peek() != 'let', toks[P]
    c = p_expr(); b = p_block(); e = None
    if maybe('else'):
        if peek() == 'if':
            ll = ln(); e = ([], p_if(), ll)
        else: e = p_block()
    return ('if', c, b, e, l)

def p_pat():
    ps = []
    maybe('|')
    while True:
        k, t, _ = toks[P]
        if k == 'str': adv(); ps.append(eval(t))
        elif t == '_': adv(); ps.append(None)
        else: raise Exception(('pat', toks[P]))
        if not maybe('|'): return ps

def p_match():
    l = ln(); eat('match')
    scrut = p_expr(); eat('{')
    arms = []
    while not maybe('}'):
        pat = p_pat(); eat('=>')
        if peek() == '{': b = p_block()
        else:
            ll = ln(); b = ([], p_expr(), ll)
        maybe(',')
        arms.append((pat, b))
    return ('match', scrut, arms, l)

def p_block():
    """-> (stmts, tail expression or None, line)"""
    l0 = ln(); eat('{')
    stmts, tail = [], None
    while not maybe('}'):
        l = ln()
        sp = special()
        if sp: stmts.append(sp); continue
        t = peek()
        if t == 'let':
            adv()
            if peek() == 'mut': adv()
            x = adv()
            if maybe(':'):
                while peek() not in ('=', ';'): adv()
            e = None
            if maybe('='): e = p_expr()
            eat(';')
            stmts.append(('let', x, e, l))
        elif t == 'fn':
            stmts.append(('fn', p_fn(), l))
        elif t == 'loop':
            adv(); stmts.append(('loop', p_block(), l)); maybe(';')
        elif t == 'while' and peek(1) == 'let':
            adv(); adv(); eat('Some'); eat('('); eat('mut'); x = adv(); eat(')'); eat('=')
            e = p_expr(); stmts.append(('whilelet', x, e, p_block(), l))
        elif t == 'while':
            adv(); c = p_expr(); stmts.append(('while', c, p_block(), l))
        elif t == 'for':
            adv(); eat('_'); eat('in'); eat('1'); eat('..'); n = adv()
            stmts.append(('for', n, p_block(), l))
        else:
            e = p_expr()
            if peek() == '=':
                adv(); r = p_expr()
                if peek() != '}': eat(';')
                stmts.append(('assign', e, r, l))
            elif peek() == '+=':
                adv(); r = p_expr(); eat(';'); stmts.append(('addassign', e, r, l))
            elif maybe(';'): stmts.append(('expr', e, l))
            elif peek() == '}': tail, l0 = e, l
            else:
                assert e[0] in ('if', 'match', 'block'), (l, e)
                stmts.append(('expr', e, l))
    return (stmts, tail, l0)

def p_fn():
    l0 = ln(); eat('fn'); name = adv(); eat('(')
    params = []
    while not maybe(')'):
        if peek() == '&': adv(); eat('mut'); eat('self')
        else:
            if peek() == 'mut': adv()
            x = adv(); eat(':'); ty = ''
            depth = 0
            while not (depth == 0 and peek() in (',', ')')):
                if peek() == '<': depth += 1
                if peek() == '>': depth -= 1
                ty += adv()
            params.append((x, ty))
        maybe(',')
    eat('->'); ty = ''
    while peek() != '{': ty += adv()
    b = p_block()
    return dict(name=name, params=params, ret=ty, body=b, lines=(l0, toks[P-1][2]))

# literal fragments recognised as a whole
def frag(s):
    out, pos = [], 0
    while pos < len(s):
        m = TOK.match(s, pos); assert m
        if m.lastgroup != 'ws': out.append(m.group())
        pos = m.end()
    return out
FRAGS = [
 ('paren', frag('''let mut statement_flg = false; let mut offset = 0;
   loop { offset += 1;
     if self.get_token(offset)?.in_(&vec!["WITH", "SELECT", "FROM"]) { statement_flg = true; break; }
     else if !self.get_token(offset)?.is("(") { break; } }''')),
 ('first_node', frag('''let mut first_node = &left;
   while first_node.node_type == NodeType::DotOperator {
     match first_node.children.get("left") { Some(ContentType::Node(n)) => first_node = n, _ => break, }; }''')),
 ('try', frag('''let org = self.clone();
   group = match self.parse_select_statement(false, false) { Ok(stmt) => stmt,
     Err(_) => { self.position = org.position; self.leading_comment_indices = org.leading_comment_indices;
     self.trailing_comment_indices = org.trailing_comment_indices; self.tokens = org.tokens;''')),
 ('nexttok', frag('''let next_token = match parser.get_token(1) { Ok(n) => n, Err(_) => break, };''')),
]
def special():
    global P
    for name, f in FRAGS:
        if [t[1] for t in toks[P:P+len(f)]] == f:
            l = ln(); P += len(f)
            if name != 'try': return (name, l)
            # the rest of the Err arm is an ordinary block whose tail is the value
            P -= 1; toks[P] = ('op', '{', toks[P][2])
            b = p_block(); eat('}')
            return ('try', b, l)
    return None

# parse all functions of impl Parser from parse_code on
while not (peek() == 'pub' and peek(1) == 'fn' and peek(2) == 'parse_code'): adv()
fns = []
while True:
    if peek() == 'pub': adv()
    if peek() != 'fn': break
    if peek(1) in ('construct_node', 'get_precedence', 'get_offset_index', 'get_token', 'is_eof', 'next_token'):
        while peek() != '{': adv()
        d = 0
        while True:
            t = adv()
            if t == '{': d += 1
            if t == '}':
                d -= 1
                if d == 0: break
        continue
    fns.append(p_fn())
eat('}')
assert P == len(toks), toks[P]

# nested functions become functions of their own
allfns = []
for f in fns:
    stmts, tail, l = f['body']
    for s in stmts:
        if s[0] == 'fn': allfns.append(s[1])
    f['body'] = ([s for s in stmts if s[0] != 'fn'], tail, l)
    allfns.append(f)
RET = {f['name']: ('vec' if 'Vec' in f['ret'] else 'node') for f in allfns}
PARAMTY = {f['name']: f['params'] for f in allfns}
TY = {'Node': 'node', 'bool': 'bool', 'usize': 'num', '&Vec<&str>': 'strs'}

# ---------------------------------------------------------------- translation
def q(s): return '"%s"' % s.replace('"', '""')
def ql(l): return '[' + '; '.join(q(s) for s in l) + ']'
SELF = ('path', ['self'])
def is_self(e): return e[0] == 'path' and e[1] in (['self'], ['parser'])

class Fn:
    def __init__(self, f):
        self.f = f
        self.types = {}
        self.consts = {}
        self.aux = []
        self.refs = {}   # immutable borrows of tokens: x -> offset
    # offsets
    def off(self, e):
        if e[0] == 'num': return str(e[1])
        if e[0] == 'path' and e[1][0] in self.consts: return self.consts[e[1][0]]
        if e[0] == 'bin' and e[1] == '+': return '(S %s)' % self.off(e[2]) if e[3] == ('num', 1) else 1/0
        raise Exception(('off', e))
    def tok(self, e):
        """offset of a token expression self.get_token(k)? (or a borrow of it)"""
        if e[0] == 'try' and e[1][0] == 'meth' and is_self(e[1][1]) and e[1][2] == 'get_token':
            return self.off(e[1][3][0])
        if e[0] == 'path' and len(e[1]) == 1 and e[1][0] in self.refs: return self.refs[e[1][0]]
        return None
    def upper(self, e):
        """k if e is self.get_token(k)?.literal.to_uppercase() (possibly .as_str())"""
        if e[0] == 'meth' and e[2] == 'as_str': e = e[1]
        if e[0] == 'meth' and e[2] == 'to_uppercase' and e[1][0] == 'field' and e[1][2] == 'literal':
            return self.tok(e[1][1])
        return None
    def literal(self, e):
        if e[0] == 'meth' and e[2] == 'as_str': e = e[1]
        if e[0] == 'field' and e[2] == 'literal': return self.tok(e[1])
        return None
    def strs(self, e):
        if e[0] == 'ref': e = e[1]
        if e[0] == 'macro' and e[1] == 'vec' and all(a[0] == 'str' for a in e[2]):
            return ('lit', [a[1] for a in e[2]])
        if e[0] == 'path' and self.types.get(e[1][0]) == 'strs': return ('var', e[1][0])
        raise Exception(('strs', e))
    # conditions
    def cond(self, e):
        if e[0] == 'path':
            if e[1] == ['true']: return 'CTrue'
            if e[1] == ['false']: return '(CNot CTrue)'
            assert self.types[e[1][0]] == 'bool', e
            return '(CVar %s)' % q(e[1][0])
        if e[0] == 'not': return '(CNot %s)' % self.cond(e[1])
        if e[0] == 'bin' and e[1] == '&&': 
            # parse_single_or_multi_token_identifier: same line and adjacent columns
            if e == ADJ: return 'CAdjacent'
            return '(CAnd %s %s)' % (self.cond(e[2]), self.cond(e[3]))
        if e[0] == 'bin' and e[1] == '||': return '(COr %s %s)' % (self.cond(e[2]), self.cond(e[3]))
        if e[0] == 'meth':
            if is_self(e[1]) and e[2] == 'is_eof': return '(CEof %s)' % self.off(e[3][0])
            k = self.tok(e[1])
            if k is not None:
                if e[2] == 'is': return '(CTok %s (TIs %s))' % (k, q(e[3][0][1]))
                if e[2] == 'in_':
                    t, l = self.strs(e[3][0])
                    return '(CTok %s (%s))' % (k, 'TIn ' + ql(l) if t == 'lit' else 'TInVar ' + q(l))
                p = {'is_identifier': 'TIdentifier', 'is_string': 'TString', 'is_numeric': 'TNumeric'}[e[2]]
                return '(CTok %s %s)' % (k, p)
            if e[2] == 'any' and e[1][2] == 'keys' and e[1][1][2] == 'children':
                x, (_, v, b) = e[1][1][1][1][0], e[3][0]
                def keys(b):
                    if b[0] == 'bin' and b[1] == '||': return '(COr %s %s)' % (keys(b[2]), keys(b[3]))
                    assert b[:3] == ('bin', '==', ('path', [v]))
                    return '(CHasKey %s %s)' % (q(x), q(b[3][1]))
                return keys(b)
            raise Exception(('cond meth', e))
        if e[0] == 'bin' and e[1] in ('==', '!='):
            c = self.cond_eq(e[2], e[3])
            return c if e[1] == '==' else '(CNot %s)' % c
        if e[0] == 'bin' and e[1] in ('<', '>'):
            a, b = (e[2], e[3]) if e[1] == '<' else (e[3], e[2])
            if a == ('num', 0) and b[0] == 'meth' and b[2] == 'len':
                assert self.types[b[1][1][0]] == 'vec'
                return '(CNonEmpty %s)' % q(b[1][1][0])
            if a[0] == 'try' and a[1][0] == 'meth' and a[1][2] == 'get_precedence':
                return '(CPrecLt %s %s)' % (self.off(a[1][3][0]), q(b[1][0]))
        raise Exception(('cond', e))
    def cond_eq(self, a, b):
        k = self.upper(a)
        if k is not None: return '(CTok %s (TUpperIs %s))' % (k, q(b[1]))
        k = self.literal(a)
        if k is not None: return '(CTok %s (TLiteralIs %s))' % (k, q(b[1]))
        if a[0] == 'meth' and a[2] == 'len' and b == ('num', 1):
            assert self.types[a[1][1][0]] == 'vec'
            return '(CLenIs1 %s)' % q(a[1][1][0])
        if a[0] == 'field' and a[2] == 'node_type':
            ty = 'N_' + b[1][1]
            if a[1] == ('path', ['first_node']): return '(CDotRootIs "left" %s)' % ty
            return '(CTypeIs %s %s)' % (q(a[1][1][0]), ty)
        # literal.chars().next().unwrap() == '`'
        if a[0] == 'meth' and a[2] == 'unwrap':
            m = a[1]
            k = self.literal(m[1][1])
            assert m[1][2] == 'chars' and k is not None
            return '(%s %s %d%%N)' % ({'next': 'CFirstCharIs', 'last': 'CLastCharIs'}[m[2]], k, ord(b[1]))
        raise Exception(('cond_eq', a, b))
    # arguments
    def args(self, name, es):
        out = []
        for (x, ty), e in zip(PARAMTY[name], es):
            t = TY.get(ty)
            if t == 'bool': out.append('ABool ' + self.bexp(e))
            elif t == 'num': out.append('ANum ' + self.num(e))
            elif t == 'strs':
                k, l = self.strs(e); assert k == 'lit'
                out.append('AStrs ' + ql(l))
            elif t == 'node':
                assert e[0] == 'path' and self.types[e[1][0]] == 'node'
                out.append('ANode ' + q(e[1][0]))
            else: assert ty == '&mutParser' and is_self(e), (ty, e)
        n = len([1 for _, ty in PARAMTY[name] if ty != '&mutParser'])
        assert len(out) == n and len(es) == len(PARAMTY[name])
        return '[' + '; '.join(out) + ']'
    def bexp(self, e):
        if e[0] == 'path':
            if e[1][0] in ('true', 'false'): return '(BConst %s)' % e[1][0]
            assert self.types[e[1][0]] == 'bool'
            return '(BVar %s)' % q(e[1][0])
        if e[0] == 'not': return '(BNot %s)' % self.bexp(e[1])
        if e[0] == 'bin' and e[1] == '==' and e[2][0] == 'path' and self.types[e[2][1][0]] == 'str':
            return '(BStrIs %s %s)' % (q(e[2][1][0]), q(e[3][1]))
        raise Exception(('bexp', e))
    def num(self, e):
        if e[0] == 'num': return '(NumC %d)' % e[1]
        if e == ('path', ['usize', 'MAX']): return 'NumMax'
        if e[0] == 'path': 
            assert self.types[e[1][0]] == 'num', e
            return '(NumVar %s)' % q(e[1][0])
        if e[0] == 'try' and e[1][0] == 'meth' and e[1][2] == 'get_precedence':
            return '(NumPrec %s)' % self.off(e[1][3][0])
        raise Exception(('num', e))
    def call(self, e):
        """(name, args) if e is self.f(args) / f(self)"""
        if e[0] == 'meth' and is_self(e[1]) and e[2] in RET: return e[2], e[3]
        if e[0] == 'call' and len(e[1]) == 1 and e[1][0] in RET: return e[1][0], e[2]
        return None
    def typeof(self, e):
        if e[0] == 'try':
            c = self.call(e[1])
            if c: return RET[c[0]]
            if e[1][0] == 'meth' and e[1][2] == 'construct_node': return 'node'
            if e[1][0] == 'meth' and e[1][2] == 'get_precedence': return 'num'
        if e[0] == 'call' and e[1] == ['Node', 'empty']: return 'node'
        if e[0] == 'call' and e[1] == ['Vec', 'new']: return 'vec'
        if e[0] == 'macro' and e[1] == 'vec':
            return 'strs' if e[2] and e[2][0][0] == 'str' else 'vec'
        if e[0] == 'path':
            if e[1][0] in ('true', 'false'): return 'bool'
            return self.types.get(e[1][0])
        if e[0] in ('bin', 'not'): return 'bool'
        if e[0] == 'num': return 'num'
        if e[0] == 'meth' and e[2] == 'unwrap' and e[1][0] == 'meth' and e[1][2] == 'pop': return 'node'
        if self.upper(e) is not None: return 'str'
        if e[0] == 'if': return self.btype(e[2]) or self.btype(e[3])
        if e[0] == 'match':
            for _, b in e[2]:
                t = self.btype(b)
                if t: return t
        if e[0] == 'return': return None
        raise Exception(('typeof', e))
    def btype(self, b):
        stmts, tail, _ = b
        if tail is None: return None
        saved = dict(self.types)
        for s in stmts:
            if s[0] == 'let' and s[2] is not None: self.types[s[1]] = self.typeof(s[2])
        t = self.typeof(tail)
        self.types = saved
        return t
    def nexp(self, e):
        if e[0] == 'try':
            c = self.call(e[1])
            if c:
                assert RET[c[0]] == 'node', c
                return '(ECall F_%s %s)' % (c[0], self.args(*c))
            if e[1][0] == 'meth' and is_self(e[1][1]) and e[1][2] == 'construct_node':
                return '(EConstruct %s)' % self.nt(e[1][3][0])
        if e[0] == 'path' and self.types.get(e[1][0]) == 'node': return '(EVar %s)' % q(e[1][0])
        if e[0] == 'call' and e[1] == ['Node', 'empty']: return '(EEmpty %s)' % self.nt(e[2][0])
        if e[0] == 'meth' and e[2] == 'unwrap' and e[1][2] == 'pop': return '(EPop %s)' % q(e[1][1][1][0])
        raise Exception(('nexp', e))
    def nt(self, e):
        assert e[0] == 'path' and e[1][0] == 'NodeType'
        return 'N_' + e[1][1]
    def vexp(self, e):
        if e[0] == 'call' and e[1] == ['Vec', 'new']: return 'XNew'
        if e[0] == 'macro' and e[1] == 'vec':
            return '(XList [%s])' % '; '.join(self.nexp(a) for a in e[2]) if e[2] else 'XNew'
        if e[0] == 'path' and self.types.get(e[1][0]) == 'vec': return '(XVar %s)' % q(e[1][0])
        if e[0] == 'try':
            c = self.call(e[1])
            if c:
                assert RET[c[0]] == 'vec'
                return '(XCall F_%s %s)' % (c[0], self.args(*c))
        raise Exception(('vexp', e))
    # ---- commands: trees ('c', text, line) | ('seq', [..]) | ('if', cond, a, b, line) | ('case', head, a, rest) ...
    def assign_to(self, x, e, l, mode):
        """mode 'Let' or 'Set'"""
        t = self.typeof(e)
        if e[0] in ('if', 'match'):
            out = []
            if x in self.mentions(e):
                # blocks of e declare a variable of the same name: call it x_
                assert x not in free(e), (x, l)
                e = rename(e, x, x + '_')
            if mode == 'Let':
                out.append(('c', 'Declare %s' % q(x), l))
                self.types[x] = t
            out.append(self.stmt_expr(e, l, ('set', x, t)))
            return ('seq', out)
        if mode == 'Set': assert self.types.get(x) in (t, None), (x, t, l)
        if t == 'node': c = '%sNode %s %s' % (mode, q(x), self.nexp(e))
        elif t == 'vec': c = '%sVec %s %s' % (mode, q(x), self.vexp(e))
        elif t == 'bool': c = '%sBool %s %s' % (mode, q(x), self.cond(e))
        elif t == 'num': c = '%sNum %s %s' % (mode, q(x), self.num(e))
        elif t == 'strs': c = 'LetStrs %s %s' % (q(x), ql(self.strs(e)[1])); assert mode == 'Let'
        elif t == 'str': c = 'LetUpper %s %s' % (q(x), self.upper(e)); assert mode == 'Let'
        else: raise Exception((x, e, t))
        self.types[x] = t
        return ('c', c, l)
    def mentions(self, e):
        s = set()
        def go(z):
            if isinstance(z, tuple):
                if len(z) == 2 and z[0] == 'path': s.add(z[1][0])
                for y in z: go(y)
            elif isinstance(z, list):
                for y in z: go(y)
        go(e)
        return s
    def value(self, e, l, dest):
        """the value of e in tail position, sent to dest"""
        if e[0] in ('if', 'match', 'return', 'block', 'break'): return self.stmt_expr(e, l, dest)
        if dest is None:
            return self.stmt_expr(e, l, None)
        if dest == 'ret':      # tail expression of the function: a Result
            return self.ret(e, l)
        _, x, t = dest
        return self.assign_to(x, e, l, 'Set')
    def ret(self, e, l):
        c = self.call(e)
        if c:  # self.parse_x(..) returned as is
            e2 = ('try', e)
            return ('c', ('Return ' + self.nexp(e2)) if RET[c[0]] == 'node' else ('ReturnVec ' + self.vexp(e2)), l)
        if e[0] == 'call' and e[1] == ['Ok']:
            a = e[2][0]
            t = self.typeof(a)
            return ('c', ('Return ' + self.nexp(a)) if t == 'node' else ('ReturnVec ' + self.vexp(a)), l)
        if e[0] == 'call' and e[1] == ['Err']:
            i = e[2][0]
            assert i[0] == 'call' and i[1] == ['BQ2CSTError', 'from_token']
            k = self.tok(i[2][0]); m = i[2][1]
            if m[0] == 'meth' and m[2] == 'to_string': return ('c', 'Fail %s %s None' % (k, q(m[1][1])), l)
            assert m[0] == 'macro' and m[1] == 'format' and len(m[2]) == 2 and m[2][0][1].endswith('{:?}')
            return ('c', 'Fail %s %s (Some %s)' % (k, q(m[2][0][1][:-4]), self.tok(m[2][1])), l)
        raise Exception(('ret', e))
    def block(self, b, dest, saved=True):
        stmts, tail, l0 = b
        old = dict(self.types); oldrefs = dict(self.refs)
        declared = set()
        out = []
        i = 0
        while i < len(stmts):
            s = stmts[i]
            # the `offset` loops of parse_statement
            if s[0] == 'let' and s[1] == 'offset' and s[2] == ('num', 1) and stmts[i+1][0] == 'loop':
                out.append(self.offset_loop(stmts[i+1])); i += 2; continue
            if s[0] == 'let': declared.add(s[1])
            out.append(self.stmt(s)); i += 1
        if tail is not None:
            out.append(self.value(tail, self.eline(tail, l0), dest))
        # types of variables declared in this block do not escape
        for x in list(self.types):
            if x in declared and x in old: self.types[x] = old[x]
            elif x in declared: del self.types[x]
        self.refs = oldrefs
        return ('seq', out)
    def eline(self, e, d):
        return e[-1] if e[0] in ('if', 'match', 'return') else d
    def offset_loop(self, s):
        _, (stmts, tail, _), l = s
        assert stmts == [] and tail[0] == 'match'
        _, scrut, arms, ml = tail
        assert arms[-1][0] == [None]
        d = arms[-1][1]
        assert d[0][0][:3] == ('addassign', ('path', ['offset']), ('num', 1)), d
        cnd = d[1] if d[1] is not None else d[0][1][1]
        assert cnd[1] == ('bin', '<', ('num', 5), ('path', ['offset'])) and cnd[2][0][0][1] == ('break',), cnd
        self.consts['offset'] = 'offset'
        name = '%s_%d' % (self.f['name'], l)
        body = self.match(scrut, arms[:-1], ml, None, default=('c', 'again', ml))
        del self.consts['offset']
        self.aux.append((name, body, l))
        return ('c', ' '.join('(%s %d' % (name, i) for i in range(1, 6)) + ' Skip' + ')' * 5, l)
    def match(self, scrut, arms, l, dest, default=None):
        k = self.upper(scrut); head = None
        if k is not None: head = 'CaseUpper %s' % k
        else:
            k = self.literal(scrut)
            if k is not None: head = 'CaseLiteral %s' % k
            elif scrut[0] == 'meth' and scrut[2] == 'as_str' and self.types.get(scrut[1][1][0]) == 'str':
                head = 'CaseVar %s' % q(scrut[1][1][0])
        assert head, scrut
        cases = []
        for pat, b in arms:
            if pat == [None]:
                assert default is None
                default = self.block(b, dest)
            else:
                assert None not in pat
                cases.append((pat, self.block(b, dest)))
        assert default is not None
        return ('case', head, cases, default, l)
    def stmt_expr(self, e, l, dest):
        if e[0] == 'unit': return ('c', 'Skip', l)
        if e[0] == 'if':
            _, c, b, el, l = e
            return ('if', self.cond(c), self.block(b, dest), self.block(el, dest) if el else ('seq', []), l)
        if e[0] == 'match': return self.match(e[1], e[2], e[3], dest)
        if e[0] == 'return': return self.ret(e[1], e[2])
        if e[0] == 'break': return ('c', 'Break', l)
        if e[0] == 'try' and e[1][0] == 'meth' and is_self(e[1][1]) and e[1][2] == 'next_token':
            return ('c', 'Next', l)
        if e[0] == 'try' and e[1][0] == 'meth' and e[1][2] == 'construct_node':
            raise Exception(('unused construct', l))
        if e[0] == 'meth' and e[1][0] == 'path':
            x = e[1][1][0]
            if e[2] == 'push_node':
                assert self.types[x] == 'node', (x, l)
                return ('c', 'Push %s %s %s' % (q(x), q(e[3][0][1]), self.nexp(e[3][1])), l)
            if e[2] == 'push_node_vec':
                assert self.types[x] == 'node'
                return ('c', 'PushVec %s %s %s' % (q(x), q(e[3][0][1]), self.vexp(e[3][1])), l)
            if e[2] == 'push':
                assert self.types[x] == 'vec', (x, l)
                return ('c', 'VecPush %s %s' % (q(x), self.nexp(e[3][0])), l)
        raise Exception(('stmt_expr', e, l))
    def stmt(self, s):
        k = s[0]
        if k == 'let':
            _, x, e, l = s
            if e is None:
                self.types[x] = None
                return ('c', 'Declare %s' % q(x), l)
            kt = self.tok(e)
            if kt is not None and e[0] == 'try':
                self.refs[x] = kt      # let curr_token = parser.get_token(0)?;  (a borrow)
                return ('seq', [])
            return self.assign_to(x, e, l, 'Let')
        if k == 'assign':
            _, lhs, e, l = s
            if lhs[0] == 'field' and lhs[2] == 'node_type':
                return ('c', 'SetType %s %s' % (q(lhs[1][1][0]), self.nt(e)), l)
            assert lhs[0] == 'path', lhs
            assert lhs[1][0] in self.types, (lhs, l)
            return self.assign_to(lhs[1][0], e, l, 'Set')
        if k == 'expr': return self.stmt_expr(s[1], s[2], None)
        if k == 'while': return ('while', 'While ' + self.cond(s[1]), self.block(s[2], None), s[3])
        if k == 'loop': return ('while', 'While CTrue', self.block(s[1], None), s[2])
        if k == 'for':
            return ('while', 'ForFrom1 %s' % q(s[1]), self.block(s[2], None), s[3])
        if k == 'whilelet':
            _, x, e, b, l = s
            assert e[0] == 'meth' and e[2] == 'pop'
            v = e[1][1][0]; self.types[x] = 'node'
            return ('while', 'WhilePop %s %s' % (q(x), q(v)), self.block(b, None), l)
        if k == 'paren':
            self.types['statement_flg'] = 'bool'
            return ('c', 'LetBool "statement_flg" CParenOpensQuery', s[1])
        if k == 'first_node': return ('seq', [])
        if k == 'nexttok':
            self.refs['next_token'] = '1'
            return ('if', '(CNoToken 1)', ('c', 'Break', s[1]), ('seq', []), s[1])
        if k == 'try':
            self.types['group'] = 'node'
            assert 'group' not in free(s[1])
            body = self.block(rename(s[1], 'group', 'group_'), ('set', 'group', 'node'))
            return ('while', 'Try "group" F_parse_select_statement [ABool (BConst false); ABool (BConst false)]', body, s[2])
        raise Exception(('stmt', s))

def free(e):
    """free variables of an expression or block"""
    if isinstance(e, tuple):
        if len(e) == 2 and e[0] == 'path': return {e[1][0]}
        if len(e) == 3 and isinstance(e[0], list) and (e[0] == [] or isinstance(e[0][0], tuple)):
            fv, bound = set(), set()
            for s in e[0]:
                fv |= free(s[2] if s[0] == 'let' else s[1:]) - bound
                if s[0] == 'let': bound.add(s[1])
            return fv | (free(e[1]) - bound)
    r = set()
    if isinstance(e, (tuple, list)):
        for y in e: r |= free(y)
    return r
def rename(e, x, y):
    if isinstance(e, tuple):
        if len(e) == 2 and e[0] == 'path': return ('path', [y if z == x else z for z in e[1]])
        if len(e) == 4 and e[0] == 'let': return ('let', y if e[1] == x else e[1], rename(e[2], x, y), e[3])
        return tuple(rename(z, x, y) for z in e)
    if isinstance(e, list): return [rename(z, x, y) for z in e]
    return e

ADJ = None
def set_adj():
    global ADJ
    t = lambda x, f: ('field', ('path', [x]), f)
    ADJ = ('bin', '&&', ('bin', '==', t('curr_token', 'line'), t('next_token', 'line')),
           ('bin', '==', ('bin', '+', t('curr_token', 'column'),
              ('meth', ('meth', t('curr_token', 'literal'), 'chars', []), 'count', [])), t('next_token', 'column')))
set_adj()

# ---------------------------------------------------------------- printing
def flat(c):
    if c[0] == 'seq':
        r = []
        for x in c[1]: r += flat(x)
        return r
    return [c]
def show(c, ind):
    cs = flat(c)
    pad = ' ' * ind
    if not cs: return pad + 'Skip'
    out = []
    for x in cs: out.append(show1(x, ind))
    return ' ;;\n'.join(out)
def paren(c, ind):
    cs = flat(c)
    if not cs: return ' ' * ind + 'Skip'
    return ' ' * ind + '(\n' + show(c, ind + 1) + ')'
def show1(x, ind):
    pad = ' ' * ind
    if x[0] == 'c': return pad + x[1] + ' (* %d *)' % x[2]
    if x[0] == 'if':
        return pad + 'If %s (* %d *)\n' % (x[1], x[4]) + paren(x[2], ind+1) + '\n' + paren(x[3], ind+1)
    if x[0] == 'while':
        return pad + x[1] + ' (* %d *)\n' % x[3] + paren(x[2], ind+1)
    if x[0] == 'case':
        _, head, cases, default, l = x
        s = ''
        for pat, b in cases:
            s += pad + '(%s %s (* %d *)\n' % (head, ql(pat), l) + paren(b, ind+2) + '\n'
        return s + paren(default, ind+1) + ')' * len(cases)
    raise Exception(x)

out = []
w = out.append
w('(* Generated by tools/translate.py from /repo/src/parser.rs; do not edit.')
w('   One MiniRust function per function of parser.rs. The comment above a definition')
w('   gives the lines of the function, the comment after a command the line of the')
w('   statement it translates. *)')
w('From Verif Require Import Chars Token Cst Core MiniRust.')
w('Local Open Scope string_scope.')
w('Local Open Scope cmd_scope.')
w('')
w('(* The functions, in source order (parser.rs:42-4455). *)')
w('Inductive fn :=')
for f in allfns: w('| F_' + f['name'])
w('.')
w('')
w('Definition all_fns : list fn := [' + ';\n  '.join('F_' + f['name'] for f in allfns) + '].')
w('')
w('Definition fn_name (f : fn) : string :=\n  match f with')
for f in allfns: w('  | F_%s => %s' % (f['name'], q(f['name'])))
w('  end.')
w('')
for f in allfns:
    t = Fn(f)
    for x, ty in f['params']:
        if ty != '&mutParser': t.types[x] = TY[ty]
    try:
        body = t.block(f['body'], 'ret')
    except Exception as ex:
        sys.stderr.write('in %s: ' % f['name']); raise
    for name, b, l in t.aux:
        w('(* parser.rs:%d the body of the loop for one value of `offset`; [again] is the\n   loop with the next offset. *)' % l)
        w('Definition %s (offset : nat) (again : cmd fn) : cmd fn :=' % name)
        w(show(b, 2) + '.')
        w('')
    w('(* parser.rs:%d-%d *)' % f['lines'])
    w('Definition %s : fundef fn := {|' % f['name'])
    w('  f_params := %s;' % ql([x for x, ty in f['params'] if ty != '&mutParser']))
    w('  f_body := (')
    w(show(body, 4) + ')')
    w('|}.')
    w('')
VT = {'node': 'TNode', 'vec': 'TVec', 'bool': 'TBool', 'num': 'TNum', 'strs': 'TStrs'}
w('(* The types of the parameters and of the result, from the signatures. *)')
w('Definition fn_sig (f : fn) : list vtype * vtype :=\n  match f with')
for f in allfns:
    w('  | F_%s => ([%s], %s)' % (f['name'], '; '.join(VT[TY[ty]] for x, ty in f['params'] if ty != '&mutParser'),
                                VT[RET[f['name']]]))
w('  end.')
w('')
w('Definition prog (f : fn) : fundef fn :=\n  match f with')
for f in allfns: w('  | F_%s => %s' % (f['name'], f['name']))
w('  end.')
print('\n'.join(out))
