"""A small reader for the Rust in /repo/tests: items to terms of the model."""
import re,sys
TOK=re.compile(r'''\s+|//[^\n]*|/\*.*?\*/|(?P<lt>'[A-Za-z_]\w*(?!'))|(?P<lit>b?"(?:\\.|[^"\\])*"|b?'(?:\\.|[^'\\])'|\d[\w.]*)|(?P<id>(?:r\#)?[A-Za-z_]\w*)|(?P<p>.)''',re.S)
def lex(s):
    out=[]; i=0
    while i<len(s):
        m=TOK.match(s,i); j=m.end()
        if m.group('lt'): out.append(('lt',m.group('lt'),False,m.start()))
        elif m.group('lit'): out.append(('lit',m.group('lit'),False,m.start()))
        elif m.group('id'): out.append(('id',m.group('id'),False,m.start()))
        elif m.group('p'):
            c=m.group('p'); joint = j<len(s) and s[j] in "+-*/%^!&|=<>@.,;:#$?~'" 
            out.append(('p',c,joint,m.start()))
        i=j
    return out
def q(s): return '"'+s.replace('"','""')+'"'
def ident(s): return f'(mkIdent true {q(s[2:])})' if s.startswith('r#') else f'(I {q(s)})'
def lst(l): return '['+'; '.join(l)+']'
OPEN={'(':')','[':']','{':'}'}; DEL={'(':'Paren','[':'Bracket','{':'Brace'}
class P:
    def __init__(s,toks): s.t=toks; s.i=0
    def peek(s,k=0): return s.t[s.i+k] if s.i+k<len(s.t) else ('eof','',False,-1)
    def at(s,v,k=0): return s.peek(k)[1]==v and s.peek(k)[0] in('p','id')
    def next(s): x=s.peek(); s.i+=1; return x
    def eat(s,v):
        if s.at(v): s.i+=1; return True
        return False
    def exp(s,v):
        assert s.at(v),(v,s.t[max(0,s.i-6):s.i+6]); s.i+=1
    def colon2(s):
        if s.at(':') and s.at(':',1): s.i+=2; return True
        return False
    def group(s):
        """tokens inside the group starting here"""
        o=s.next()[1]; d=1; a=s.i
        st=[OPEN[o]]
        while st:
            x=s.next()
            if x[0]=='p' and x[1] in OPEN: st.append(OPEN[x[1]])
            elif x[0]=='p' and x[1]==st[-1]: st.pop()
            assert x[0]!='eof'
        return o,s.t[a:s.i-1]
    def ident(s):
        x=s.next(); assert x[0]=='id',(x,s.t[max(0,s.i-6):s.i+6]); return x[1]
    def attrs(s,inner=False):
        out=[]
        while s.at('#') and s.at('[',1):
            s.i+=1; o,ts=s.group(); out.append(attr(ts))
        return out
    def vis(s):
        if not s.eat('pub'): return 'VInherited'
        if s.at('('):
            o,ts=s.group(); p=P(ts); in_=p.eat('in')
            ids=[p.ident()]
            while p.colon2(): ids.append(p.ident())
            return f'(VRestricted {"true" if in_ else "false"} {lst([ident(x) for x in ids])})'
        return 'VPub'
    def for_lts(s):
        if s.at('for') and s.at('<',1):
            s.i+=2; l=[]
            while not s.eat('>'):
                l.append(s.next()[1]); s.eat(',')
            return l
        return []
    def bound(s):
        par=s.eat('(')
        if s.peek()[0]=='lt': r=f'(BLt {q(s.next()[1])})'
        else:
            m=s.eat('?'); l=s.for_lts()
            r=f'(BTrait {"true" if m else "false"} {lst([q(x) for x in l])} {s.path()})'
        if par: s.exp(')')
        return r
    def bounds(s):
        l=[]
        while s.peek()[0] in('lt','id') and not s.at('where') or s.at('?') or s.at('(') or (s.at(':') and s.at(':',1)):
            l.append(s.bound())
            if not s.eat('+'): break
        return l
    def gargs_angle(s):
        l=[]
        while not s.eat('>'):
            x=s.peek()
            if x[0]=='lt': s.i+=1; l.append(f'(ALt {q(x[1])})')
            elif x[0]=='lit': s.i+=1; l.append(f'(AConst (ELit {q(x[1])}))')
            elif x[0]=='id' and s.at('=',1): s.i+=2; l.append(f'(AAssoc {ident(x[1])} {s.ty()})')
            else: l.append(f'(ATy {s.ty()})')
            s.eat(',')
        return l
    def seg(s,expr=False):
        i=s.ident()
        if s.at(':') and s.at(':',1) and s.at('<',2):
            s.i+=3; return f'(Seg {ident(i)} (GAngle true {lst(s.gargs_angle())}))'
        if not expr and s.at('<'):
            s.i+=1; return f'(Seg {ident(i)} (GAngle false {lst(s.gargs_angle())}))'
        if not expr and s.at('('):
            o,ts=s.group(); p=P(ts); l=[]
            while p.i<len(ts): l.append(p.ty()); p.eat(',')
            out='None'
            if s.at('-') and s.at('>',1): s.i+=2; out=f'(Some {s.ty()})'
            return f'(Seg {ident(i)} (GParen {lst(l)} {out}))'
        return f'(Seg {ident(i)} GNone)'
    def path(s,expr=False):
        lead=s.colon2(); l=[s.seg(expr)]
        while s.at(':') and s.at(':',1): s.i+=2; l.append(s.seg(expr))
        return f'(Path {"true" if lead else "false"} {lst(l)})'
    def qpath(s,expr=False):
        # '<' consumed
        t=s.ty(); l=[]; n=0; lead=False
        if s.eat('as'):
            lead=s.colon2(); l=[s.seg()]
            while s.at(':') and s.at(':',1): s.i+=2; l.append(s.seg())
            n=len(l)
        else: lead=True
        s.exp('>')
        while s.at(':') and s.at(':',1): s.i+=2; l.append(s.seg(expr))
        return f'(Some ({t}, {n}))',f'(Path {"true" if lead else "false"} {lst(l)})'
    def ty(s):
        x=s.peek()
        if s.eat('&'):
            lt='None'
            if s.peek()[0]=='lt': lt=f'(Some {q(s.next()[1])})'
            m=s.eat('mut'); return f'(TyRef {lt} {"true" if m else "false"} {s.ty()})'
        if s.eat('*'):
            m=s.next()[1]=='mut'; return f'(TyPtr {"true" if m else "false"} {s.ty()})'
        if s.eat('!'): return 'TyNever'
        if s.at('('):
            o,ts=s.group(); p=P(ts); l=[]; comma=False
            while p.i<len(ts): l.append(p.ty()); comma=p.eat(',')
            return f'(TyParen {l[0]})' if len(l)==1 and not comma else f'(TyTuple {lst(l)})'
        if s.at('['):
            o,ts=s.group(); p=P(ts); t=p.ty()
            if p.eat(';'): return f'(TyArray {t} {p.expr()})'
            return f'(TySlice {t})'
        l=s.for_lts()
        if s.eat('dyn'): return f'(TyDyn {lst(s.bounds())})'
        if s.eat('fn'):
            o,ts=s.group(); p=P(ts); a=[]
            while p.i<len(ts): a.append(p.ty()); p.eat(',')
            out='None'
            if s.at('-') and s.at('>',1): s.i+=2; out=f'(Some {s.ty()})'
            return f'(TyFn {lst([q(z) for z in l])} {lst(a)} {out})'
        if s.eat('<'):
            qq,pp=s.qpath(); return f'(TyPath {qq} {pp})'
        st=s.i; p=s.path()
        if s.at('!'):
            ids=[z[1] for z in s.t[st:s.i] if z[0]=='id']; s.i+=1; o,ts=s.group()
            return f'(TyMacro {lst([ident(z) for z in ids])} {ttrees(ts)})'
        return f'(TyPath None {p})'
    def expr(s):
        x=s.peek()
        if x[0]=='lit': s.i+=1; return f'(ELit {q(x[1])})'
        if s.eat('<'):
            qq,pp=s.qpath(True); e=f'(EPath {qq} {pp})'
        else: e=f'(EPath None {s.path(True)})'
        if s.at('('):
            o,ts=s.group(); p=P(ts); a=[]
            while p.i<len(ts): a.append(p.expr()); p.eat(',')
            e=f'(ECall {e} {lst(a)})'
        return e
    def generics(s):
        l=[]
        if s.eat('<'):
            while not s.eat('>'):
                s.attrs()
                x=s.peek()
                if x[0]=='lt':
                    s.i+=1; b=[]
                    if s.eat(':'):
                        while s.peek()[0]=='lt':
                            b.append(s.next()[1]); s.eat('+')
                    l.append(f'PLt {q(x[1])} {lst([q(z) for z in b])}')
                elif s.eat('const'):
                    i=s.ident(); s.exp(':'); t=s.ty(); d='None'
                    if s.eat('='): d=f'(Some {s.expr()})'
                    l.append(f'PConst {ident(i)} {t} {d}')
                else:
                    i=s.ident(); b=[]; d='None'
                    if s.eat(':'): b=s.bounds()
                    if s.eat('='): d=f'(Some {s.ty()})'
                    l.append(f'PTy {ident(i)} {lst(b)} {d}')
                s.eat(',')
        return l
    def where(s):
        if not s.eat('where'): return 'None'
        l=[]
        while not (s.at('{') or s.at(';') or s.peek()[0]=='eof'):
            if s.peek()[0]=='lt':
                a=s.next()[1]; s.exp(':'); b=[]
                while s.peek()[0]=='lt': b.append(s.next()[1]); s.eat('+')
                l.append(f'WLt {q(a)} {lst([q(z) for z in b])}')
            else:
                f=s.for_lts(); t=s.ty(); s.exp(':')
                l.append(f'WTy {lst([q(z) for z in f])} {t} {lst(s.bounds())}')
            s.eat(',')
        return f'(Some {lst(l)})'
def tt(ts):
    p=P(ts); out=[]
    while p.i<len(ts):
        k,v,j,_=p.peek()
        if k=='p' and v in OPEN:
            o,inner=p.group(); out.append(f'TGroup {DEL[o]} {ttrees(inner)}')
        else:
            p.i+=1
            if k=='p': out.append(f'TPunct {q(v)} {"true" if j else "false"}')
            elif k=='id': out.append(f'TIdent {ident(v)}')
            elif k=='lit': out.append(f'TLit {q(v)}')
            else: out.append(f"TPunct \"'\" true"); out.append(f'TIdent {ident(v[1:])}')
    return out
def ttrees(ts): return lst(tt(ts))
def attr(ts):
    p=P(ts); lead=p.colon2(); ids=[p.ident()]
    while p.colon2(): ids.append(p.ident())
    if p.i==len(ts): m='MPath'
    elif p.at('='): p.i+=1; m=f'(MNameValue {ttrees(ts[p.i:])})'
    else: o,inner=p.group(); m=f'(MList {DEL[o]} {ttrees(inner)})'
    return ids,inner if m.startswith('(MList') else None,f'(mkAttr {"true" if lead else "false"} {lst([ident(x) for x in ids])} {m})'
def rattrs(l): return lst([f'RAttr {a[2]}' for a in l])
def fields(ts,named):
    p=P(ts); out=[]
    while p.i<len(ts):
        a=p.attrs(); v=p.vis(); i='None'
        if named: i=f'(Some {ident(p.ident())})'; p.exp(':')
        out.append(f'mkRField {rattrs(a)} {v} {i} {p.ty()}'); p.eat(',')
    return lst(out)
def item(p,attrs,v):
    """struct/enum after attributes and visibility"""
    k=p.next()[1]; i=p.ident(); g=p.generics(); w='None'
    if k=='struct':
        w=p.where()
        if p.at('{'): o,ts=p.group(); f=f'(RNamed {fields(ts,True)})'
        elif p.at('('): o,ts=p.group(); f=f'(RUnnamed {fields(ts,False)})'; w=p.where(); p.exp(';')
        else: f='RUnit'; p.exp(';')
        b=f'(RStruct {v} {ident(i)} (mkRGenerics {lst(["([], "+x+")" for x in g])} {w}) {f})'
    else:
        w=p.where(); o,ts=p.group(); pv=P(ts); vs=[]
        while pv.i<len(ts):
            a=pv.attrs(); vi=pv.ident(); f='RUnit'; d='false'
            if pv.at('{'): f=f'(RNamed {fields(pv.group()[1],True)})'
            elif pv.at('('): f=f'(RUnnamed {fields(pv.group()[1],False)})'
            if pv.eat('='):
                d='true'
                while pv.i<len(ts) and not pv.at(','): pv.next()
            pv.eat(','); vs.append(f'mkRVariant {rattrs(a)} {ident(vi)} {f} {d}')
        b=f'(REnum {v} {ident(i)} (mkRGenerics {lst(["([], "+x+")" for x in g])} {w}) {lst(vs)})'
    return i,f'(mkRItem {rattrs(attrs)} {b})'
