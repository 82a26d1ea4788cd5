import ast,textwrap,json,sys
SRC=open('/repo/paconvert/api_matcher.py').read()
TREE=ast.parse(SRC)
CLS={c.name:c for c in TREE.body if isinstance(c,ast.ClassDef)}
def bases(n): return [ast.unparse(b) for b in CLS[n].bases] if n in CLS else []
def mro(n):
    out=[n]; 
    for b in bases(n):
        out+= mro(b)
    return out
def find(n,meth):
    for c in mro(n):
        if c in CLS:
            for f in CLS[c].body:
                if isinstance(f,ast.FunctionDef) and f.name==meth: return c,f
    return 'BaseMatcher',None
class No(Exception): pass
def no(n,why=''): raise No(f'{getattr(n,"lineno","?")}: {why or ast.unparse(n)[:100]}')
def S(n):
    if isinstance(n,ast.Constant) and isinstance(n.value,str): return n.value
    return None
DED='textwrap.dedent'
class Tr:
    def __init__(self,cls,owner): self.cls=cls; self.owner=owner; self.dicts={'kwargs'}; self.consts={}; self.refs=set(); self.tmpl={}; self.lists={}; self.flags=set()
    def isdict(self,n): return isinstance(n,ast.Name) and n.id in self.dicts
    def key(self,n):
        if isinstance(n,ast.Subscript) and isinstance(n.value,ast.Name) and n.value.id in self.lists and isinstance(n.slice,ast.Name):
            return self.lists[n.value.id][self.consts[n.slice.id]]
        s=S(n)
        if s is not None: return s
        if isinstance(n,ast.Name) and n.id in self.consts: return self.consts[n.id]
        no(n,'key '+ast.unparse(n))
    def exp(self,n):
        if isinstance(n,ast.Constant):
            v=n.value
            if isinstance(v,str): return ('ELit',v)
            if v is None: return ('ENone',)
            if isinstance(v,bool): return ('EBool',v)
            if isinstance(v,(int,float)): return ('ELit',repr(v))
            no(n)
        if isinstance(n,ast.Name):
            if n.id in self.consts: return ('ELit',self.consts[n.id])
            if n.id in self.dicts: no(n,'dict as value '+n.id)
            return ('EVar',n.id)
        if isinstance(n,ast.Attribute):
            u=ast.unparse(n)
            if u=='self.paddleClass': return ('EClass',)
            if u=='self.torch_api': return ('ETorch',)
            no(n)
        if isinstance(n,ast.Subscript):
            if self.isdict(n.value): return ('EGet',n.value.id,self.key(n.slice))
            u=ast.unparse(n)
            if u=="self.get_paddle_api().split('.')[-1]": return ('EStr',('AfterLast','.'),('EApi',))
            if isinstance(n.slice,ast.Slice):
                x=ast.unparse(n.value)
                if u==f"{x}[{x}.rfind('.'):]": return ('EStr',('FromLast','.'),self.exp(n.value))
                if u==f"{x}[0:{x}.rfind('.')]": return ('EStr',('BeforeLast','.'),self.exp(n.value))
            no(n)
        if isinstance(n,ast.JoinedStr):
            parts=[]; t=''
            for v in n.values:
                if isinstance(v,ast.Constant): t+=v.value.replace('{','{{').replace('}','}}')
                else:
                    if v.conversion!=-1 or v.format_spec: no(n)
                    t+='{}'; parts.append(self.exp(v.value))
            return ('EFormat',('ELit',t),parts)
        if isinstance(n,ast.BinOp) and isinstance(n.op,ast.Add): return ('ECat',self.exp(n.left),self.exp(n.right))
        if isinstance(n,ast.IfExp): return ('EIf',self.exp(n.test),self.exp(n.body),self.exp(n.orelse))
        if isinstance(n,ast.BoolOp):
            if ast.unparse(n)=="kwargs['dim'][1:-1].isdigit() and int(kwargs['dim'][1:-1]) == 0":
                return ('ETest',('ZeroInside',),('EGet','kwargs','dim'))
            r=self.exp(n.values[-1])
            for v in reversed(n.values[:-1]): r=('EAnd' if isinstance(n.op,ast.And) else 'EOr',self.exp(v),r)
            return r
        if isinstance(n,ast.UnaryOp) and isinstance(n.op,ast.Not) and self.isdict(n.operand): return ('EEmpty',n.operand.id)
        if isinstance(n,ast.UnaryOp) and isinstance(n.op,ast.Not): return ('ENot',self.exp(n.operand))
        if isinstance(n,ast.Compare):
            if len(n.ops)!=1: no(n)
            op=n.ops[0]; a=n.left; b=n.comparators[0]
            if isinstance(op,(ast.In,ast.NotIn)):
                neg=isinstance(op,ast.NotIn)
                if isinstance(b,ast.Call) and ast.unparse(b).endswith('.keys()') and self.isdict(b.func.value): b=b.func.value
                if self.isdict(b): r=('EIn',self.key(a),b.id)
                elif isinstance(b,ast.Name) and b.id=='convert_tensor': r=('EConvert',self.key(a))
                elif isinstance(b,ast.Name) and b.id=='kwargs_change_value': r=('ETarget',self.key(a))
                elif isinstance(b,(ast.List,ast.Tuple)):
                    e=[('ETest',('Is',self.key(x)),self.exp(a)) for x in b.elts]
                    r=e[-1]
                    for x in reversed(e[:-1]): r=('EOr',x,r)
                else:
                    s=S(a)
                    if s is None: no(n)
                    r=('ETest',('Has',s),self.exp(b))
                return ('ENot',r) if neg else r
            if isinstance(op,(ast.Eq,ast.NotEq)):
                u=ast.unparse(a)
                if u.startswith('len(') and self.isdict(a.args[0]) and isinstance(b,ast.Constant): 
                    r=('EEmpty',a.args[0].id)
                    if b.value!=0: no(n)
                else:
                    if S(b) is None and S(a) is not None: a,b=b,a
                    if S(b) is None: no(n)
                    r=('ETest',('Is',S(b)),self.exp(a))
                return ('ENot',r) if isinstance(op,ast.NotEq) else r
            if isinstance(op,(ast.Is,ast.IsNot)) and isinstance(b,ast.Constant) and b.value is None:
                r=('EIsNone',self.exp(a)); return ('ENot',r) if isinstance(op,ast.IsNot) else r
            no(n)
        if isinstance(n,ast.Call): return self.call(n)
        no(n)
    def call(self,n):
        f=ast.unparse(n.func); a=n.args
        if n.keywords and not f.endswith('.format'): no(n)
        if f==DED:
            if S(a[0]) is None: no(n)
            return ('ELit',textwrap.dedent(S(a[0])))
        if f=='get_unique_name': return ('EUnique',S(a[0]))
        if f=='self.get_paddle_api': return ('EApi',)
        if f=='self.kwargs_to_str' and self.isdict(a[0]): return ('EKwargs',a[0].id)
        if f=='self.get_rounding_method':
            x=self.exp(a[0])
            return ('EIf',('ETest',('Has','trunc'),x),('ELit','.trunc_()'),('EIf',('ETest',('Has','floor'),x),('ELit','.floor_()'),('ELit','')))
        if f=='bool': return self.exp(a[0])
        if f=='super().generate_code':
            for b in mro(self.owner)[1:]:
                c,fn=find(b,'generate_code'); 
                if fn: 
                    self.refs.add(c); return ('EGenerate',c,self.dict(a[0]))
            no(n)
        if f.endswith('.generate_code') and f.split('.')[0] in CLS:
            c,fn=find(f.split('.')[0],'generate_code'); self.refs.add(c)
            return ('EGenerate',c,self.dict(a[1]))
        if isinstance(n.func,ast.Attribute):
            o=n.func.value; m=n.func.attr
            if m=='pop' and self.isdict(o) and len(a)==1: return ('EPop',o.id,self.key(a[0]))
            if m=='pop' and self.isdict(o) and len(a)==2: return ('EPopOr',o.id,self.key(a[0]),self.exp(a[1]))
            if m=='strip' and len(a)==0: return ('EStr',('StripSpace',),self.exp(o))
            if m=='get' and self.isdict(o):
                return ('EGetOr',o.id,self.key(a[0]),self.exp(a[1]) if len(a)>1 else ('ENone',))
            if m=='format':
                if n.keywords:
                    # named fields: every argument is free of side effects, so it is repeated at each use
                    import re
                    if a: no(n)
                    kw={k.arg:self.exp(k.value) for k in n.keywords}
                    if 'EPop' in repr(kw) or 'EUnique' in repr(kw) or 'EGenerate' in repr(kw): no(n,'effect '+repr(kw))
                    if isinstance(o,ast.Name) and o.id in self.tmpl: t=self.tmpl[o.id]
                    elif S(o) is not None: t=S(o)
                    else: no(n)
                    names=re.findall(r'\{(\w+)\}',t); 
                    return ('EFormat',('ELit',re.sub(r'\{\w+\}','{}',t)),[kw[x] for x in names])
                import re
                t=S(o) if S(o) is not None else self.tmpl.get(o.id) if isinstance(o,ast.Name) else None
                if t is not None and re.search(r'\{\d+\}',t):
                    es=[self.exp(x) for x in a]
                    if 'EPop' in repr(es) or 'EUnique' in repr(es): no(n)
                    idx=re.findall(r'\{(\d+)\}',t)
                    return ('EFormat',('ELit',re.sub(r'\{\d+\}','{}',t)),[es[int(x)] for x in idx])
                if t is None: print('unknown template',self.owner,n.lineno,ast.unparse(n)[:100],file=sys.stderr)
                return ('EFormat',self.exp(o),[self.exp(x) for x in a])
            if m=='strip' and len(a)==1: return ('EStr',('Strip',S(a[0])),self.exp(o))
            if m=='rstrip' and len(a)==1: return ('EStr',('RStrip',S(a[0])),self.exp(o))
            if m=='replace' and len(a)==2: return ('EStr',('Replace',S(a[0]),S(a[1])),self.exp(o))
            if m=='isdigit': return ('ETest',('Digits',),self.exp(o))
        no(n)
    def dict(self,n):
        if self.isdict(n): return n.id
        no(n)
    def stmts(self,l):
        out=[]
        for s in l: out+=self.stmt(s)
        return out
    def stmt(self,s):
        if isinstance(s,ast.Pass): return []
        if isinstance(s,ast.Return):
            if s.value is None: return [('SReturn',('ENone',))]
            return [('SReturn',self.exp(s.value))]
        if isinstance(s,ast.If):
            c=self.exp(s.test); t0=dict(self.tmpl); a=self.stmts(s.body); t1=self.tmpl; self.tmpl=dict(t0); b=self.stmts(s.orelse); t2=self.tmpl
            self.tmpl={k:v for k,v in t0.items() if t1.get(k)==v and t2.get(k)==v}
            return [('SIf',c,a,b)]
        if isinstance(s,ast.For):
            if isinstance(s.iter,(ast.List,ast.Tuple)) and isinstance(s.target,ast.Name) and all(S(x) is not None for x in s.iter.elts):
                out=[]
                for x in s.iter.elts:
                    self.consts[s.target.id]=S(x); out+=self.stmts(s.body)
                self.consts.pop(s.target.id); return out
            if ast.unparse(s.iter).startswith('enumerate(') and ast.unparse(s.iter.args[0]) in self.lists:
                i,x=[z.id for z in s.target.elts]; out=[]
                for j,v in enumerate(self.lists[s.iter.args[0].id]):
                    self.consts[i]=j; self.consts[x]=v; out+=self.stmts(s.body)
                self.consts.pop(i); self.consts.pop(x); return out
            if ast.unparse(s)=="""for k in pro_kwargs.keys():
    if k not in kwargs.keys():
        kwargs[k] = pro_kwargs[k]""": return [('SMissing','kwargs','pro_kwargs')]
            u=ast.unparse(s.iter)
            if self.owner=='HistogramMatcher' and u=='kwargs_change':
                g=('EGet','kwargs','range')
                return [('SIf',('EIn','range','kwargs'),[('SSet','kwargs','min',('EFormat',('ELit','{}[0]'),[g])),('SSet','kwargs','max',('EFormat',('ELit','{}[1]'),[g])),('SDo',('EPop','kwargs','range'))],[])]
            if u=='list(kwargs.keys())':
                ren=[]; b=s.body
                if len(b)!=1: no(s)
                c=b[0]
                while isinstance(c,ast.If):
                    k=S(c.test.comparators[0]); 
                    if ast.unparse(c.test)!=f"k == {k!r}": no(s)
                    t=c.body[0]
                    if len(c.body)!=1 or ast.unparse(t.value)!='kwargs.pop(k)' or ast.unparse(t.targets[0].value)!='new_kwargs': no(s)
                    ren.append((k,S(t.targets[0].slice)))
                    if len(c.orelse)!=1: no(s)
                    c=c.orelse[0]
                if ast.unparse(c)!='new_kwargs[k] = kwargs.pop(k)': no(s)
                return [('SRename','new_kwargs','kwargs',ren)]
            no(s,'for '+ast.unparse(s)[:150])
        if isinstance(s,ast.AugAssign) and isinstance(s.op,ast.Add) and isinstance(s.target,ast.Name):
            return [('SLet',s.target.id,('ECat',('EVar',s.target.id),self.exp(s.value)))]
        if isinstance(s,ast.Expr):
            v=s.value
            if isinstance(v,ast.Call):
                f=ast.unparse(v.func)
                if f=='self.enable_utils_code': return [('SUtils',)]
                if f=='process_reduce_and_size_average':
                    fn=[g for g in TREE.body if isinstance(g,ast.FunctionDef) and g.name==f][0]
                    if self.dict(v.args[0])!='kwargs': no(s)
                    return self.stmts(fn.body)
                if isinstance(v.func,ast.Attribute) and v.func.attr=='update' and self.isdict(v.func.value): 
                    if isinstance(v.args[0],ast.Dict):
                        return [('SSet',v.func.value.id,self.key(k),self.exp(x)) for k,x in zip(v.args[0].keys,v.args[0].values)]
                    return [('SUpdate',v.func.value.id,self.dict(v.args[0]))]
                if isinstance(v.func,ast.Attribute) and v.func.attr=='pop': return [('SDo',self.exp(v))]
            no(s)
        if isinstance(s,ast.Assign) and len(s.targets)==1:
            t=s.targets[0]; v=s.value
            if isinstance(t,ast.Attribute) and ast.unparse(t)=='self.paddle_api': return [('SApi',self.exp(v))]
            if isinstance(t,ast.Subscript) and self.isdict(t.value): return [('SSet',t.value.id,self.key(t.slice),self.exp(v))]
            if isinstance(t,ast.Tuple) and isinstance(v,ast.Tuple) and all(isinstance(x,ast.Constant) for x in v.elts):
                return [('SLet',x.id,self.exp(y)) for x,y in zip(t.elts,v.elts)]
            if isinstance(t,ast.Name) and isinstance(v,ast.List) and all(S(x) is not None for x in v.elts) and t.id.startswith('params'):
                self.lists[t.id]=[S(x) for x in v.elts]; return []
            if isinstance(t,ast.Name) and isinstance(v,ast.Call) and ast.unparse(v.func)==DED and S(v.args[0]) is not None: self.tmpl[t.id]=textwrap.dedent(S(v.args[0]))
            if isinstance(t,ast.Name):
                if ast.unparse(s)=='kwargs = self.kwargs_to_str(kwargs)':
                    self.dicts.remove('kwargs'); return [('SLet','kwargs',('EKwargs','kwargs'))]
                if self.isdict(v): self.dicts.add(t.id); return [('SCopy',t.id,v.id)]
                if t.id in ('kwargs_change_value','convert_tensor') or (self.owner=='HistogramMatcher' and t.id=='kwargs_change'): return []
                if isinstance(v,ast.Dict):
                    if t.id=='kwargs':
                        out=[('SNew','kwargs@')]
                        for k,x in zip(v.keys,v.values):
                            if k is None: out.append(('SUpdate','kwargs@',self.dict(x)))
                            else: out.append(('SSet','kwargs@',self.key(k),self.exp(x)))
                        return out+[('SCopy','kwargs','kwargs@')]
                    self.dicts.add(t.id); out=[]; 
                    if t.id in [ast.unparse(x) for x in v.values]: no(s)
                    out.append(('SNew',t.id))
                    for k,x in zip(v.keys,v.values):
                        if k is None: out.append(('SUpdate',t.id,self.dict(x)))
                        else: out.append(('SSet',t.id,self.key(k),self.exp(x)))
                    return out
                if isinstance(v,ast.Call):
                    f=ast.unparse(v.func)
                    if f=='self.change_kwargs':
                        d=self.dict(v.args[0]); u=[]
                        if len(v.args)>1: u=[S(x) for x in v.args[1].elts]
                        self.dicts.add(t.id); return [('SChange',t.id,d,u)]
                    if f=='self.set_paddle_default_kwargs':
                        d=self.dict(v.args[0]); 
                        if d!=t.id: no(s)
                        return [('SDefaults',d)]
                    if f.endswith('.copy') and self.isdict(v.func.value):
                        self.dicts.add(t.id); return [('SCopy',t.id,v.func.value.id)]
                if t.id in self.dicts: no(s)
                return [('SLet',t.id,self.exp(v))]
            no(s)
        no(s)
def program(cls):
    owner,f=find(cls,'generate_code')
    if f is None: return None
    t=Tr(cls,owner)
    return owner,f.lineno,f.end_lineno,t.stmts(f.body),t.refs
if __name__=='__main__':
    ok=0
    for c in CLS:
        if any(isinstance(f,ast.FunctionDef) and f.name=='generate_code' for f in CLS[c].body):
            try: program(c); ok+=1
            except No as e: print(c,e)
    print(ok)
