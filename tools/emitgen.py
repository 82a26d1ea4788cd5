import sys; sys.path.insert(0, __file__.rsplit('/', 1)[0])
from trans import *
import json
T=json.load(open('/repo/paconvert/api_mapping.json'))
def s(x):
    assert all(ord(c)<128 and (ord(c)>=32 or c=='\n') for c in x),repr(x)
    return '"'+x.replace('"','""')+'"'
def lst(l): return '['+'; '.join(l)+']'
def edit(e): return '('+' '.join([e[0]]+[s(x) for x in e[1:]])+')' if len(e)>1 else e[0]
def ex(e):
    k=e[0]
    if k in('ELit','EVar'): return f'({k} {s(e[1])})'
    if k in('EClass','ETorch','EApi','ENone'): return k
    if k=='EBool': return f'(EBool {"true" if e[1] else "false"})'
    if k in('EGet','EPop','EIn'): return f'({k} {s(e[1])} {s(e[2])})'
    if k in('EGetOr','EPopOr'): return f'({k} {s(e[1])} {s(e[2])} {ex(e[3])})'
    if k=='EFormat': return f'(EFormat {ex(e[1])} (of_exps {lst([ex(x) for x in e[2]])}))'
    if k in('ECat','EAnd','EOr'): return f'({k} {ex(e[1])} {ex(e[2])})'
    if k=='EStr': return f'(EStr {edit(e[1])} {ex(e[2])})'
    if k=='ETest': return f'(ETest {edit(e[1])} {ex(e[2])})'
    if k in('EKwargs','EUnique','ETarget','EConvert','EEmpty'): return f'({k} {s(e[1])})'
    if k=='EIf': return f'(EIf {ex(e[1])} {ex(e[2])} {ex(e[3])})'
    if k in('EIsNone','ENot'): return f'({k} {ex(e[1])})'
    if k=='EGenerate': return f'(EGenerate g_{e[1]} {s(e[2])})'
    raise Exception(e)
def bl(l,ind): 
    if not l: return 'Done'
    return '(of_stmts [\n'+';\n'.join(ind+'  '+st(x,ind+'  ') for x in l)+'])'
def st(t,ind):
    k=t[0]
    if k in('SLet',): return f'SLet {s(t[1])} {ex(t[2])}'
    if k=='SSet': return f'SSet {s(t[1])} {s(t[2])} {ex(t[3])}'
    if k in('SDo','SApi','SReturn'): return f'{k} {ex(t[1])}'
    if k in('SNew','SDefaults'): return f'{k} {s(t[1])}'
    if k in('SCopy','SUpdate','SMissing'): return f'{k} {s(t[1])} {s(t[2])}'
    if k=='SRename': return f'SRename {s(t[1])} {s(t[2])} {lst([f"({s(a)}, {s(b)})" for a,b in t[3]])}'
    if k=='SChange': return f'SChange {s(t[1])} {s(t[2])} {lst([s(x) for x in t[3]])}'
    if k=='SUtils': return k
    if k=='SIf': return f'SIf {ex(t[1])} {bl(t[2],ind)} {bl(t[3],ind)}'
    raise Exception(t)
out=[]; done={}
def need(cls):
    p=program(cls)
    o,a,b,body,refs=p
    if o in done: return o
    for r in refs: need(r)
    out.append(f'(** api_matcher.py:{a}-{b} [{o}.generate_code] *)\nDefinition g_{o} : block := {bl(body,"")}.\n')
    done[o]=1
    return o
table={}; rows=0
OV=('get_paddle_nodes','get_paddle_class_nodes','parse_args_and_kwargs','parse_func')
for r,v in T.items():
    m=v.get('Matcher')
    if m is None or 'disable' in v or v.get('abstract'): continue
    if any(find(m,x)[1] is not None for x in OV): continue
    if find(m,'generate_code')[1] is None or find(m,'get_paddle_api')[0] not in('BaseMatcher','GenericMatcher'): continue
    try: o=need(m)
    except No: continue
    table[m]=(find(m,'get_paddle_api')[0]=='GenericMatcher',o); rows+=1
ct=[(r,v['convert_tensor']) for r,v in T.items() if v.get('convert_tensor')]
hdr='''(** Generated from paconvert/api_matcher.py: the bodies of the [generate_code]
    methods, translated statement by statement into the language of Generate.v.
    Loops over a literal list are unrolled; named fields of [str.format] are made
    positional (their arguments have no effect); [textwrap.dedent] of a literal is
    evaluated; [super().generate_code] and [M.generate_code(self, ..)] refer to the
    block of that method; log calls do not occur.  In [HistogramMatcher] the loop
    over "kwargs_change" is specialised to the value ["range": ["min", "max"]] both of
    its rows have.  Data only. *)
From Verif Require Import PyStr PyDict Args Generate.

'''
body='\n'.join(out)
tab='''(** Matcher classes that use [BaseMatcher.get_paddle_nodes] and
    [BaseMatcher.parse_args_and_kwargs] unchanged, with their [generate_code] and
    whether [get_paddle_api] is that of [GenericMatcher] (api_matcher.py:94-96).  Not
    listed: [TensorSplitMatcher], [SetUpMatcher], [FAApplyRotaryEmbFuncMatcher]. *)
Definition generators : list (string * (bool * block)) := [
  '''+';\n  '.join(f'({s(m)}, ({"true" if a else "false"}, g_{o}))' for m,(a,o) in sorted(table.items()))+'''].

(** "convert_tensor" of api_mapping.json. *)
Definition convert_tensors : list (string * list string) := [
  '''+';\n  '.join(f'({s(r)}, {lst([s(x) for x in l])})' for r,l in ct)+'].\n'
open('/verif/rocq/theories/GenerateData.v','w').write(hdr+body+'\n'+tab)
print(len(table),len(done),rows)
