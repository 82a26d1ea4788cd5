import json,re
R='/repo/paconvert/'
T={n:json.load(open(R+f'{n}.json')) for n in ['api_mapping','attribute_mapping','api_alias_mapping','api_wildcard_mapping']}
def s(x): 
    assert all(ord(c)<128 and (32<=ord(c)) for c in x),x
    return '"'+x.replace('"','""')+'"'
def sl(l): return '['+'; '.join(s(x) for x in l)+']'
def tgt(v):
    if v=='' or v is None: return 'TNone'
    if isinstance(v,list): return 'TList '+sl(v)
    return 'TName '+s(v)
def entry(v):
    known={'enable_utils_code','Matcher','paddle_api','min_input_args','args_list','kwargs_change','unsupport_args','paddle_default_kwargs','overload_args_list','convert_tensor','abstract','disable'}
    assert set(v)<=known,v
    kc='['+'; '.join(f'({s(k)}, {tgt(x)})' for k,x in v.get('kwargs_change',{}).items())+']'
    dk='['+'; '.join(f'({s(k)}, {s(str(x))})' for k,x in v.get('paddle_default_kwargs',{}).items())+']'
    pa=f"(Some {s(v['paddle_api'])})" if 'paddle_api' in v else 'None'
    al,ol,mi,un=v.get('args_list') or [],v.get('overload_args_list') or [],v.get('min_input_args') or 0,v.get('unsupport_args') or []
    if not(al or ol or mi or un or kc!='[]' or dk!='[]'):
        return f'(bare {pa})'
    return f"(MkEntry {sl(al)} {sl(ol)} {mi} {sl(un)} {kc} {dk} {pa})"
def row(k,v):
    m=f"(Some {s(v['Matcher'])})" if 'Matcher' in v else 'None'
    return f"R {s(k)} {m} {'true' if 'disable' in v else 'false'} {'true' if v.get('abstract') else 'false'} {entry(v)}"
out=['''(** Generated from the JSON tables of /repo/paconvert (api_mapping.json,
    attribute_mapping.json, api_alias_mapping.json, api_wildcard_mapping.json), from
    global_var.py:40-75 and from the class statements of api_matcher.py.
    Data only.  Absent fields take the value the code reads for them
    ([.get(..) or []], [.get(.., {})]); [disable]/[abstract] record presence / truth;
    "convert_tensor" and "enable_utils_code", read only by code outside the model, are left out.  Default values are
    kept as the text ["{}".format] prints. *)
From Verif Require Import PyStr PyDict Args.

Record row := R { r_name : string; r_matcher : option string; r_disable : bool;
                  r_abstract : bool; r_entry : entry }.
Definition bare (p : option string) : entry := MkEntry [] [] 0 [] [] [] p.
''']
def table(name,t):
    ks=list(t); N=100; ch=[]
    for i in range(0,len(ks),N):
        c=f'{name}_{i//N}'; ch.append(c)
        out.append(f'Definition {c} : list row := [\n  '+';\n  '.join(row(k,t[k]) for k in ks[i:i+N])+'].\n')
    out.append(f'Definition {name} : list row := ('+' ++ '.join(ch)+')%list.\n')
table('api_mapping',T['api_mapping']); table('attribute_mapping',T['attribute_mapping']); table('wildcard_mapping',T['api_wildcard_mapping'])
out.append('Definition alias_mapping : dict string string := [\n  '+';\n  '.join(f'({s(k)}, {s(v)})' for k,v in T['api_alias_mapping'].items())+'].\n')
g=open(R+'global_var.py').read()
ns={}
seg=g[g.index('    IMPORT_PACKAGE_MAPPING'):g.index('    CHANGE_PREFIX_API')]
import textwrap; exec(textwrap.dedent(seg),ns)
def d(x): return '['+'; '.join(f'({s(k)}, {s(v)})' for k,v in x.items())+']'
out.append(f"Definition import_package_mapping : dict string string := {d(ns['IMPORT_PACKAGE_MAPPING'])}.\n")
out.append(f"Definition torch_package_mapping : dict string string := {d(ns['TORCH_PACKAGE_MAPPING'])}.\n")
out.append(f"Definition may_torch_package_list : list string := {sl(ns['MAY_TORCH_PACKAGE_LIST'])}.\n")
cl=re.findall(r'^class (\w+)\(',open(R+'api_matcher.py').read(),re.M)
out.append(f"(** Matcher classes defined in api_matcher.py, sorted, with [BaseMatcher] (base.py:326). *)\nDefinition matcher_classes : list string := {sl(sorted(set(cl+['BaseMatcher'])))}.\n")
open('/verif/rocq/theories/TablesData.v','w').write('\n'.join(out))
