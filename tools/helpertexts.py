#!/usr/bin/env python3
"""Write theories/HelperTexts.v: the texts returned by generate_utils_code, as syntax trees.

Nothing of the project is run; the texts are taken from the source with Python's parser."""
import ast, json, textwrap

SRC = "/repo/paconvert/api_matcher.py"
OUT = "/verif/rocq/theories/HelperTexts.v"


def q(s):
    return '"' + s.replace('"', '""') + '"'


def lst(l):
    return "[" + "; ".join(l) + "]"


def alias(a):
    return "MkAlias %s %s" % (q(a.name), "None" if a.asname is None else "(Some %s)" % q(a.asname))


def node(n):
    if isinstance(n, ast.Name):
        return "Name " + q(n.id)
    if isinstance(n, ast.Attribute):
        return "Attribute (%s) %s" % (node(n.value), q(n.attr))
    if isinstance(n, ast.Call):
        return "Call (%s) %s %s" % (node(n.func), lst([node(a) for a in n.args]), lst([node(k) for k in n.keywords]))
    if isinstance(n, ast.Import):
        return "Import " + lst([alias(a) for a in n.names])
    if isinstance(n, ast.ImportFrom):
        return "ImportFrom %s %s %d" % ("None" if n.module is None else "(Some %s)" % q(n.module), lst([alias(a) for a in n.names]), n.level)
    fs = []
    for f in n._fields:
        v = getattr(n, f, None)
        if f in ("ctx", "kind", "type_comment", "type_ignores", "type_params"):
            continue
        if isinstance(v, ast.AST):
            fs.append("One %s (%s)" % (q(f), node(v)))
        elif isinstance(v, list):
            items = [x for x in v if x is not None]
            fs.append("Many %s %s" % (q(f), lst([node(x) for x in items])))
        else:
            fs.append("Data %s %s" % (q(f), q(v if isinstance(v, str) and f != "value" else repr(v))))
    return "Other %s %s" % (q(type(n).__name__), lst(fs))


def main():
    tree = ast.parse(open(SRC).read())
    table = json.load(open("/repo/paconvert/api_mapping.json"))
    rows = []
    for c in tree.body:
        if not isinstance(c, ast.ClassDef):
            continue
        for f in c.body:
            if isinstance(f, ast.FunctionDef) and f.name == "generate_utils_code":
                texts = [x for x in ast.walk(f) if isinstance(x, ast.Constant) and isinstance(x.value, str) and "\n" in x.value]
                assert len(texts) == 1, c.name
                first, last = f.lineno, f.end_lineno
                code = textwrap.dedent(texts[0].value)
                if c.name == "BoxesConvertMatcher":
                    names = sorted({v["paddle_api"].split(".")[-1] for v in table.values() if v.get("Matcher") == c.name})
                    for n in names:
                        rows.append((c.name, first, last, code.format(n, n)))
                else:
                    assert not any(isinstance(x, ast.Attribute) and x.attr == "format" for x in ast.walk(f)), c.name
                    rows.append((c.name, first, last, code))
    with open(OUT, "w") as o:
        o.write("(** The texts that [generate_utils_code] of the matcher classes returns (paconvert/api_matcher.py),\n")
        o.write("    as syntax trees.  Output of tools/helpertexts.py; [ctx] fields are left out.\n")
        o.write("    [BoxesConvertMatcher] has one text per name that its rows give. *)\n")
        o.write("From Verif Require Import PyStr Ast.\nOpen Scope string_scope.\nOpen Scope list_scope.\n\n")
        names = []
        for i, (c, a, b, code) in enumerate(rows):
            nm = "helper_%02d" % i
            names.append((c, nm))
            o.write("(** api_matcher.py:%d-%d [%s] *)\n" % (a, b, c))
            o.write("Definition %s : list node :=\n  %s.\n" % (nm, "[" + ";\n   ".join(node(s) for s in ast.parse(code).body) + "]"))
        own = {c for c, _ in names}
        bases = {c.name: [b.id for b in c.bases if isinstance(b, ast.Name)] for c in tree.body if isinstance(c, ast.ClassDef)}
        for c in bases:
            b = bases[c]
            while c not in own and b:
                if b[0] in own:
                    names += [(c, n) for d, n in names if d == b[0]]
                    break
                b = bases.get(b[0])
        o.write("\n(** All of them, with the class; the classes that inherit theirs come last. *)\nDefinition helper_texts : list (string * list node) :=\n  [%s].\n" % ";\n   ".join("(%s, %s)" % (q(c), n) for c, n in names))


main()
