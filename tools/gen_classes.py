"""Generates rocq/theories/ClassTable.v from the text of /repo/asyncapi3/models (AST only,
nothing is imported or executed).  One definition per class, in dependency order."""
import ast, glob, os, sys
ROOT = "/repo/asyncapi3/models/"
FV = {  # (class, field) -> validator tag; bodies are in Rules.v
 ("AsyncAPI3","asyncapi"):"FvVersion", ("CorrelationID","location"):"FvRuntimeExpr",
 ("AMQPOperationBindings","expiration"):"FvNonNeg", ("IBMMQMessageBindings","expiry"):"FvNonNeg",
 ("KafkaChannelBindings","partitions"):"FvPositive", ("KafkaChannelBindings","replicas"):"FvPositive",
 ("IBMMQServerBindings","heart_beat_interval"):"FvHeartBeat",
 ("IBMMQChannelBindings","max_msg_length"):"FvMaxMsg", ("SolaceOperationBindings","priority"):"FvPriority"}
mods = {}
for f in sorted(glob.glob(ROOT + "**/*.py", recursive=True)):
    mods[f] = ast.parse(open(f).read())
classes = {}   # name -> (file, node)
aliases = {}   # (file, name) -> expr
imports = {}   # (file, name) -> (module, orig)
for f, t in mods.items():
    for s in t.body:
        if isinstance(s, ast.ClassDef):
            assert s.name not in classes, s.name
            classes[s.name] = (f, s)
        elif isinstance(s, ast.Assign) and isinstance(s.targets[0], ast.Name) and s.targets[0].id not in ("__all__", "T"):
            aliases[(f, s.targets[0].id)] = s.value
        elif isinstance(s, ast.ImportFrom):
            for a in s.names:
                imports[(f, a.asname or a.name)] = (s.module, a.name)
SKIP = {"ExtendableBaseModel", "NonExtendableBaseModel", "PatternedRootModel", "EmailStr"}
def modfile(m):
    p = "/repo/" + m.replace(".", "/")
    return p + ".py" if os.path.exists(p + ".py") else p + "/__init__.py"
def resolve(f, name):
    """class name, or ('alias', file, expr)"""
    while True:
        if name in classes and classes[name][0] == f: return ("class", name)
        if (f, name) in aliases: return ("alias", f, aliases[(f, name)])
        if (f, name) in imports:
            m, o = imports[(f, name)]
            if not m.startswith("asyncapi3"): return ("ext", o)
            f, name = modfile(m), o
            continue
        return ("builtin", name)
def q(s): return '"' + s.replace('"', '""') + '"'
deps = {}
def union_members(n):
    if isinstance(n, ast.BinOp) and isinstance(n.op, ast.BitOr):
        return union_members(n.left) + union_members(n.right)
    return [n]
def tyx(f, n, ml, cur):
    if isinstance(n, ast.BinOp):
        ms = union_members(n)
        opt = any(isinstance(m, ast.Constant) and m.value is None for m in ms)
        ms = [m for m in ms if not (isinstance(m, ast.Constant) and m.value is None)]
        r = tyx(f, ms[0], ml, cur) if len(ms) == 1 else "(TUnion [" + "; ".join(tyx(f, m, ml, cur) for m in ms) + "])"
        return f"(TOpt {r})" if opt else r
    if isinstance(n, ast.Name):
        if n.id == "str": return f"(TStr (Some {ml}%N))" if ml else "(TStr None)"
        if n.id == "int": return "TInt"
        if n.id == "bool": return "TBool"
        if n.id == "dict": raise Exception("bare dict")
        k = resolve(f, n.id)
        if k[0] == "alias": return tyx(k[1], k[2], None, cur)
        if k == ("class", "EmailStr"): return "TEmail"
        if k[0] == "class": deps[cur].add(k[1]); return "T_" + k[1]
        if k == ("ext", "Any"): return "TAny"
        if k == ("ext", "AnyUrl"): return "(TUrl false)"
        if k == ("ext", "HttpUrl"): return "(TUrl true)"
        raise Exception(k)
    if isinstance(n, ast.Subscript):
        b = ast.unparse(n.value)
        if b == "list": return f"(TList {tyx(f, n.slice, None, cur)})"
        if b == "dict":
            kk, vv = n.slice.elts
            assert ast.unparse(kk) == "str"
            return f"(TDict {tyx(f, vv, None, cur)})"
        if b == "Literal":
            vs = [e.value for e in (n.slice.elts if isinstance(n.slice, ast.Tuple) else [n.slice])]
            if all(isinstance(v, str) for v in vs): return "(TLitS [" + "; ".join("u " + q(v) for v in vs) + "])"
            assert all(type(v) is int for v in vs)
            return "(TLitI [" + "; ".join(f"{v}%Z" for v in vs) + "])"
        if b == "SkipJsonSchema":
            assert ast.unparse(n.slice) == "list[type[ProcessorProtocol]] | None"
            return "(TOpt TProcs)"
    raise Exception(ast.dump(n))
def pvx(n):
    v = n.value
    if v is None: return "VNone"
    if isinstance(v, bool): return f"VBool {str(v).lower()}"
    if isinstance(v, int): return f"VInt {v}%Z"
    return f"VStr (u {q(v)})"
defs = {}
for c, (f, node) in classes.items():
    if c in SKIP: continue
    deps[c] = set()
    base = node.bases[0]
    rel = f[len("/repo/"):]
    cite = f"(* {rel}:{node.lineno}-{node.end_lineno} *)"
    if isinstance(base, ast.Subscript):
        assert ast.unparse(base.value) == "PatternedRootModel"
        defs[c] = f"{cite}\nDefinition T_{c} : ty := TRoot {q(c)} {tyx(f, base.slice, None, c)}."
        continue
    kind = {"ExtendableBaseModel": "KExt", "NonExtendableBaseModel": "KForbid", "BaseModel": "KFree"}[ast.unparse(base)]
    fs = []
    for s in node.body:
        if not isinstance(s, ast.AnnAssign): continue
        assert isinstance(s.value, ast.Call) and ast.unparse(s.value.func) == "Field"
        kw = {k.arg: k.value for k in s.value.keywords}
        assert set(kw) <= {"default", "exclude_if", "alias", "max_length", "exclude", "description"}, kw
        if s.value.args: assert ast.unparse(s.value.args[0]) == "..."
        name = s.target.id
        alias = kw["alias"].value if "alias" in kw else name
        ml = kw["max_length"].value if "max_length" in kw else None
        d = f"(Some ({pvx(kw['default'])}))" if "default" in kw else "None"
        exn = "true" if "exclude_if" in kw else "false"
        exc = "true" if "exclude" in kw else "false"
        fv = FV.pop((c, name), "FvNone")
        fs.append(f"  (fld {q(name)} {q(alias)} {d} {exn} {exc} {fv}, {tyx(f, s.annotation, ml, c)})")
    defs[c] = f"{cite}\nDefinition T_{c} : ty := TModel {q(c)} {kind} [\n" + ";\n".join(fs) + "]."
assert not FV, FV
order, seen = [], set()
def visit(c, stack=()):
    assert c not in stack, ("cycle", c)
    if c in seen: return
    for d in sorted(deps[c]): visit(d, stack + (c,))
    seen.add(c); order.append(c)
for c in classes:
    if c not in SKIP: visit(c)
out = ["(** Generated by tools/gen_classes.py from the text of /repo/asyncapi3/models.  Do not edit.",
 "    Each definition is one class: fields in declaration order with Python name, alias, default,",
 "    exclude_if=is_null, exclude, field validator tag, annotation.  Simplification: descriptions dropped. *)",
 "From Verif Require Import PyStr Value Types.", ""]
for c in order: out += [defs[c], ""]
out.append("(** All model classes, by name. *)\nDefinition all_types : list ty := [\n  " + ";\n  ".join("T_" + c for c in order) + "].")
open(sys.argv[1] if len(sys.argv) > 1 else "/verif/rocq/theories/ClassTable.v", "w").write("\n".join(out) + "\n")
print(len(order), "classes")
