#!/usr/bin/env python3
"""Translate the project's own tests (/repo/tests, read as text with ast: nothing of the repository is executed) into
programs of the test language of rocq/theories/Replay.v.  Writes rocq/theories/Replay{Models,Components,Bindings,Validators,Specs}.v.
A test that uses anything the translator does not know is left out and counted (replay.py prints the reasons)."""
import ast, collections, glob, json, os, sys
sys.path.insert(0, os.path.dirname(__file__))
import miniyaml

REPO = os.environ.get("REPO", "/repo")
OUT = os.path.join(os.path.dirname(__file__), "..", "rocq", "theories")
MODELS = set()
for f in glob.glob(REPO + "/asyncapi3/models/**/*.py", recursive=True):
    for n in ast.parse(open(f).read()).body:
        if isinstance(n, ast.ClassDef):
            MODELS.add(n.name)
BUNDLED = {"UnifiedReferencesValidator", "TagsRefValidator", "ExternalDocsRefValidator"}


class Skip(Exception):
    pass


class Opaque:
    """A value no statement of the test language talks about (messages of exceptions, logs, sets of strings...)."""


class Exc(Opaque):
    """pytest's exc_info: the index of the statement that raises"""

    def __init__(self, i):
        self.i = i


class Log(Opaque):
    """caplog"""

    def __init__(self):
        self.es = []


class Sym:
    def __init__(self, e, root=None, dump=False):
        self.e, self.root, self.dump, self.res = e, root, dump, None


class Cls:
    def __init__(self, name, ty=None):
        self.name, self.ty = name, ty


class Fun:
    def __init__(self, node, mod):
        self.node, self.mod = node, mod


class Url:
    def __init__(self, s):
        self.s = s


class Ret(Exception):
    def __init__(self, v):
        self.v = v


def cs(s):
    """a Coq pystr"""
    if all(32 <= ord(c) < 127 for c in s):
        return '(u "%s")' % s.replace('"', '""')
    return "[%s]%%N" % "; ".join(str(ord(c)) for c in s)


def name(s):
    return '"%s"' % s


def const(v):
    """a Coq pv"""
    if v is None:
        return "VNone"
    if isinstance(v, bool):
        return "(VBool %s)" % str(v).lower()
    if isinstance(v, int):
        return "(VInt (%d)%%Z)" % v
    if isinstance(v, float):
        return "(VFloat %s)" % cs(repr(v))
    if isinstance(v, str):
        return "(VStr %s)" % cs(v)
    if isinstance(v, list):
        return "(VList [%s])" % "; ".join(map(const, v))
    if isinstance(v, dict):
        if not all(isinstance(k, str) for k in v):
            raise Skip("mapping with a non-string key")
        return "(VDict [%s])" % "; ".join("(%s, %s)" % (cs(k), const(x)) for k, x in v.items())
    if isinstance(v, Cls) and v.name in BUNDLED:
        return "(VProc %s)" % cs(v.name)
    raise Skip("value %s" % type(v).__name__)


def plain(v):
    return (v is None or isinstance(v, (bool, int, float, str)) or (isinstance(v, list) and all(map(plain, v)))
            or (isinstance(v, dict) and all(map(plain, v.values()))) or (isinstance(v, Cls) and v.name in BUNDLED))


def expr(v):
    if plain(v):
        return "(XVal %s)" % const(v)
    if isinstance(v, Sym):
        return v.e
    if isinstance(v, Url):
        return "(XNewAt (TUrl false) (XVal (VStr %s)))" % cs(v.s)
    if isinstance(v, list):
        return "(XList [%s])" % "; ".join(map(expr, v))
    if isinstance(v, dict):
        if not all(isinstance(k, str) for k in v):
            raise Skip("mapping with a non-string key")
        return "(XDict [%s])" % "; ".join("(%s, %s)" % (cs(k), expr(x)) for k, x in v.items())
    if isinstance(v, Opaque):
        raise Skip("opaque value used")
    raise Skip("value %s" % type(v).__name__)


def class_names(v):
    if isinstance(v, Cls):
        return [v.name]
    if isinstance(v, tuple):
        return [n for x in v for n in class_names(x)]
    raise Skip("not a class")


BUILTINS = {"str": "str", "int": "int", "dict": "dict", "list": "list", "bool": "bool", "float": "float"}


class Test:
    """One execution of a test function."""

    def __init__(self, mod):
        self.mod, self.n, self.out, self.skipped = mod, 0, [], 0

    def emit(self, s):
        self.out.append(s)

    def let(self, v):
        """store a computed value in a fresh variable"""
        if isinstance(v, Sym) and v.root is None:
            i = self.n
            self.n += 1
            self.emit("SLet %d %s" % (i, v.e))
            r = Sym("(XVar %d)" % i, (i, []), v.dump)
            r.res = v.res
            return r
        if isinstance(v, dict) and not plain(v):
            return {k: self.let(x) for k, x in v.items()}
        if isinstance(v, list) and not plain(v):
            return [self.let(x) for x in v]
        if isinstance(v, tuple):
            return tuple(self.let(x) for x in v)
        return v

    # ---- expressions
    def ev(self, n, env):
        m = getattr(self, "ev_" + type(n).__name__, None)
        if m is None:
            raise Skip("expression %s" % type(n).__name__)
        return m(n, env)

    def ev_Constant(self, n, env):
        return n.value

    def ev_Name(self, n, env):
        if n.id in env:
            return env[n.id]
        g = self.mod.get(n.id)
        if g is not None:
            if isinstance(g, ast.expr):
                return self.ev(g, {})
            return g
        if n.id in BUILTINS:
            return Cls(BUILTINS[n.id])
        if n.id in MODELS:
            return Cls(n.id)
        raise Skip("name %s" % n.id)

    def ev_JoinedStr(self, n, env):
        r = ""
        for p in n.values:
            if isinstance(p, ast.Constant):
                r += p.value
            else:
                v = self.ev(p.value, env)
                if not isinstance(v, (str, int)):
                    raise Skip("f-string")
                r += str(v)
        return r

    def ev_List(self, n, env):
        return [self.ev(x, env) for x in n.elts]

    def ev_Tuple(self, n, env):
        return tuple(self.ev(x, env) for x in n.elts)

    def ev_Set(self, n, env):
        v = [self.ev(x, env) for x in n.elts]
        return set(v) if all(isinstance(x, str) for x in v) else Opaque()

    def ev_Dict(self, n, env):
        r = {}
        for k, x in zip(n.keys, n.values):
            v = self.ev(x, env)
            if k is None:
                r.update(v)
                continue
            r[self.ev(k, env)] = v
        return r

    def ev_UnaryOp(self, n, env):
        if isinstance(n.op, ast.USub):
            return -self.ev(n.operand, env)
        raise Skip("unary operator")

    def ev_BinOp(self, n, env):
        a, b = self.ev(n.left, env), self.ev(n.right, env)
        if isinstance(n.op, ast.BitOr) and isinstance(a, (Cls, tuple)):
            f = lambda x: x if isinstance(x, tuple) else (x,)
            return f(a) + f(b)
        if plain(a) and plain(b) and isinstance(n.op, (ast.Add, ast.Mult)):
            return a + b if isinstance(n.op, ast.Add) else a * b
        raise Skip("binary operator")

    def ev_Subscript(self, n, env):
        v, k = self.ev(n.value, env), self.ev(n.slice, env)
        if isinstance(v, Cls):
            raise Skip("generic class")
        if isinstance(v, Sym):
            if isinstance(k, str):
                return Sym("(XItem %s %s)" % (v.e, cs(k)), v.root and (v.root[0], v.root[1] + ["PKey %s" % cs(k)]), v.dump)
            if isinstance(k, int) and not isinstance(k, bool) and k >= 0:
                return Sym("(XIndex %s %d)" % (v.e, k), v.root and (v.root[0], v.root[1] + ["PIdx %d" % k]), v.dump)
            raise Skip("subscript")
        if isinstance(v, (dict, list, tuple)):
            return v[k]
        raise Skip("subscript of %s" % type(v).__name__)

    def ev_Attribute(self, n, env):
        v = self.ev(n.value, env)
        return self.attr(v, n.attr)

    def attr(self, v, a):
        if isinstance(v, Opaque):
            return v
        if isinstance(v, Sym):
            if a in ("model_extra", "__pydantic_extra__"):
                return Sym("(XExtra %s)" % v.e)
            if v.res == "resolution" and a in ("resolved_object", "resolved_type", "path"):
                r = Sym("(XItem %s %s)" % (v.e, cs(a)))
                r.res = "typename" if a == "resolved_type" else None
                return r
            if v.res == "typename" and a == "__name__":
                return Sym(v.e)
            if a.startswith("__"):
                raise Skip("attribute %s" % a)
            return Sym("(XAttr %s %s)" % (v.e, cs(a)), v.root and (v.root[0], v.root[1] + ["PField %s" % cs(a)]) if a != "root" else v.root)
        raise Skip("attribute %s of %s" % (a, type(v).__name__))

    def make(self, c, v):
        if c.ty is not None:
            r = Sym("(XNewAt %s %s)" % (c.ty, expr(v)))
            r.res = "local"
            return r
        if c.name not in MODELS:
            raise Skip("class %s" % c.name)
        return Sym("(XNew %s %s)" % (name(c.name), expr(v)))

    def kwargs(self, n, env):
        r = {}
        for k in n.keywords:
            v = self.ev(k.value, env)
            if k.arg is None:
                if not isinstance(v, dict):
                    raise Skip("**")
                r.update(v)
            else:
                r[k.arg] = v
        return r

    def ev_Call(self, n, env):
        f = n.func
        src = ast.unparse(f)
        args = lambda: [self.ev(a, env) for a in n.args]
        if src == "yaml.safe_load":
            (s,) = args()
            if isinstance(s, Opaque):
                return s
            try:
                return miniyaml.load(s)
            except Exception as e:
                raise Skip("yaml: %s" % e)
        if src in ("AnyUrl", "AnyHttpUrl", "HttpUrl"):
            (s,) = args()
            return Url(s)
        if src == "cast":
            return args()[1]
        if src == "set":
            return Opaque()
        if src == "len":
            (v,) = args()
            return Sym("(XLen %s)" % expr(v))
        if src == "list":
            (v,) = args()
            if isinstance(v, Sym):
                return Sym("(XKeys %s)" % v.e)
            return v
        if src == "str":
            (v,) = args()
            if isinstance(v, Opaque):
                return v
            return Sym("(XStr %s)" % expr(v))
        if src == "is_null":
            (v,) = args()
            return Sym("(XIsNull %s)" % expr(v))
        if src == "hash":
            (v,) = args()
            if isinstance(v, Sym):
                return Sym("(XHash %s)" % v.e)
            return Sym("(XHash %s)" % expr(v))
        if src == "validate_patterned_key":
            return Sym("(XKey %s)" % expr(args()[0]))
        if src == "TypeAdapter" and ast.unparse(n.args[0]) == "EmailStr":
            return Cls("EmailStr", "TEmail")
        if src == "RootContainer":
            return Sym('(XNewAt (TRoot "RootContainer" TAny) %s)' % expr(args()[0]))
        if src in BUNDLED:
            return Cls("instance of " + src)
        if isinstance(f, ast.Attribute):
            base = ast.unparse(f.value)
            if base == "utils":
                return self.util(f.attr, args(), self.kwargs(n, env))
            if base == "self" and f.attr in env.get("self methods", {}):
                return self.call(Fun(env["self methods"][f.attr], self.mod), [Opaque()] + args(), self.kwargs(n, env), env)
            o = self.ev(f.value, env)
            if isinstance(o, Cls):
                if o.name.startswith("instance of "):
                    return self.validator(f.attr, args(), self.kwargs(n, env))
                if f.attr in ("model_validate", "validate_python"):
                    return self.make(o, args()[0])
                if o.name == "AsyncAPI3" and f.attr == "as_builder":
                    k = self.kwargs(n, env)
                    if args():
                        raise Skip("positional builder")
                    a = {x: k.pop(x) for x in ("title", "version", "description") if x in k}
                    d = lambda x: "[%s]" % "; ".join("(%s, %s)" % (cs(q), expr(y)) for q, y in x.items())
                    return Sym("(XBuilder %s %s)" % (d(a), d(k)))
                if o.name == "Reference" and f.attr.startswith("to_"):
                    (v,) = args() + list(self.kwargs(n, env).values())
                    return Sym("(XFactory %s %s)" % (name(f.attr), expr(v)))
                raise Skip("class method %s" % f.attr)
            if isinstance(o, Sym):
                if f.attr == "model_dump":
                    if o.res == "local":
                        raise Skip("dump of a class the test declares")
                    return Sym("(XDump %s)" % o.e, None, True)
                raise Skip("method %s" % f.attr)
            if isinstance(o, dict) and f.attr == "items":
                return [list(x) for x in o.items()]
            if isinstance(o, Opaque):
                return o
            raise Skip("method %s of %s" % (f.attr, type(o).__name__))
        g = self.ev(f, env)
        if isinstance(g, Cls):
            k, a = self.kwargs(n, env), args()
            root = g.ty is not None and g.ty.startswith("(TRoot") or g.name in ROOTS
            if root:
                if a and not k:
                    return self.make(g, a[0])
                if not a and list(k) == ["root"]:
                    return self.make(g, k["root"])
                if not a:
                    return self.make(g, k)
                raise Skip("root model call")
            if a:
                raise Skip("positional arguments")
            return self.make(g, k)
        if isinstance(g, Fun):
            return self.call(g, args(), self.kwargs(n, env), env)
        raise Skip("call %s" % src)

    def util(self, f, a, k):
        if f == "resolve_reference":
            r = Sym("(XResolve %s %s)" % (expr(a[0]), expr(a[1])))
            r.res = "resolution"
            return r
        if f == "_initialize_visited_refs":
            r = Sym("(XVisited %s [%s])" % (cs(k["ref"]), "; ".join(map(cs, sorted(k["visited_refs"] or [])))))
            r.res = "set"
            return r
        if f == "_is_external_reference":
            return Sym("(XExternal %s)" % cs(a[0]))
        if f == "_parse_reference_path":
            return Sym("(XParseRef %s)" % cs(a[0]))
        if f in ("_resolve_path_part", "_resolve_from_dict", "_resolve_from_model"):
            return Sym("(XPart %s %s %s)" % (expr(a[0]), cs(a[1]), cs(a[2]))), "type of first"
        if f == "_resolve_path_parts":
            return Sym("(XParts %s [%s])" % (expr(a[0]), "; ".join(map(cs, a[1])))), "resolution"
        raise Skip("utils.%s" % f)

    def validator(self, f, a, k):
        if f == "_path_matches":
            return Sym("(XMatches %s %s)" % (cs(a[0]), cs(a[1])))
        if f == "_get_expected_type_for_path":
            p = (a or list(k.values()))[0]
            if hasattr(self, "table"):
                t = "; ".join("(%s, [%s])" % (cs(q), "; ".join(map(name, class_names(c)))) for q, c in self.table.items())
                return Sym("(XExpectedIn [%s] %s)" % (t, cs(p)))
            return Sym("(XExpected %s)" % cs(p))
        if f == "_normalize_path":
            return Sym("(XNormalize %s)" % cs((a or list(k.values()))[0]))
        if f == "_is_type_compatible":
            if not isinstance(k["expected_type"], (Cls, tuple)):
                raise Skip("not a type")
            return Sym("(XCompatible %s [%s])" % (name(k["actual_type"].name), "; ".join(map(name, class_names(k["expected_type"])))))
        if f == "_pattern_specificity":
            s = Sym("")
            s.pattern = a[0]
            return s
        if f == "validate_reference":
            return Sym("(XCheckRef %s %s %s)" % (expr(k["spec"]), expr(k["ref_obj"]), cs(k["ref_path"])))
        if f == "validate_references_recursive":
            return Sym("(XCheck %s %s %s)" % (expr(k["spec"]), expr(k["obj"]), cs(k["current_path"])))
        raise Skip("validator.%s" % f)

    # ---- texts of exceptions and log lines
    def logged(self, s, env):
        es = env["caplog"].es
        if not es or not isinstance(s, str):
            return None
        r = "(CLogs %s %s)" % (es[-1], cs(s))
        for e in reversed(es[:-1]):
            r = "(COr (CLogs %s %s) %s)" % (e, cs(s), r)
        return r

    def says(self, i, s):
        """statement i must raise a message containing s"""
        if not isinstance(s, str) or i >= len(self.out) or not self.out[i].endswith(" []"):
            return False
        for own in ("Input should be",):
            if s.startswith(own):
                s = own
        self.out[i] = self.out[i][:-2] + "[%s]" % cs(s)
        COUNT["texts"] += 1
        return True

    # ---- conditions
    def cond(self, n, env):
        """a Coq condition, or None when the assertion is not about modelled values"""
        if isinstance(n, ast.UnaryOp) and isinstance(n.op, ast.Not):
            c = self.cond(n.operand, env)
            return c and "(CNot %s)" % c
        if isinstance(n, ast.BoolOp) and isinstance(n.op, ast.Or):
            cs_ = [self.cond(x, env) for x in n.values]
            if cs_[0] == "STATED":  # a or b, with a stated: stronger
                return "STATED"
            if None in cs_:
                return None
            r = cs_[-1]
            for c in reversed(cs_[:-1]):
                r = "(COr %s %s)" % (c, r)
            return r
        if isinstance(n, ast.Compare) and len(n.ops) == 1:
            return self.compare(n, env)
        if isinstance(n, ast.Call):
            src = ast.unparse(n.func)
            if src == "isinstance":
                v = self.ev(n.args[0], env)
                c = Cls("AnyUrl") if ast.unparse(n.args[1]) == "AnyUrl" else self.ev(n.args[1], env)
                if isinstance(v, Cls):
                    return None
                if ast.unparse(n.args[1]) in ("AnyUrl",):
                    return "(CIs %s [%s])" % (expr(v), name("AnyUrl"))
                return "(CIs %s [%s])" % (expr(v), "; ".join(name(y) for x in class_names(c) for y in SUBS.get(x, [x])))
            if src == "hasattr":
                v, a = self.ev(n.args[0], env), self.ev(n.args[1], env)
                if a.startswith("__"):
                    return None
                return "(CHas %s %s)" % (expr(v), cs(a))
            if src in ("issubclass", "any", "all"):
                return None
            if src.endswith(".startswith"):
                v, a = self.ev(n.func.value, env), self.ev(n.args[0], env)
                if isinstance(v, Sym):
                    return "(CStarts %s %s)" % (expr(v), cs(a))
        v = self.ev(n, env)
        if isinstance(v, Opaque):
            return None
        return "(CEq %s (XVal (VBool true)))" % expr(v)

    def compare(self, n, env):
        op, l, r = n.ops[0], n.left, n.comparators[0]
        rs = ast.unparse(r)
        if isinstance(op, ast.In) and rs == "caplog.text":
            return self.logged(self.ev(l, env), env)
        if isinstance(r, ast.Name) and r.id in ("caplog",):
            return None
        a, b = self.ev(l, env), self.ev(r, env)
        if isinstance(op, ast.In) and isinstance(b, Exc) and self.says(b.i, a):
            return "STATED"
        if isinstance(op, ast.Eq) and isinstance(a, Exc) and isinstance(b, str) and b.startswith("Field") and self.says(a.i, b):
            return "STATED"
        if isinstance(a, Opaque) or isinstance(b, Opaque):
            return None
        if getattr(a, "res", None) == "set" and isinstance(b, set) and len(b) == 1:
            b = list(b)
        if isinstance(a, set) or isinstance(b, set):
            return None
        neg = lambda c, x: "(CNot %s)" % c if x else c
        if isinstance(op, (ast.Eq, ast.NotEq, ast.Is, ast.IsNot)):
            x = isinstance(op, (ast.NotEq, ast.IsNot))
            if isinstance(b, (Cls, tuple)) and isinstance(a, Sym) and a.e.startswith(("(XExpected", "(XVar")):
                src = getattr(a, "types", None)
                return neg("(CEq %s (XVal (VList [%s])))" % (expr(a), "; ".join("VStr %s" % cs(c) for c in class_names(b))), x)
            if isinstance(a, tuple) and a[0] == "type":
                return neg("(CIs %s [%s])" % (a[1].e, "; ".join(map(name, class_names(b)))), x)
            ea, eb = expr(a), expr(b)
            if getattr(a, "dump", False):
                eb = "(XUnurl %s)" % eb
            if getattr(b, "dump", False):
                ea = "(XUnurl %s)" % ea
            return neg("(CEq %s %s)" % (ea, eb), x)
        if isinstance(op, (ast.In, ast.NotIn)):
            if isinstance(a, str):
                return neg("(CIn %s %s)" % (cs(a), expr(b)), isinstance(op, ast.NotIn))
            if isinstance(b, (list, tuple)) and b and isinstance(a, Sym):
                r = "(CEq %s %s)" % (expr(a), expr(b[-1]))
                for y in reversed(b[:-1]):
                    r = "(COr (CEq %s %s) %s)" % (expr(a), expr(y), r)
                return neg(r, isinstance(op, ast.NotIn))
            raise Skip("in")
        if isinstance(op, ast.Gt):
            if hasattr(a, "pattern"):
                return "(CEq (XMoreSpecific %s %s) (XVal (VBool true)))" % (cs(a.pattern), cs(b.pattern))
            if isinstance(b, int):
                return "(CGt %s (%d)%%Z)" % (expr(a), b)
        raise Skip("comparison")

    # ---- statements
    def block(self, body, env):
        for s in body:
            m = getattr(self, "st_" + type(s).__name__, None)
            if m is None:
                raise Skip("statement %s" % type(s).__name__)
            m(s, env)

    def st_Pass(self, s, env):
        pass

    def st_Expr(self, s, env):
        if isinstance(s.value, ast.Constant):
            return
        src = ast.unparse(s.value)
        if src.startswith("monkeypatch.setattr(unified_references_module, 'REFERENCE_TYPE_MAPPINGS'"):
            self.table = self.ev(s.value.args[2], env)
            return
        v = self.ev(s.value, env)
        if isinstance(v, tuple) and isinstance(v[0], Sym):
            v = v[0]
        if isinstance(v, Sym):
            self.emit("SDo %s" % v.e)

    def bind(self, t, v, env):
        if isinstance(t, ast.Name):
            if isinstance(v, Sym) and hasattr(v, "pattern"):
                env[t.id] = v
                return
            env[t.id] = self.let(v)
        elif isinstance(t, (ast.Tuple, ast.List)):
            if isinstance(v, tuple) and v[1:] == ("type of first",):
                o = self.let(v[0])
                env[t.elts[0].id], env[t.elts[1].id] = o, ("type", o)
                return
            if isinstance(v, tuple) and v[1:] == ("resolution",):
                o = self.let(v[0])
                for x, f in zip(t.elts, ("resolved_object", "resolved_type", "path")):
                    env[x.id] = Sym("(XItem %s %s)" % (o.e, cs(f)))
                    env[x.id].res = "typename" if f == "resolved_type" else None
                return
            if not isinstance(v, (tuple, list)) or len(v) != len(t.elts):
                raise Skip("unpacking")
            for x, y in zip(t.elts, v):
                self.bind(x, y, env)
        elif isinstance(t, ast.Attribute):
            o = self.ev(t.value, env)
            if t.attr == "__pydantic_extra__" or not isinstance(o, Sym) or o.root is None:
                raise Skip("attribute assignment")
            self.emit("SSetAttr %d [%s] %s %s" % (o.root[0], "; ".join(o.root[1]), cs(t.attr), expr(v)))
        elif isinstance(t, ast.Subscript):
            o, k = self.ev(t.value, env), self.ev(t.slice, env)
            if isinstance(o, dict) and plain(o):
                o[k] = v
                return
            if not isinstance(o, Sym) or o.root is None or not isinstance(k, str):
                raise Skip("item assignment")
            self.emit("SSetItem %d [%s] %s %s" % (o.root[0], "; ".join(o.root[1]), cs(k), expr(v)))
        else:
            raise Skip("target")

    def st_Assign(self, s, env):
        v = self.ev(s.value, env)
        for t in s.targets:
            self.bind(t, v, env)

    def st_AnnAssign(self, s, env):
        if s.value is not None:
            self.bind(s.target, self.ev(s.value, env), env)

    def st_Delete(self, s, env):
        for t in s.targets:
            if not isinstance(t, ast.Subscript):
                raise Skip("del")
            o, k = self.ev(t.value, env), self.ev(t.slice, env)
            if not isinstance(o, Sym) or o.root is None:
                raise Skip("del")
            self.emit("SDelItem %d [%s] %s" % (o.root[0], "; ".join(o.root[1]), cs(k)))

    def st_Return(self, s, env):
        raise Ret(self.ev(s.value, env))

    def st_Assert(self, s, env):
        if isinstance(s.test, ast.BoolOp) and isinstance(s.test.op, ast.And):
            for x in s.test.values:
                self.one_assert(x, env)
        else:
            self.one_assert(s.test, env)

    def one_assert(self, t, env):
        src = ast.unparse(t)
        if src.startswith("any((") and src.endswith("in record.message for record in caplog.records))"):
            c = self.logged(self.ev(t.args[0].elt.left, env), env)
        else:
            c = self.cond(t, env)
        if c == "STATED":
            return
        if c is None:
            self.skipped += 1
            if os.environ.get("V"):
                print("UNSTATED", src)
        else:
            self.emit("SAssert %s" % c)

    def st_With(self, s, env):
        assert len(s.items) == 1
        src = ast.unparse(s.items[0].context_expr)
        if src.startswith("caplog."):
            k = len(self.out)
            self.block(s.body, env)
            for x in self.out[k:]:
                if x.startswith("SDo "):
                    env["caplog"].es.append(x[4:])
                elif x.startswith("SLet "):
                    env["caplog"].es.append(x.split(" ", 2)[2])
            return
        if not src.startswith("pytest.raises("):
            raise Skip("with")
        outer, self.out = self.out, []
        self.block(s.body, env)
        inner, self.out = self.out, outer
        self.emit("SRaises [%s] []" % "; ".join(inner))
        if s.items[0].optional_vars is not None:
            env[s.items[0].optional_vars.id] = Exc(len(self.out) - 1)
        for k in s.items[0].context_expr.keywords:
            if k.arg == "match":
                v = self.ev(k.value, env)
                if isinstance(v, str):
                    v = v.replace("\\", "")
                if not self.says(len(self.out) - 1, v):
                    self.skipped += 1

    def st_For(self, s, env):
        it = self.ev(s.iter, env)
        if not isinstance(it, list):
            raise Skip("for")
        for v in it:
            self.bind(s.target, v, env)
            self.block(s.body, env)

    def st_If(self, s, env):
        """only tests whose outcome is known when translating: "key" in data"""
        t = s.test
        if isinstance(t, ast.Compare) and isinstance(t.ops[0], ast.In):
            k, d = self.ev(t.left, env), self.ev(t.comparators[0], env)
            if isinstance(k, str) and isinstance(d, dict):
                return self.block(s.body if k in d else s.orelse, env)
        raise Skip("if")

    def st_ClassDef(self, s, env):
        env[s.name] = self.klass(s)

    def klass(self, s):
        if len(s.bases) != 1:
            raise Skip("class")
        base = ast.unparse(s.bases[0])
        simple = {"str": "(TStr None)", "int": "TInt", "bool": "TBool"}
        if base.startswith("PatternedRootModel["):
            t = simple.get(base[len("PatternedRootModel["):-1])
            if t is None:
                raise Skip("class")
            return Cls(s.name, "(TRoot %s %s)" % (name(s.name), t))
        kind = {"ExtendableBaseModel": "KExt", "NonExtendableBaseModel": "KForbid"}.get(base)
        if kind is None:
            raise Skip("class based on %s" % base)
        fs = []
        for x in s.body:
            if isinstance(x, ast.Expr) or isinstance(x, ast.Pass):
                continue
            if not isinstance(x, ast.AnnAssign) or x.value is not None or ast.unparse(x.annotation) not in simple:
                raise Skip("class field")
            fs.append("(fld %s %s None false false FvNone, %s)" % (name(x.target.id), name(x.target.id), simple[ast.unparse(x.annotation)]))
        return Cls(s.name, "(TModel %s %s [%s])" % (name(s.name), kind, "; ".join(fs)))

    def call(self, f, args, kw, env):
        names = [a.arg for a in f.node.args.args]
        e = {"self methods": env.get("self methods", {})}
        e.update(zip(names, args))
        e.update(kw)
        try:
            self.block(f.node.body, e)
        except Ret as r:
            return r.v
        return None


ROOTS = set()
SUBS = {}  # base class -> classes deriving from it


def roots():
    for f in glob.glob(REPO + "/asyncapi3/models/**/*.py", recursive=True):
        for n in ast.parse(open(f).read()).body:
            if isinstance(n, ast.ClassDef):
                for b in n.bases:
                    if ast.unparse(b) in ("ExtendableBaseModel", "NonExtendableBaseModel"):
                        SUBS.setdefault(ast.unparse(b), []).append(n.name)
            if isinstance(n, ast.ClassDef) and any(ast.unparse(b).startswith("PatternedRootModel") for b in n.bases):
                ROOTS.add(n.name)


roots()
REASONS, COUNT = collections.Counter(), collections.Counter()


def instances(fn, mod, t0):
    """the parameter sets of a test function: (suffix, thunk giving the arguments)"""
    sets = [("", [])]
    for d in fn.decorator_list:
        src = ast.unparse(d.func) if isinstance(d, ast.Call) else ast.unparse(d)
        if src == "parametrize_with_cases":
            names = [x.strip() for x in ast.literal_eval(d.args[0]).split(",")]
            cases = next(k.value for k in d.keywords if k.arg == "cases")
            new = [("/" + c.id, (names, ("case", c.id))) for c in (cases.elts if isinstance(cases, ast.List) else [cases])]
        elif src == "pytest.mark.parametrize":
            a0 = ast.literal_eval(d.args[0])
            names = [x.strip() for x in a0.split(",")] if isinstance(a0, str) else list(a0)
            a1 = d.args[1]
            if ast.unparse(a1) == "list(REFERENCE_TYPE_MAPPINGS_OLD.items())":
                m = mod["REFERENCE_TYPE_MAPPINGS_OLD"]
                new = [("/%d" % i, (names, ("value", ast.Tuple([k, v], ast.Load())))) for i, (k, v) in enumerate(zip(m.keys, m.values))]
            elif isinstance(a1, ast.List):
                new = [("/%d" % i, (names, ("value", x))) for i, x in enumerate(a1.elts)]
            else:
                raise Skip("parametrize %s" % ast.unparse(a1)[:50])
        else:
            raise Skip("decorator %s" % src)
        sets = [(s + s2, p + [p2]) for s, p in sets for s2, p2 in new]
    return sets


def replay_file(path):
    tree = ast.parse(open(path).read())
    mod, tests = {}, []
    for n in tree.body:
        if isinstance(n, ast.FunctionDef):
            mod[n.name] = Fun(n, mod)
        elif isinstance(n, ast.Assign) and isinstance(n.targets[0], ast.Name):
            mod[n.targets[0].id] = n.value
        elif isinstance(n, ast.ImportFrom):
            for a in n.names:
                if a.name in BUNDLED:
                    mod[a.asname or a.name] = Cls(a.name)
    fns = [(n, {}, "") for n in tree.body if isinstance(n, ast.FunctionDef) and n.name.startswith("test")]
    for c in tree.body:
        if isinstance(c, ast.ClassDef):
            ms = {m.name: m for m in c.body if isinstance(m, ast.FunctionDef)}
            fns += [(m, ms, c.name + ".") for m in ms.values() if m.name.startswith("test")]
    for fn, ms, pre in fns:
        try:
            sets = instances(fn, mod, None)
        except Skip as e:
            REASONS[str(e)] += 1
            COUNT["skipped"] += 1
            continue
        for suf, params in sets:
            t = Test(mod)
            env = {"self methods": ms, "self": Opaque(), "caplog": Log(), "monkeypatch": Opaque()}
            full = os.path.relpath(path, REPO + "/tests") + "::" + pre + fn.name + suf
            try:
                for names, (kind, x) in params:
                    if kind == "case":
                        v = t.call(mod[x], [], {}, {})
                    else:
                        v = t.ev(x, {})
                        if isinstance(v, Fun):
                            raise Skip("case function as a value")
                    if len(names) == 1:
                        env[names[0]] = t.let(v)
                    else:
                        for a, b in zip(names, v):
                            env[a] = t.let(b)
                t.block(fn.body, env)
            except Skip as e:
                REASONS[str(e)] += 1
                COUNT["skipped"] += 1
                if os.environ.get("V"):
                    print("SKIP", full, e)
                continue
            COUNT["asserts"] += sum(1 for s in t.out if s.startswith(("SAssert", "SRaises")))
            COUNT["unstated"] += t.skipped
            if not any(s.startswith(("SAssert", "SRaises", "SDo", "SLet")) for s in t.out):
                COUNT["empty"] += 1
                continue
            COUNT["tests"] += 1
            tests.append((full, t.out))
    return tests


HEAD = """(** GENERATED by tools/replay.py from %s (do not edit): the project's own tests as programs of Replay.v. *)
From Verif Require Import PyStr Regex Value Types Classes State Unified Replay.
Local Open Scope string_scope.
Local Notation t := (@pair string (list stmt)).
"""


def write(mod, src, tests, lemma):
    with open(os.path.join(OUT, mod + ".v"), "w") as f:
        f.write(HEAD % src)
        names = []
        for i in range(0, len(tests), 40):
            names.append("part%d" % (i // 40))
            f.write("Definition %s : list (string * list stmt) := [\n" % names[-1])
            f.write(";\n".join('t "%s" [%s]' % (n, ";\n  ".join(b)) for n, b in tests[i:i + 40]))
            f.write("].\n")
        f.write("(** %d tests *)\nDefinition tests := (%s)%%list.\n" % (len(tests), " ++ ".join(names)))
        f.write("Example %s : failing tests = [] /\\ length tests = %d.\nProof. vm_compute. split; reflexivity. Qed.\n" % (lemma, len(tests)))


def specs():
    tests = []
    js = sorted(glob.glob(REPO + "/tests/fixtures/json_specs/valid/*"))
    ys = sorted(glob.glob(REPO + "/tests/fixtures/yaml_specs/valid/single_file/*")) + [
        REPO + "/tests/fixtures/yaml_specs/valid/multi_files/%s/asyncapi.yaml" % d
        for d in ("backend", "comments-service", "frontend", "notification-service", "public-api")]
    for p in js + ys:
        try:
            v = json.load(open(p)) if p in js else miniyaml.load(open(p).read())
            tests.append((os.path.relpath(p, REPO + "/tests"), ["SDo (XNew \"AsyncAPI3\" %s)" % expr(v)]))
            COUNT["specs"] += 1
        except Exception as e:
            REASONS["fixture %s: %s" % (os.path.basename(p), e)] += 1
    return tests


if __name__ == "__main__":
    T = REPO + "/tests/"
    groups = {
        "ReplayModels": ("tests/models", [f for f in sorted(glob.glob(T + "models/test_*.py")) if "components" not in f], "models_tests_pass"),
        "ReplayComponents": ("tests/models/test_components.py", [T + "models/test_components.py"], "components_tests_pass"),
        "ReplayBindings": ("tests/models/bindings", sorted(glob.glob(T + "models/bindings/test_*.py")), "bindings_tests_pass"),
        "ReplayValidators": ("tests/validators", sorted(glob.glob(T + "validators/test_*.py")), "validators_tests_pass"),
    }
    for m, (src, files, lemma) in groups.items():
        write(m, src, [t for f in files for t in replay_file(f)], lemma)
    write("ReplaySpecs", "tests/fixtures", specs(), "specs_accepted")
    print(dict(COUNT))
    for k, v in REASONS.most_common(60):
        print(v, k)
