"""Writes the tables of loaders, classes and terms of /repo/src/cwl_utils/parser/cwl_v1_{0,1,2}.py as Coq files.

The sources are read as text (with the ast module), never run.  Every statement of every
generated fromDoc method is compared with the form LoaderModel.v models; anything else is an error.
usage: python3 gen_tables.py /repo /verif/rocq/theories
"""
import ast
import re
import sys


def q(s):
    return '"' + s.replace('"', '""') + '"'


def lit(node):
    return ast.literal_eval(node)


def opt(x, f):
    return "None" if x is None else "(Some %s)" % f(x)


def boolean(b):
    return "true" if b else "false"


PRIM = {"str": "PStr", "int": "PInt", "float": "PFloat", "bool": "PBool", "type(None)": "PNull"}


class Tables:
    def __init__(self, path, version):
        self.path, self.version = path, version
        self.tree = ast.parse(open(path).read())
        self.loaders, self.known = [], set()
        self.classes, self.proxies = [], []
        self.vocab = self.rvocab = None

    def expr(self, e):
        """A loader: a name, or a call"""
        if isinstance(e, ast.Name):
            if e.id == "CWLObjectTypeLoader":
                return '(LProxy "CWLObjectTypeLoader")'
            assert e.id in self.known, e.id
            return e.id
        f = ast.unparse(e.func)
        a = e.args
        assert not e.keywords
        if f == "_PrimitiveLoader":
            return "(LPrim %s)" % PRIM[ast.unparse(a[0])]
        if f == "_AnyLoader":
            return "LAny"
        if f == "_ProxyLoader":
            return "(LProxy %s)" % q(lit(a[0]))
        if f == "_EnumLoader":
            return "(LEnum [%s])" % "; ".join(map(q, lit(a[0])))
        if f == "_RecordLoader":
            return "(LRecord %s %s %s)" % (q(ast.unparse(a[0])), opt(lit(a[1]), q), opt(lit(a[2]), boolean))
        if f == "_UnionLoader":
            assert isinstance(a[0], ast.Tuple) and len(a) == 1
            return "(LUnion [%s])" % "; ".join(map(self.expr, a[0].elts))
        if f == "_ArrayLoader":
            return "(LArray %s)" % self.expr(a[0])
        if f == "_MapLoader":
            return "(LMap %s %s %s)" % (self.expr(a[0]), opt(lit(a[2]), q), opt(lit(a[3]), boolean))
        if f == "_ExpressionLoader":
            return "LExpression"
        if f == "_SecondaryDSLLoader":
            return "(LSecondary %s)" % self.expr(a[0])
        if f == "_URILoader":
            return "(LUri %s %s %s %s %s)" % (self.expr(a[0]), boolean(lit(a[1])), boolean(lit(a[2])), opt(lit(a[3]), str), opt(lit(a[4]), boolean))
        if f == "_TypeDSLLoader":
            return "(LTypeDSL %s %s %s)" % (self.expr(a[0]), opt(lit(a[1]), str), q(lit(a[2])))
        if f == "_IdMapLoader":
            return "(LIdMap %s %s %s)" % (self.expr(a[0]), q(lit(a[1])), opt(lit(a[2]), q))
        raise Exception(f)

    def read(self):
        for n in self.tree.body:
            if isinstance(n, (ast.Assign, ast.AnnAssign)) and isinstance(n.value, ast.Call):
                target = n.target if isinstance(n, ast.AnnAssign) else n.targets[0]
                f = ast.unparse(n.value.func)
                if not re.fullmatch(r"_\w+Loader", f):
                    continue
                if target.id == "CWLObjectTypeLoader":
                    assert ast.unparse(n.value) == "_UnionLoader((), 'CWLObjectTypeLoader')"
                    continue
                self.loaders.append((target.id, self.expr(n.value), n.lineno))
                self.known.add(target.id)
            if isinstance(n, ast.Expr) and isinstance(n.value, ast.Call):
                f = ast.unparse(n.value.func)
                if f == "CWLObjectTypeLoader.add_loaders":
                    self.proxies.append(("CWLObjectTypeLoader", "(LUnion [%s])" % "; ".join(map(self.expr, n.value.args[0].elts)), n.lineno))
                elif f == "_loaders.update":
                    for k, v in zip(n.value.args[0].keys, n.value.args[0].values):
                        if not (isinstance(v, ast.Constant) and v.value is None):
                            self.proxies.append((lit(k), self.expr(v), n.lineno))
                elif f == "_vocab.update":
                    self.vocab = lit(n.value.args[0])
                elif f == "_rvocab.update":
                    self.rvocab = lit(n.value.args[0])
        for n in self.tree.body:
            if isinstance(n, ast.ClassDef):
                for m in n.body:
                    if isinstance(m, ast.FunctionDef) and m.name == "fromDoc":
                        self.from_doc(n, m)

    def load_call(self, call, base=("baseuri",)):
        assert isinstance(call, ast.Call) and ast.unparse(call.func) == "_load_field", ast.unparse(call)
        a = [ast.unparse(x) for x in call.args]
        name = re.fullmatch(r"_doc\.get\('(\w+)'\)", a[0]).group(1)
        assert a[2] in base and a[3] == "loadingOptions", a
        assert [k.arg for k in call.keywords] == ["lc"] and ast.unparse(call.keywords[0].value) == "_doc.get('%s')" % name
        assert a[1] in self.known, a[1]
        return name, a[1], a[2]

    def handlers(self, t, name):
        assert len(t.handlers) == 1 and ast.unparse(t.handlers[0].type) == "ValidationException" and not t.orelse and not t.finalbody
        # an error is appended to _errors__ on every path, and nothing else of effect happens
        body = t.handlers[0].body
        text = ast.unparse(t.handlers[0])
        assert "raise" not in text and text.count("_errors__.append(") == 3, text
        assert isinstance(body[0], ast.Assign) and isinstance(body[1], ast.If) and len(body) == 2
        iff = body[1]
        assert len(iff.body) == 1 and len(iff.orelse) == 2 and isinstance(iff.orelse[1], ast.If)
        assert len(iff.orelse[1].body) == 2 and len(iff.orelse[1].orelse) == 1

    def from_doc(self, c, m):
        b = list(m.body)

        def take(kind=None):
            s = b.pop(0)
            assert kind is None or isinstance(s, kind), ast.unparse(s)
            return s

        assert ast.unparse(take()) == "_doc = copy.copy(doc)"
        assert ast.unparse(take()).startswith("if hasattr(doc, 'lc'):")
        assert ast.unparse(take()) == "_errors__ = []"
        identifier = klass = None
        fields, names = [], []
        scope = None
        while True:
            s = take()
            text = ast.unparse(s)
            if text == "extension_fields: MutableMapping[str, Any] = {}":
                break
            r = re.fullmatch(r"subscope_baseuri = _expand_url\('(\w+)', baseuri, loadingOptions, True\)", text)
            if r:
                scope = r.group(1)
                continue
            r = re.fullmatch(r"(\w+) = None", text)
            if r:
                var = r.group(1)
                i = take(ast.If)
                name = re.fullmatch(r"'(\w+)' in _doc", ast.unparse(i.test)).group(1)
                assert not i.orelse and len(i.body) == 1 and isinstance(i.body[0], ast.Try)
                t = i.body[0]
                assert len(t.body) == 1 and isinstance(t.body[0], ast.Assign) and ast.unparse(t.body[0].targets[0]) == var
                n2, l, base = self.load_call(t.body[0].value, ("baseuri", "subscope_baseuri"))
                assert n2 == name
                self.handlers(t, name)
                if b and ast.unparse(b[0]) == "__original_%s_is_none = %s is None" % (var, var):
                    take()
                    d = take(ast.If)
                    assert ast.unparse(d.test) == "%s is None" % var and len(d.body) == 1 and not d.orelse
                    d = d.body[0]
                    assert ast.unparse(d.test) == "docRoot is not None" and ast.unparse(d.body[0]) == "%s = docRoot" % var and len(d.body) == 1
                    assert len(d.orelse) == 1
                    e = ast.unparse(d.orelse[0])
                    if e == "%s = '_:' + str(_uuid__.uuid4())" % var:
                        required = False
                    else:
                        assert e.startswith("_errors__.append(ValidationException('missing "), e
                        required = True
                    assert ast.unparse(take()) == "if not __original_%s_is_none:\n    baseuri = cast(str, %s)" % (var, var)
                    assert identifier is None and klass is None and not fields and base == "baseuri"
                    identifier = (name, required, l)
                    continue
                fields.append((name, False, l, base != "baseuri"))
                if base != "baseuri":
                    assert scope == name
                continue
            assert isinstance(s, ast.Try), text
            first = s.body[0]
            assert isinstance(first, ast.If) and len(first.body) == 1 and not first.orelse
            name = re.fullmatch(r"_doc\.get\('(\w+)'\) is None", ast.unparse(first.test)).group(1)
            assert ast.unparse(first.body[0]) == "raise ValidationException('missing required field `%s`', None, [])" % name
            assert isinstance(s.body[1], ast.Assign)
            n2, l, base = self.load_call(s.body[1].value, ("baseuri", "subscope_baseuri"))
            assert n2 == name
            if name == "class":
                assert [ast.unparse(x) for x in s.body[2:]] == [
                    "vocab = _vocab | loadingOptions.vocab",
                    "if class_ not in (cls.__name__, vocab.get(cls.__name__)):\n    raise ValidationException(f'tried `{cls.__name__}` but')",
                ]
                assert ast.unparse(s.handlers[0]) == "except ValidationException as e:\n    raise e" and len(s.handlers) == 1
                assert klass is None and not fields
                klass = l
            else:
                assert len(s.body) == 2
                self.handlers(s, name)
                fields.append((name, True, l, base != "baseuri"))
                if base != "baseuri":
                    assert scope == name
        loop = ast.unparse(take(ast.For))
        want = "for k in _doc.keys():\n    if k not in cls.attrs:\n        if not k:\n            _errors__.append(ValidationException('mapping with implicit null key'))\n        elif ':' in k:\n            ex = _expand_url(k, '', loadingOptions, scoped_id=False, vocab_term=False)\n            extension_fields[ex] = _doc[k]\n        else:\n            _errors__.append("
        assert loop.startswith(want), loop
        assert ast.unparse(take()).startswith("if _errors__:\n    raise ValidationException(")
        assert ast.unparse(take()).startswith("_constructed = cls(")
        rest = [ast.unparse(x) for x in b]
        if identifier:
            assert rest.pop(0).startswith("loadingOptions.idx[cast(str, %s)] = " % identifier[0])
        assert rest == ["return _constructed"], rest
        attrs = None
        for s in c.body:
            if isinstance(s, ast.AnnAssign) and s.target.id == "attrs":
                attrs = lit(s.value.args[0])
        mine = ([identifier[0]] if identifier else []) + (["class"] if klass else []) + [f[0] for f in fields]
        assert sorted(attrs) == sorted(mine), (c.name, attrs, mine)
        self.classes.append((c.name, identifier, klass, fields, m.lineno))

    def write(self, out):
        w = ["(** * The loaders, classes and terms of %s" % self.path.replace("/repo/", ""),
             "      Written by tools/gen_tables.py; the numbers are lines of that file.",
             "      [CWLObjectTypeLoader], a union that contains itself, is a named loader here. *)",
             "From Verif Require Import PyBase LoaderModel.", ""]
        for name, e, line in self.loaders:
            w.append("(** line %d *)\nDefinition %s : loader := %s." % (line, name, e.strip("()") if not e.startswith("(") else e[1:-1]))
        w.append("")
        for name, i, k, fs, line in self.classes:
            w.append("(** line %d *)\nDefinition %s_class : class := Class %s %s %s [%s]." % (
                line, name, q(name), opt(i, lambda i: "(%s, %s, %s)" % (q(i[0]), boolean(i[1]), i[2])), opt(k, str),
                "; ".join("Field %s %s %s %s" % (q(f[0]), boolean(f[1]), f[2], boolean(f[3])) for f in fs)))
        w.append("\n(** The classes by their names *)\nDefinition all_classes : list (string * class) := [%s]." % "; ".join("(%s, %s_class)" % (q(c[0]), c[0]) for c in self.classes))
        w.append("(** [_loaders], line %d, and the loader that contains itself, line %d; entries that are None are left out *)\nDefinition named : list (string * loader) := [%s]." % (
            self.proxies[0][2], self.proxies[-1][2], "; ".join("(%s, %s)" % (q(p[0]), p[1]) for p in self.proxies)))
        w.append("(** [_vocab] and [_rvocab] *)\nDefinition terms : list (string * string) := [%s]." % "; ".join("(%s, %s)" % (q(a), q(b)) for a, b in self.vocab.items()))
        w.append("Definition terms_back : list (string * string) := [%s]." % "; ".join("(%s, %s)" % (q(a), q(b)) for a, b in self.rvocab.items()))
        w.append("\nDefinition classes (s : string) : option class := dget s all_classes.\nDefinition proxies (s : string) : option loader := dget s named.")
        top = None
        for n in self.tree.body:
            if isinstance(n, ast.FunctionDef) and n.name == "load_document":
                top = re.search(r"_document_load\((\w+), doc, baseuri, loadingOptions\)", ast.unparse(n)).group(1)
                line = n.lineno
        w.append("(** The loader of [load_document], line %d *)\nDefinition top : loader := %s." % (line, top))
        open(out, "w").write("\n".join(w) + "\n")


repo, out = sys.argv[1:3]
for v in (0, 1, 2):
    t = Tables("%s/src/cwl_utils/parser/cwl_v1_%d.py" % (repo, v), v)
    t.read()
    t.write("%s/CwlTablesV1_%d.v" % (out, v))
    print(v, len(t.loaders), len(t.classes), len(t.vocab))
