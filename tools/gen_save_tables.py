"""Writes the table of how the generated save methods of /repo/src/cwl_utils/parser/cwl_v1_{0,1,2}.py write
the fields of their classes as a Coq file.

The sources are read as text (with the ast module), never run.  Every statement of every save
method is compared with the form ShortModel.v models; anything else is an error.
usage: python3 gen_save_tables.py /repo /verif/rocq/theories
"""
import ast
import sys


def q(s):
    return '"' + s.replace('"', '""') + '"'


HEAD = [
    "r: dict[str, Any] = {}",
    "if relative_uris:\n    for ef in self.extension_fields:\n        r[prefix_url(ef, self.loadingOptions.vocab)] = self.extension_fields[ef]\n"
    "else:\n    for ef in self.extension_fields:\n        r[ef] = self.extension_fields[ef]",
]
TAIL = [
    "if top:\n    if self.loadingOptions.namespaces:\n        r['$namespaces'] = self.loadingOptions.namespaces\n"
    "    if self.loadingOptions.schemas:\n        r['$schemas'] = self.loadingOptions.schemas",
    "return r",
]
CLASS = [
    "vocab = _vocab | self.loadingOptions.vocab",
    "rvocab = _rvocab | self.loadingOptions.rvocab",
    "uri = vocab[self.class_]",
    "if (p := rvocab.get(uri[:-len(self.class_)])):\n    uri = f'{p}:{self.class_}'\nelse:\n    uri = self.class_",
]


def base(e, own):
    s = ast.unparse(e)
    if s == "base_url":
        return False
    assert s in ("self.id", "self.name"), s
    own.add(s[5:])
    return True


def method(c, m):
    """The fields in the order in which they are written, and the attribute they are written relative to"""
    assert [ast.unparse(x) for x in m.body[:2]] == HEAD, c.name
    assert [ast.unparse(x) for x in m.body[-2:]] == TAIL, c.name
    fields, own = [], set()
    for s in m.body[2:-2]:
        assert isinstance(s, ast.If) and not s.orelse
        attr = ast.unparse(s.test)
        assert attr.startswith("self.") and attr.endswith(" is not None"), attr
        attr = attr[: -len(" is not None")]
        body = list(s.body)
        value = attr
        if attr == "self.class_":
            assert [ast.unparse(x) for x in body[:4]] == CLASS, c.name
            body, value = body[4:], "uri"
        if len(body) == 2:
            call = body[0].value
            assert ast.unparse(body[0].targets[0]) == "u" and ast.unparse(call.func) == "save_relative_uri" and not call.keywords
            a = call.args
            assert len(a) == 5 and ast.unparse(a[0]) == value and ast.unparse(a[4]) == "relative_uris"
            key = body[1].targets[0]
            assert ast.unparse(body[1].value) == "u"
            how, rel = (ast.literal_eval(a[2]), ast.literal_eval(a[3])), base(a[1], own)
        else:
            assert len(body) == 1
            call = body[0].value
            assert ast.unparse(call.func) == "save" and [ast.unparse(x) for x in call.args] == [attr]
            assert [k.arg for k in call.keywords] == ["top", "base_url", "relative_uris"]
            assert ast.unparse(call.keywords[0].value) == "False" and ast.unparse(call.keywords[2].value) == "relative_uris"
            key = body[0].targets[0]
            how, rel = None, base(call.keywords[1].value, own)
        name = ast.literal_eval(key.slice)
        assert ast.unparse(key) == "r[%r]" % name and attr in ("self." + name, "self." + name + "_"), (attr, name)
        fields.append((name, how, rel))
    assert len(own) <= 1
    return fields, (own.pop() if own else None), m.lineno


def table(path):
    res = []
    for c in ast.parse(open(path).read()).body:
        if isinstance(c, ast.ClassDef):
            for m in c.body:
                if isinstance(m, ast.FunctionDef) and m.name == "save":
                    res.append((c.name,) + method(c, m))
    return res


def scope(h):
    return "None" if h is None else "(Some (%s, %s))" % (str(h[0]).lower(), "None" if h[1] is None else "Some %d" % h[1])


repo, out = sys.argv[1:3]
w = ["(** * How the save methods of src/cwl_utils/parser/cwl_v1_0.py, cwl_v1_1.py and cwl_v1_2.py write their fields",
     "      Written by tools/gen_save_tables.py; the numbers are lines of these files. *)",
     "From Verif Require Import PyBase ShortModel.", ""]
for v in (0, 1, 2):
    t = table("%s/src/cwl_utils/parser/cwl_v1_%d.py" % (repo, v))
    w.append("(** ** cwl_v1_%d.py *)" % v)
    w.append("Definition saved_v1_%d : list (string * saving) := [" % v)
    w.append(";\n".join("  (%s, (* line %d *) Saving %s [%s])" % (q(n), line, "None" if own is None else "(Some %s)" % q(own), "; ".join("(%s, %s, %s)" % (q(a), scope(h), str(r).lower()) for a, h, r in fs)) for n, fs, own, line in t))
    w.append("].")
    print(v, len(t), sum(len(x[1]) for x in t))
open(out + "/SaveTables.v", "w").write("\n".join(w) + "\n")
