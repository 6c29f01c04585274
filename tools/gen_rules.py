#!/usr/bin/env python3
"""Generates rocq/theories/RulesData.v from the text of /repo/vermin/rules.py and backports.py.
The files are parsed as text with Python's ast module; vermin is never imported or run."""
import ast, os

REPO = "/repo/vermin/"
OUT = os.path.join(os.path.dirname(os.path.abspath(__file__)), "..", "rocq", "theories", "RulesData.v")

tree = ast.parse(open(REPO + "rules.py").read())
out = []

def s(x):
    assert isinstance(x, str)
    assert all(32 <= ord(c) < 127 for c in x), x
    return '"' + x.replace('"', '""') + '"'

def ver(n):
    if isinstance(n, ast.Constant) and n.value is None:
        return "None"
    assert isinstance(n, ast.Tuple) and len(n.elts) == 2, ast.dump(n)
    a, b = (e.value for e in n.elts)
    assert isinstance(a, int) and isinstance(b, int) and a >= 0 and b >= 0
    return "Some (%d, %d)" % (a, b)

def mins(n):
    assert isinstance(n, ast.Tuple) and len(n.elts) == 2, ast.dump(n)
    return "(%s, %s)" % (ver(n.elts[0]), ver(n.elts[1]))

def notbp(test):
    """`not bp("x", config)` -> x"""
    assert isinstance(test, ast.UnaryOp) and isinstance(test.op, ast.Not)
    c = test.operand
    assert isinstance(c, ast.Call) and c.func.id == "bp" and c.args[1].id == "config" and len(c.args) == 2
    return c.args[0].value

def reqx(n):
    if isinstance(n, ast.Call):
        assert n.func.id == "bpv" and len(n.args) == 3 and n.args[2].id == "config" and not n.keywords
        return "RBpv %s %s" % (s(n.args[0].value), mins(n.args[1]))
    if isinstance(n, ast.IfExp):
        return "RIfNot %s (%s) (%s)" % (s(notbp(n.test)), reqx(n.body), reqx(n.orelse))
    if isinstance(n, ast.Tuple) and any(isinstance(e, ast.IfExp) for e in n.elts):
        # (None, X if not bp(..) else Y): the condition is lifted out of the tuple.
        assert len(n.elts) == 2
        i = [isinstance(e, ast.IfExp) for e in n.elts].index(True)
        other = n.elts[1 - i]
        assert not isinstance(other, ast.IfExp)
        c = n.elts[i]
        def mk(e):
            l = [ver(e), ver(other)]
            if i == 1:
                l.reverse()
            return "RConst (%s, %s)" % tuple(l)
        return "RIfNot %s (%s) (%s)" % (s(notbp(c.test)), mk(c.body), mk(c.orelse))
    return "RConst " + mins(n)

defs = {}
lines = {}
for st in tree.body:
    if isinstance(st, ast.FunctionDef):
        defs[st.name] = st
        lines[st.name] = (st.lineno, st.end_lineno)
    elif isinstance(st, ast.Assign):
        defs[st.targets[0].id] = st.value
        lines[st.targets[0].id] = (st.lineno, st.end_lineno)

def body_dict(name):
    f = defs[name]
    assert len(f.body) == 1 and isinstance(f.body[0], ast.Return)
    return f.body[0].value

def emit(name, coqname, typ, items):
    a, b = lines[name]
    out.append("(** rules.py:%d-%d [%s]. *)" % (a, b, name))
    # Chunks keep the terms shallow for the parser.
    N = 200
    chunks = [items[i:i + N] for i in range(0, len(items), N)] or [[]]
    if len(chunks) == 1:
        out.append("Definition %s : %s :=\n  [ %s ].\n" % (coqname, typ, ";\n    ".join(chunks[0])))
    else:
        for k, c in enumerate(chunks):
            out.append("Definition %s_%d : %s :=\n  [ %s ]." % (coqname, k, typ, ";\n    ".join(c)))
        out.append("(** rules.py:%d-%d [%s], all chunks in order. *)" % (a, b, name))
        out.append("Definition %s : %s :=\n  %s.\n" %
                   (coqname, typ, " ++ ".join("%s_%d" % (coqname, k) for k in range(len(chunks)))))

d = body_dict("MOD_REQS")
emit("MOD_REQS", "mod_reqs_x", "list (string * reqx)",
     ["(%s, %s)" % (s(k.value), reqx(v)) for k, v in zip(d.keys, d.values)])
d = body_dict("MOD_MEM_REQS")
emit("MOD_MEM_REQS", "mod_mem_reqs_x", "list (string * reqx)",
     ["(%s, %s)" % (s(k.value), reqx(v)) for k, v in zip(d.keys, d.values)])
d = body_dict("KWARGS_REQS")
emit("KWARGS_REQS", "kwargs_reqs_x", "list ((string * string) * reqx)",
     ["((%s, %s), %s)" % (s(k.elts[0].value), s(k.elts[1].value), reqx(v)) for k, v in zip(d.keys, d.values)])
for nm, cq in (("STRFTIME_REQS", "strftime_reqs"), ("BYTES_REQS", "bytes_reqs"),
               ("ARRAY_TYPECODE_REQS", "array_typecode_reqs"),
               ("CODECS_ERROR_HANDLERS", "codecs_error_handlers_reqs"),
               ("DECORATOR_USER_FUNCTIONS", "decorator_user_functions")):
    d = defs[nm]
    emit(nm, cq, "list (string * mins)", ["(%s, %s)" % (s(k.value), mins(v)) for k, v in zip(d.keys, d.values)])
d = defs["CODECS_ERRORS_INDICES"]
emit("CODECS_ERRORS_INDICES", "codecs_errors_indices", "list (string * nat)",
     ["(%s, %d%%nat)" % (s(k.value), v.value) for k, v in zip(d.keys, d.values)])
d = defs["CODECS_ENCODINGS"]
def enckey(k):
    if isinstance(k, ast.Constant):
        return "EncSubstr " + s(k.value)   # ("bz2") is a str, not a tuple
    return "EncNames [%s]" % "; ".join(s(e.value) for e in k.elts)
emit("CODECS_ENCODINGS", "codecs_encodings_reqs", "list (enckey * mins)",
     ["(%s, %s)" % (enckey(k), mins(v)) for k, v in zip(d.keys, d.values)])
d = defs["CODECS_ENCODINGS_INDICES"]
emit("CODECS_ENCODINGS_INDICES", "codecs_encodings_indices", "list (string * list nat)",
     ["(%s, [%s]%%nat)" % (s(k.value), "; ".join(str(e.value) for e in v.elts)) for k, v in zip(d.keys, d.values)])
for nm, cq in (("BUILTIN_GENERIC_ANNOTATION_TYPES", "builtin_generic_annotation_types"),
               ("DICT_UNION_SUPPORTED_TYPES", "dict_union_supported_types"),
               ("DICT_UNION_MERGE_SUPPORTED_TYPES", "dict_union_merge_supported_types")):
    emit(nm, cq, "list string", [s(e.value) for e in defs[nm].elts])

# backports.py BACKPORTS
bt = ast.parse(open(REPO + "backports.py").read())
for st in bt.body:
    if isinstance(st, ast.Assign) and st.targets[0].id == "BACKPORTS":
        its = []
        for e in st.value.elts:
            n, links, m = e.elts
            assert len(links.elts) == 1
            its.append("(%s, %s, %s)" % (s(n.value), s(links.elts[0].value), mins(m)))
        out.append("(** backports.py:%d-%d [BACKPORTS]: name, link, minimum versions. *)" % (st.lineno, st.end_lineno))
        out.append("Definition backports_table : list (string * string * mins) :=\n  [ %s ].\n" % ";\n    ".join(its))

ft = ast.parse(open(REPO + "features.py").read())
for st in ft.body:
    if isinstance(st, ast.Assign) and st.targets[0].id == "FEATURES":
        its = []
        for e in st.value.elts:
            n, descs = e.elts
            its.append("(%s, [%s])" % (s(n.value), "; ".join(s(x.value) for x in descs.elts)))
        out.append("(** features.py:%d-%d [FEATURES]. *)" % (st.lineno, st.end_lineno))
        out.append("Definition features_table : list (string * list string) :=\n  [ %s ].\n" % ";\n    ".join(its))

fm = ast.parse(open(REPO + "formats/__init__.py").read())
for st in fm.body:
    if isinstance(st, ast.Assign) and st.targets[0].id == "FORMATS":
        its = []
        for e in st.value.elts:
            n, descs = e.elts
            its.append("(%s, [%s])" % (s(n.value), "; ".join(s(x.value) for x in descs.elts)))
        out.append("(** formats/__init__.py:%d-%d [FORMATS]. *)" % (st.lineno, st.end_lineno))
        out.append("Definition formats_table : list (string * list string) :=\n  [ %s ].\n" % ";\n    ".join(its))

dt = ast.parse(open(REPO + "detection.py").read())
for st in dt.body:
    if isinstance(st, ast.Assign) and st.targets[0].id == "NOT_PY_CODE_EXTS":
        out.append("(** detection.py:%d-%d [NOT_PY_CODE_EXTS]. *)" % (st.lineno, st.end_lineno))
        out.append("Definition not_py_code_exts : list string :=\n  [ %s ].\n" % ";\n    ".join(s(e.value) for e in st.value.elts))

head = '''(** GENERATED by tools/gen_rules.py from the text of /repo/vermin/rules.py, backports.py, features.py,
    detection.py and formats/__init__.py. Do not edit. *)
From Verif Require Import PyBase.

(** A rule's requirement expression as written in rules.py: a constant pair, [bpv(name, default,
    config)] (rules.py:7-14), or [X if not bp(name, config) else Y] (rules.py:3-5). *)
Inductive reqx : Set :=
| RConst (m : mins)
| RBpv (name : string) (default : mins)
| RIfNot (name : string) (yes no : reqx).

(** A key of CODECS_ENCODINGS: a tuple of names, or a bare str such as ("bz2") (rules.py:3803-3847),
    for which Python's [in] is a substring test. *)
Inductive enckey : Set :=
| EncNames (l : list string)
| EncSubstr (s : string).

'''
open(OUT, "w").write(head + "\n".join(out) + "\n")
