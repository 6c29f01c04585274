#!/usr/bin/env python3
"""Generates rocq/theories/AstKinds.v: the node kinds of CPython 3.12's ast module, taken from this
interpreter's ast module plus the kinds 3.12 adds."""
import ast, os
OUT = os.path.join(os.path.dirname(os.path.abspath(__file__)), "..", "rocq", "theories", "AstKinds.v")
skip = {"AST", "mod", "stmt", "expr", "expr_context", "boolop", "operator", "unaryop", "cmpop",
        "excepthandler", "pattern", "type_ignore", "slice", "Num", "Str", "Bytes", "NameConstant",
        "Ellipsis", "Index", "ExtSlice", "Suite", "AugLoad", "AugStore", "Param", "type_param"}
names = sorted(n for n, c in vars(ast).items()
               if isinstance(c, type) and issubclass(c, ast.AST) and n not in skip)
for n in ("TypeAlias", "TypeVar", "ParamSpec", "TypeVarTuple"):
    if n not in names:
        names.append(n)
names.sort()
o = "(** GENERATED by tools/gen_ast.py: the concrete node classes of CPython 3.12's [ast] module\n    (standard library, not /repo). Do not edit. *)\nFrom Verif Require Import PyBase.\n\n"
o += "Inductive kind : Set :=\n" + "\n".join("| K" + n for n in names) + ".\n\n"
o += "Definition kind_id (k : kind) : N :=\n  match k with\n" + "\n".join("  | K%s => %d%%N" % (n, i) for i, n in enumerate(names)) + "\n  end.\n\n"
o += "Definition all_kinds : list kind :=\n  [ " + ";\n    ".join("K" + n for n in names) + " ].\n\n"
o += "Definition kind_eqb (a b : kind) : bool := N.eqb (kind_id a) (kind_id b).\n\n"
o += "Definition kind_name (k : kind) : string :=\n  match k with\n" + "\n".join("  | K%s => \"%s\"" % (n, n) for n in names) + "\n  end.\n"
open(OUT, "w").write(o)
print(len(names))
