#!/usr/bin/env python3
"""Writes rocq/theories/UsageData.v: the print calls of Arguments.print_usage, read with `ast` from
/repo/vermin/arguments.py, and the constants of /repo/vermin/constants.py. Nothing of /repo is run."""
import ast
import os
import re

REPO = "/repo/vermin"
OUT = os.path.join(os.path.dirname(__file__), "..", "rocq", "theories", "UsageData.v")

def coq(s):
  assert all(ord(c) < 128 for c in s)
  return '"' + s.replace('"', '""') + '"'

HOLES = {
  "VERSION": "HVersion",
  "sys.argv[0]": "HProg",
  "', '.join([\"'{}'\".format(fn) for fn in CONFIG_FILE_NAMES])": "HNames",
  "', '.join([\"'{}'\".format(pb) for pb in PROJECT_BOUNDARIES])": "HBoundaries",
  "DEFAULT_PROCESSES": "HCpus",
  "formats.help_str(10)": "HFormats",
  "Backports.str(10)": "HBackports",
  "Features.str(10)": "HFeatures",
}

def pieces(call):
  assert call.func.id == "print" and len(call.args) == 1 and not call.keywords
  a = call.args[0]
  if isinstance(a, ast.Constant):
    return ["Txt " + coq(a.value)]
  assert isinstance(a, ast.Call) and a.func.attr == "format"
  parts = re.split(r"\{\}", a.func.value.value)
  assert not any("{" in p or "}" in p for p in parts) and len(parts) == len(a.args) + 1
  res = ["Txt " + coq(parts[0])]
  for (h, p) in zip(a.args, parts[1:]):
    res.append(HOLES[ast.unparse(h)])
    res.append("Txt " + coq(p))
  return [p for p in res if p != 'Txt ""']

def prints(stmts):
  return [(s.lineno, s.end_lineno, pieces(s.value)) for s in stmts]

tree = ast.parse(open(os.path.join(REPO, "arguments.py")).read())
fn = next(n for n in ast.walk(tree) if isinstance(n, ast.FunctionDef) and n.name == "print_usage")
rows = []
for s in fn.body:
  if isinstance(s, ast.If):
    assert not s.orelse
    cond = {"not full": "OnlyShort", "full": "OnlyFull"}[ast.unparse(s.test)]
    rows += [(cond,) + p for p in prints(s.body)]
  else:
    rows += [("Always",) + p for p in prints([s])]

consts = {}
for s in ast.parse(open(os.path.join(REPO, "constants.py")).read()).body:
  if isinstance(s, ast.Assign) and s.targets[0].id != "DEFAULT_PROCESSES":
    consts[s.targets[0].id] = (s.lineno, s.end_lineno, ast.literal_eval(s.value))

with open(OUT, "w") as f:
  f.write("(** Generated by tools/gen_usage.py from /repo/vermin/arguments.py and constants.py. *)\n")
  f.write("From Verif Require Import PyBase.\n\n")
  (a, b, v) = consts["VERSION"]
  f.write("(** constants.py:%d [VERSION]. *)\nDefinition version_text : string := %s.\n\n" % (a, coq(v)))
  f.write("(** The parts of a printed text: literal text, and what str.format puts in (arguments.py:17-192). *)\n"
          "Inductive piece : Set :=\n| Txt (s : string)\n"
          "| HVersion | HProg | HNames | HBoundaries | HCpus | HFormats | HBackports | HFeatures.\n\n"
          "(** Whether a print call is outside of the two [if]s, under [if not full] or under [if full]. *)\n"
          "Inductive when : Set := Always | OnlyShort | OnlyFull.\n\n")
  f.write("(** arguments.py:%d-%d: the print calls of [print_usage] in order. *)\n" % (fn.body[0].lineno, fn.end_lineno))
  f.write("Definition usage_prints : list (when * list piece) :=\n  [ ")
  f.write(";\n    ".join("(* %d-%d *) (%s, [%s])" % (a, b, c, "; ".join(p)) for (c, a, b, p) in rows))
  f.write(" ].\n")
