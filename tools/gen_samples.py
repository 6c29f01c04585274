#!/usr/bin/env python3
"""Writes rocq/theories/Samples.v and Trees.v: what CPython's parser and tokenizer make of a few sources, used by
the concrete cases beside the theorems. Reads no vermin code."""
import ast, os, sys
sys.path.insert(0, os.path.dirname(os.path.abspath(__file__)))
from conformance import Conv, cstr, parsed, tokens

SAMPLES = [
  ("argparse", "import argparse\n"),
  ("walrus", "(x := 1)\n"),
  ("print2", "print 'a'\n"),
  ("strftime", "x.strftime(5)\n"),
  ("asyncio", "import asyncio\n"),
  ("novm", "import argparse # novm\n"),
  ("literal_ann", "x: Literal[1] = 1\n"),
  ("enum_typing", "import enum\nimport typing\n"),
  ("py2only", "import ConfigParser\n"),
  ("py3only", "import configparser\n"),
]

# Syntax trees for the visitor.
# Likewise, for the tips (C72).
TIP_SAMPLES = [
  ("clash_novm", "import ConfigParser\nimport configparser\nimport ssl # novm\n"),
  ("extensions", "import typing_extensions\n"),
  ("annotated", "d: dict[str, int] = {}\n"),
]
LAYOUT = ("import argparse # novm\n@d\ndef f(x):\n  with (a as b,\n        c as d):\n    import ssl # novm\n"
          "try:\n  pass\nexcept* E:\n  pass\nprint(f'{f=}')\n")
FAR = "with " + "\\\n" * 12 + "(a as x, b as y): pass\n"
WIDE = ("# a\nimport argparse  # novm\n\n\n@d\n\ndef f( x ):\n    with \\\n  (a as b, c as d):\n        import ssl # novermin\n\n"
        "try: pass\nexcept  * E: pass\nprint(\n    f'{f=}' )\n")
LAYOUT_SAMPLES = [
  ("layout", LAYOUT), ("wide", WIDE), ("layout_down", "# Copyright\n#\n\n" + LAYOUT), ("far", FAR), ("far_down", "\n" + FAR),
]
# Pairs of sources that differ in annotations only (C86).
ANNOTATED = [
  ("annotated", "import typing\nx: int = f'{1}' # novm\ndef f(a: int) -> str:\n  y: list = a\n"
                "class A:\n  def g(self):\n    if self:\n      async def h() -> None: pass\n    z: Final = 2\n",
                "import typing\nx: typing.Self = f'{1}' # novm\ndef f(a: int) -> dict[str,\n                       typing.Self]:\n"
                "  y: typing.Self = a\nclass A:\n  def g(self):\n    if self:\n      async def h() -> typing.Self: pass\n"
                "    z: Final[typing.Self] = 2\n"),
  ("argument", "import typing\ndef f(a: int): pass\n", "import typing\ndef f(a: typing.Self): pass\n"),
  ("method", "import typing\nclass A:\n  def f(self) -> int: pass\n", "import typing\nclass A:\n  def f(self) -> typing.Self: pass\n"),
  ("attribute", "import typing\nclass A:\n  x: int\n", "import typing\nclass A:\n  x: typing.Self\n"),
]
# Two sources that differ in statements without requirements only (C85).
IDLE = ('"""Module."""\nimport argparse # novm\nclass A:\n  """Class."""\n  x = 1\n  def f(self):\n    \'Method.\'\n    pass\n'
        "    for y in self:\n      assert 1 < -2\n      if y: break\n    return f'{self=}'\n"
        "try:\n  while 0 or (1, 'a'): break\n  import enum\nfinally:\n  global z\n  None\n")
BARE = ("import argparse # novm\nclass A:\n  x = 1\n  def f(self):\n    for y in self:\n      if y: 'no break'\n    return f'{self=}'\n"
        "try:\n  import enum\nfinally:\n  'nothing'\n")
# Sources with and without constructs that settings are for (C88).
CONSTRUCTS = [
  ("plain", "import os, argparse\nfrom collections import deque\nT = list\nq = deque()\ndef f(a, b):\n"
            "  q[0] += T(a)[0] ^ b.items[1:]\n  return os.environ['x'], q[-1]\n"),
  ("bar", "isinstance(a, int | str)\n"),
  ("documenting", "f'{a=}'\n"),
  ("subscript", "T = dict\nx = T[str, int]\n"),
]
# Trees for C78.
WORK_TREES = [
  ("work", "class A:\n  def f(self):\n    class B:\n      x = 1\n    try:\n      g()\n    finally:\n      try:\n        pass\n      finally:\n        h(2)\n"),
  ("no_work", "def f(x):\n  for y in x:\n    with y: print(y, [z for z in y])\n"),
]
FSTRING_TREES = [
  ("documented", "import os\nprint(f'at { os . path.sep = }: {[x for x in (a, -1)] + d[ k ]=!s}', f'{h(t) is not None=}')\n"),
  ("single_quotes", "f\"{'a'=}\"\n"),
  ("two_arguments", "f'{g(a, b)=}'\n"),
  ("a_slice", "f'{a[1:2]=}'\n"),
  ("renamed", "import os as o\nf'{o.path=}'\n"),
  ("plain_text", "f'a={a}'\n"),
]
LINE_TREES = [
  ("lines", "from zipfile import ZipFile\nZipFile('a',\n  'r',\n  compresslevel=3)\nprint(\n  flush=1)\n"),
]
NAME_TREES = [
  ("names", "import os\nimport collections as co\nfrom collections import OrderedDict, deque\n"
            "class A: pass\nT = list\nd = {}\no = OrderedDict()\n"
            "if d | dict(): pass\no | os.environ\nos.environ |= d\nA | co.abc\ndeque[int]\nco.deque[str]\nT[int]\n"),
  ("dict_comp", "{a: a for a in b} | {}\n"),
  ("dict_call", "import collections\ncollections.OrderedDict() | {}\n"),
  ("dict_walrus", "(d := {})\nd | {}\n"),
]
TREES = [
  ("more_code", "import argparse\nfrom functools import lru_cache\nprint(x, end='')\ndef lru(y):\n  z = yield y\nd.strftime('%G')\n(n := 1)\n"),
  ("more_names", "import argparse\nfrom enum import Enum\nargparse = Enum\n"),
  ("lax_all", "import argparse\nimport ssl\nisinstance(a, int | str)\n"),
  ("lax_ext", "import typing_extensions\n"),
  ("lax_eval", "x: (ExceptionGroup := 1) = 2\nraise ExceptionGroup\n"),
  ("fewer_kw", "foo(k=(long := 1))\nlong\n"),
  ("fewer_mod", "import importlib\nimportlib.metadata\n"),
  ("fewer_all", "import argparse\nimport codecs\nfrom functools import lru_cache, cmp_to_key\n@lru_cache\ndef f(a):\n  return codecs.encode(a, 'rot13', errors='surrogateescape')\n"),
  ("features", "async def f(a, *, b):\n  yield (x := await g(f'{a}'))\n  print(a[...], b'', ...)\n"),
  ("finally", "try:\n  pass\nfinally:\n  if x:\n    continue\n"),
  ("finally_loop", "try:\n  pass\nfinally:\n  for y in x:\n    continue\n"),
  ("kwargs", "from zipfile import ZipFile\nz = ZipFile(0)\nZipFile('a', compresslevel=1)\nz.open(mode=2)\nh(g(x=1), y=2)\n"),
  ("kwarg_lost", "import bz2\nbz2.open(f()(), newline=1)\n"),
  ("scopes", "class A:\n  def f(self, argparse): pass\ndef f(b): pass\nlambda c: 1\n[d for d in x]\nwith x as h: i = 1\nfor j in x: k = 1\n"),
  ("exclusions", "import argparse, asyncio\nfrom os import path\nlong\nprint(end='')\nos.path.relpath('a', start='b')\n"),
  ("uses", "import os\nos.path.relpath('a')\nfrom zipfile import ZipFile\nraise ModuleNotFoundError()\n"),
  ("slots", "b = bz2.open\nx = a[i].b\n"),
  ("texts", "import codecs, functools\nfrom array import array\n@functools.lru_cache\ndef f(x): return array('q', x)\nd.strftime('%Y-%3G')\nb'%d'\ncodecs.encode('a', 'mbcs', errors='namereplace')\n"),
  ("crash_format", "def f(x):\n  return x.strftime(5)\n"),
  ("crash_annotation", "def f(x: 1j): pass\n"),
  ("crash_encoding", "import codecs as c\nc.open('f', encoding=None)\n"),
  ("kw_value", "def foo(x): pass\nfoo(x=f'{1}')\n"),
  ("ann_value", "x: int = f'{a}'\n"),
  ("own_names", "breakpoint()\nimport argparse\nif x:\n  def breakpoint(): pass\nfrom a import b as argparse\nanext(argparse)\n"),
  ("own_in_for", "for x in y:\n  def breakpoint(): pass\nbreakpoint()\n"),
  ("asks", "import codecs, functools, argparse\n@functools.cache\ndef f(x): return codecs.encode(x, 'hex', errors='namereplace')\n"
           "d.strftime('%Y-%3G')\nb'%a'\narray.array('q', [])\ndef g():\n  try: pass\n  except ModuleNotFoundError:\n"
           "    return os.path.relpath(x)\n"),
  ("before", "import datetime as dt, argparse\nfrom functools import cache\nfrom zipfile import ZipFile\nfrom asyncio import loop\nimport codecs as c\n@cache\n"
             "def f(x): return print(x, flush=True)\nz = ZipFile('a', strict_timestamps=f'{1}')\nif z:\n"
             "  argparse.ArgumentParser(allow_abbrev=True)\ndt.timezone.utc\nc.encode(z, 'hex')\nloop.create_task(z, name=1)\n"),
  ("around", "async def f(xs):\n  yield [x for x in xs if await x]\n  await xs\ndef __dir__(): pass\ndef __getattr__(name): pass\n"
             "with (a as b,\n      c as d):\n  try: pass\n  finally:\n    if a: continue\n"),
  ("await_elt", "async def f(xs):\n  return [await x for x in xs]\n"),
  ("kw_renamed", "from zipfile import ZipFile as Z\nZ('a', strict_timestamps=True)\n"),
  ("spots", "import codecs\nimport bz2\nx = [a,\n     f'{b}']\ncodecs.encode(x, 'bz2')\n"),
  ("novm_method", "class A:\n  def f(self): # novm\n    import argparse\n  x = 1\n"),
]

# A tree with excluded lines, and the same tree without the statements on them.
ERASED = [
  ("novm_block", "import argparse # novm\nif x:\n  import asyncio # novm\n  y = 1\n"
                 "class A:\n  def f(self):\n    with x: # novm\n      import enum\n    print(x) # novm\n    import ssl\n", [1, 3, 7, 9]),
]

# Nodes of the second tree that stand for nodes of the first one keep their identity.
def idle_trees():
  idle, bare = ast.parse(IDLE), ast.parse(BARE)
  yield "idle", IDLE, idle
  kinds = (ast.Pass, ast.Break, ast.Assert, ast.Global, ast.While)
  def is_idle(x):
    return isinstance(x, kinds) or isinstance(x, ast.Expr) and isinstance(x.value, ast.Constant)
  def move(old, new):
    for field, x in ast.iter_fields(new):
      y = getattr(old, field)
      if isinstance(x, ast.AST):
        move(y, x); setattr(new, field, y)
      elif isinstance(x, list):
        rest = [z for z in y if not is_idle(z)] if field in ("body", "finalbody") else list(y)
        l = []
        for z in x:
          if isinstance(z, ast.AST) and not (field in ("body", "finalbody") and is_idle(z)):
            q = rest.pop(0); move(q, z); l.append(q)
          else:
            l.append(z)
        setattr(new, field, l)
    for a in ("lineno", "col_offset"):
      if hasattr(new, a): setattr(old, a, getattr(new, a))
    for field, x in ast.iter_fields(new): setattr(old, field, x)
  move(idle, bare)
  yield "bare", BARE, idle

def annotated_trees(src, new):
  a, b = ast.parse(src), ast.parse(new)
  yield "", src, a
  def move(old, new):
    for field, x in ast.iter_fields(new):
      y = getattr(old, field)
      if field in ("annotation", "returns") and x is not None and ast.dump(x) != ast.dump(y): setattr(old, field, x)
      elif isinstance(x, ast.AST): move(y, x)
      elif isinstance(x, list):
        for q, z in zip(y, x):
          if isinstance(z, ast.AST): move(q, z)
    for f in ("lineno", "col_offset"):
      if hasattr(new, f): setattr(old, f, getattr(new, f))
  move(a, b)
  yield "_new", new, a

def main():
  out = os.path.join(os.path.dirname(os.path.abspath(__file__)), "..", "rocq", "theories", "Samples.v")
  with open(out, "w") as f:
    f.write("(** Generated by tools/gen_samples.py: sources as CPython's parser reads them, for concrete cases. *)\n")
    f.write("From Verif Require Import PyBase Utility AstKinds Ast Parser Processor.\n")
    for name, src in SAMPLES:
      f.write("\nDefinition src_%s : string := %s.\nDefinition sample_%s : parsed :=\n  %s.\n"
              % (name, cstr(src), name, parsed(src)))
  with open(out.replace("Samples.v", "Samples_Tips.v"), "w") as f:
    f.write("(** Generated by tools/gen_samples.py: sources as CPython's parser reads them, for C72. *)\n")
    f.write("From Verif Require Import PyBase Utility AstKinds Ast Parser Processor.\n")
    for name, src in TIP_SAMPLES:
      f.write("\nDefinition src_%s : string := %s.\nDefinition sample_%s : parsed :=\n  %s.\n"
              % (name, cstr(src), name, parsed(src)))
  with open(out.replace("Samples.v", "Samples_Layout.v"), "w") as f:
    f.write("(** Generated by tools/gen_samples.py: sources as CPython's parser reads them, for C77. *)\n")
    f.write("From Verif Require Import PyBase Utility AstKinds Ast Parser Processor.\n")
    for name, src in LAYOUT_SAMPLES:
      f.write("\nDefinition src_%s : string := %s.\nDefinition sample_%s : parsed :=\n  %s.\n"
              % (name, cstr(src), name, parsed(src)))
  with open(out.replace("Samples.v", "Samples_Idle.v"), "w") as f:
    f.write("(** Generated by tools/gen_samples.py: sources as CPython's parser reads them, for C85. *)\n")
    f.write("From Verif Require Import PyBase Utility AstKinds Ast Parser Processor.\n")
    conv = Conv(keep=True)
    for name, src, node in idle_trees():
      f.write("\nDefinition src_%s : string := %s.\nDefinition tree_%s : pyval :=\n  %s.\n"
              % (name, cstr(src), name, conv.val(node)))
      f.write("Definition tokens_%s : list token :=\n  [%s].\n" % (name, "; ".join(tokens(src))))
  with open(out.replace("Samples.v", "Samples_Annotations.v"), "w") as f:
    f.write("(** Generated by tools/gen_samples.py: sources as CPython's parser reads them, for C86. *)\n")
    f.write("From Verif Require Import PyBase Utility AstKinds Ast Parser Processor.\n")
    for base, old, new in ANNOTATED:
      conv = Conv(keep=True)
      for name, src, node in annotated_trees(old, new):
        f.write("\nDefinition src_%s : string := %s.\nDefinition tree_%s : pyval :=\n  %s.\n"
                % (base + name, cstr(src), base + name, conv.val(node)))
        f.write("Definition tokens_%s : list token :=\n  [%s].\n" % (base + name, "; ".join(tokens(src))))
  with open(out.replace("Samples.v", "Samples_Constructs.v"), "w") as f:
    f.write("(** Generated by tools/gen_samples.py: sources as CPython's parser reads them, for C88. *)\n")
    f.write("From Verif Require Import PyBase Utility AstKinds Ast Parser Processor.\n")
    for name, src in CONSTRUCTS:
      f.write("\nDefinition src_%s : string := %s.\nDefinition tree_%s : pyval :=\n  %s.\n"
              % (name, cstr(src), name, Conv().val(ast.parse(src))))
      f.write("Definition tokens_%s : list token :=\n  [%s].\n" % (name, "; ".join(tokens(src))))
  with open(out.replace("Samples.v", "Trees_Work.v"), "w") as f:
    f.write("(** Generated by tools/gen_samples.py: syntax trees of CPython's parser, for C78. *)\n")
    f.write("From Verif Require Import PyBase Utility AstKinds Ast.\n")
    for name, src in WORK_TREES:
      f.write("\nDefinition text_%s : string := %s.\nDefinition tree_%s : pyval :=\n  %s.\n"
              % (name, cstr(src), name, Conv().val(ast.parse(src))))
  with open(out.replace("Samples.v", "Trees_Fstring.v"), "w") as f:
    f.write("(** Generated by tools/gen_samples.py: syntax trees of CPython's parser, for C79. *)\n")
    f.write("From Verif Require Import PyBase Utility AstKinds Ast.\n")
    for name, src in FSTRING_TREES:
      f.write("\nDefinition text_%s : string := %s.\nDefinition tree_%s : pyval :=\n  %s.\n"
              % (name, cstr(src), name, Conv().val(ast.parse(src))))
  with open(out.replace("Samples.v", "Trees_Lines.v"), "w") as f:
    f.write("(** Generated by tools/gen_samples.py: syntax trees of CPython's parser, for C64. *)\n")
    f.write("From Verif Require Import PyBase Utility AstKinds Ast.\n")
    for name, src in LINE_TREES:
      f.write("\nDefinition text_%s : string := %s.\nDefinition tree_%s : pyval :=\n  %s.\n"
              % (name, cstr(src), name, Conv().val(ast.parse(src))))
  with open(out.replace("Samples.v", "Trees_Names.v"), "w") as f:
    f.write("(** Generated by tools/gen_samples.py: syntax trees of CPython's parser, for C38. *)\n")
    f.write("From Verif Require Import PyBase Utility AstKinds Ast.\n")
    for name, src in NAME_TREES:
      f.write("\nDefinition text_%s : string := %s.\nDefinition tree_%s : pyval :=\n  %s.\n"
              % (name, cstr(src), name, Conv().val(ast.parse(src))))
  with open(out.replace("Samples.v", "Trees.v"), "w") as f:
    f.write("(** Generated by tools/gen_samples.py: syntax trees of CPython's parser, for concrete cases. *)\n")
    f.write("From Verif Require Import PyBase Utility AstKinds Ast.\n")
    for name, src in TREES:
      f.write("\nDefinition text_%s : string := %s.\nDefinition tree_%s : pyval :=\n  %s.\n"
              % (name, cstr(src), name, Conv().val(ast.parse(src))))
    for name, src, lines in ERASED:
      node, conv = ast.parse(src), Conv(keep=True)
      f.write("\nDefinition text_%s : string := %s.\nDefinition tree_%s : pyval :=\n  %s.\n"
              % (name, cstr(src), name, conv.val(node)))
      for n in ast.walk(node):
        if isinstance(getattr(n, "body", None), list):
          n.body = [x for x in n.body if x.lineno not in lines]
      f.write("\nDefinition tree_%s_erased : pyval :=\n  %s.\n" % (name, conv.val(node)))

if __name__ == "__main__":
  main()
