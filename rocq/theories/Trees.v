(** Generated by tools/gen_samples.py: syntax trees of CPython's parser, for concrete cases. *)
From Verif Require Import PyBase Utility AstKinds Ast.

Definition text_more_code : string := "import argparse
from functools import lru_cache
print(x, end='')
def lru(y):
  z = yield y
d.strftime('%G')
(n := 1)
".
Definition tree_more_code : pyval :=
  (VNode KModule 1%N None [("body", (VList [(VNode KImport 2%N (Some (1, 0)) [("names", (VList [(VNode Kalias 3%N (Some (1, 7)) [("name", (VStr "argparse")); ("asname", VNone)])]))]); (VNode KImportFrom 4%N (Some (2, 0)) [("module", (VStr "functools")); ("names", (VList [(VNode Kalias 5%N (Some (2, 22)) [("name", (VStr "lru_cache")); ("asname", VNone)])])); ("level", (VInt (0)))]); (VNode KExpr 6%N (Some (3, 0)) [("value", (VNode KCall 7%N (Some (3, 0)) [("func", (VNode KName 8%N (Some (3, 0)) [("id", (VStr "print")); ("ctx", (VNode KLoad 9%N None []))])); ("args", (VList [(VNode KName 10%N (Some (3, 6)) [("id", (VStr "x")); ("ctx", (VNode KLoad 11%N None []))])])); ("keywords", (VList [(VNode Kkeyword 12%N (Some (3, 9)) [("arg", (VStr "end")); ("value", (VNode KConstant 13%N (Some (3, 13)) [("value", (VStr "")); ("kind", VNone)]))])]))]))]); (VNode KFunctionDef 14%N (Some (4, 0)) [("name", (VStr "lru")); ("args", (VNode Karguments 15%N None [("posonlyargs", (VList [])); ("args", (VList [(VNode Karg 16%N (Some (4, 8)) [("arg", (VStr "y")); ("annotation", VNone); ("type_comment", VNone)])])); ("vararg", VNone); ("kwonlyargs", (VList [])); ("kw_defaults", (VList [])); ("kwarg", VNone); ("defaults", (VList []))])); ("body", (VList [(VNode KAssign 17%N (Some (5, 2)) [("targets", (VList [(VNode KName 18%N (Some (5, 2)) [("id", (VStr "z")); ("ctx", (VNode KStore 19%N None []))])])); ("value", (VNode KYield 20%N (Some (5, 6)) [("value", (VNode KName 21%N (Some (5, 12)) [("id", (VStr "y")); ("ctx", (VNode KLoad 22%N None []))]))])); ("type_comment", VNone)])])); ("decorator_list", (VList [])); ("returns", VNone); ("type_comment", VNone)]); (VNode KExpr 23%N (Some (6, 0)) [("value", (VNode KCall 24%N (Some (6, 0)) [("func", (VNode KAttribute 25%N (Some (6, 0)) [("value", (VNode KName 26%N (Some (6, 0)) [("id", (VStr "d")); ("ctx", (VNode KLoad 27%N None []))])); ("attr", (VStr "strftime")); ("ctx", (VNode KLoad 28%N None []))])); ("args", (VList [(VNode KConstant 29%N (Some (6, 11)) [("value", (VStr "%G")); ("kind", VNone)])])); ("keywords", (VList []))]))]); (VNode KExpr 30%N (Some (7, 0)) [("value", (VNode KNamedExpr 31%N (Some (7, 1)) [("target", (VNode KName 32%N (Some (7, 1)) [("id", (VStr "n")); ("ctx", (VNode KStore 33%N None []))])); ("value", (VNode KConstant 34%N (Some (7, 6)) [("value", (VInt (1))); ("kind", VNone)]))]))])])); ("type_ignores", (VList []))]).

Definition text_more_names : string := "import argparse
from enum import Enum
argparse = Enum
".
Definition tree_more_names : pyval :=
  (VNode KModule 1%N None [("body", (VList [(VNode KImport 2%N (Some (1, 0)) [("names", (VList [(VNode Kalias 3%N (Some (1, 7)) [("name", (VStr "argparse")); ("asname", VNone)])]))]); (VNode KImportFrom 4%N (Some (2, 0)) [("module", (VStr "enum")); ("names", (VList [(VNode Kalias 5%N (Some (2, 17)) [("name", (VStr "Enum")); ("asname", VNone)])])); ("level", (VInt (0)))]); (VNode KAssign 6%N (Some (3, 0)) [("targets", (VList [(VNode KName 7%N (Some (3, 0)) [("id", (VStr "argparse")); ("ctx", (VNode KStore 8%N None []))])])); ("value", (VNode KName 9%N (Some (3, 11)) [("id", (VStr "Enum")); ("ctx", (VNode KLoad 10%N None []))])); ("type_comment", VNone)])])); ("type_ignores", (VList []))]).

Definition text_lax_all : string := "import argparse
import ssl
isinstance(a, int | str)
".
Definition tree_lax_all : pyval :=
  (VNode KModule 1%N None [("body", (VList [(VNode KImport 2%N (Some (1, 0)) [("names", (VList [(VNode Kalias 3%N (Some (1, 7)) [("name", (VStr "argparse")); ("asname", VNone)])]))]); (VNode KImport 4%N (Some (2, 0)) [("names", (VList [(VNode Kalias 5%N (Some (2, 7)) [("name", (VStr "ssl")); ("asname", VNone)])]))]); (VNode KExpr 6%N (Some (3, 0)) [("value", (VNode KCall 7%N (Some (3, 0)) [("func", (VNode KName 8%N (Some (3, 0)) [("id", (VStr "isinstance")); ("ctx", (VNode KLoad 9%N None []))])); ("args", (VList [(VNode KName 10%N (Some (3, 11)) [("id", (VStr "a")); ("ctx", (VNode KLoad 11%N None []))]); (VNode KBinOp 12%N (Some (3, 14)) [("left", (VNode KName 13%N (Some (3, 14)) [("id", (VStr "int")); ("ctx", (VNode KLoad 14%N None []))])); ("op", (VNode KBitOr 15%N None [])); ("right", (VNode KName 16%N (Some (3, 20)) [("id", (VStr "str")); ("ctx", (VNode KLoad 17%N None []))]))])])); ("keywords", (VList []))]))])])); ("type_ignores", (VList []))]).

Definition text_lax_ext : string := "import typing_extensions
".
Definition tree_lax_ext : pyval :=
  (VNode KModule 1%N None [("body", (VList [(VNode KImport 2%N (Some (1, 0)) [("names", (VList [(VNode Kalias 3%N (Some (1, 7)) [("name", (VStr "typing_extensions")); ("asname", VNone)])]))])])); ("type_ignores", (VList []))]).

Definition text_lax_eval : string := "x: (ExceptionGroup := 1) = 2
raise ExceptionGroup
".
Definition tree_lax_eval : pyval :=
  (VNode KModule 1%N None [("body", (VList [(VNode KAnnAssign 2%N (Some (1, 0)) [("target", (VNode KName 3%N (Some (1, 0)) [("id", (VStr "x")); ("ctx", (VNode KStore 4%N None []))])); ("annotation", (VNode KNamedExpr 5%N (Some (1, 4)) [("target", (VNode KName 6%N (Some (1, 4)) [("id", (VStr "ExceptionGroup")); ("ctx", (VNode KStore 7%N None []))])); ("value", (VNode KConstant 8%N (Some (1, 22)) [("value", (VInt (1))); ("kind", VNone)]))])); ("value", (VNode KConstant 9%N (Some (1, 27)) [("value", (VInt (2))); ("kind", VNone)])); ("simple", (VInt (1)))]); (VNode KRaise 10%N (Some (2, 0)) [("exc", (VNode KName 11%N (Some (2, 6)) [("id", (VStr "ExceptionGroup")); ("ctx", (VNode KLoad 12%N None []))])); ("cause", VNone)])])); ("type_ignores", (VList []))]).

Definition text_fewer_kw : string := "foo(k=(long := 1))
long
".
Definition tree_fewer_kw : pyval :=
  (VNode KModule 1%N None [("body", (VList [(VNode KExpr 2%N (Some (1, 0)) [("value", (VNode KCall 3%N (Some (1, 0)) [("func", (VNode KName 4%N (Some (1, 0)) [("id", (VStr "foo")); ("ctx", (VNode KLoad 5%N None []))])); ("args", (VList [])); ("keywords", (VList [(VNode Kkeyword 6%N (Some (1, 4)) [("arg", (VStr "k")); ("value", (VNode KNamedExpr 7%N (Some (1, 7)) [("target", (VNode KName 8%N (Some (1, 7)) [("id", (VStr "long")); ("ctx", (VNode KStore 9%N None []))])); ("value", (VNode KConstant 10%N (Some (1, 15)) [("value", (VInt (1))); ("kind", VNone)]))]))])]))]))]); (VNode KExpr 11%N (Some (2, 0)) [("value", (VNode KName 12%N (Some (2, 0)) [("id", (VStr "long")); ("ctx", (VNode KLoad 13%N None []))]))])])); ("type_ignores", (VList []))]).

Definition text_fewer_mod : string := "import importlib
importlib.metadata
".
Definition tree_fewer_mod : pyval :=
  (VNode KModule 1%N None [("body", (VList [(VNode KImport 2%N (Some (1, 0)) [("names", (VList [(VNode Kalias 3%N (Some (1, 7)) [("name", (VStr "importlib")); ("asname", VNone)])]))]); (VNode KExpr 4%N (Some (2, 0)) [("value", (VNode KAttribute 5%N (Some (2, 0)) [("value", (VNode KName 6%N (Some (2, 0)) [("id", (VStr "importlib")); ("ctx", (VNode KLoad 7%N None []))])); ("attr", (VStr "metadata")); ("ctx", (VNode KLoad 8%N None []))]))])])); ("type_ignores", (VList []))]).

Definition text_fewer_all : string := "import argparse
import codecs
from functools import lru_cache, cmp_to_key
@lru_cache
def f(a):
  return codecs.encode(a, 'rot13', errors='surrogateescape')
".
Definition tree_fewer_all : pyval :=
  (VNode KModule 1%N None [("body", (VList [(VNode KImport 2%N (Some (1, 0)) [("names", (VList [(VNode Kalias 3%N (Some (1, 7)) [("name", (VStr "argparse")); ("asname", VNone)])]))]); (VNode KImport 4%N (Some (2, 0)) [("names", (VList [(VNode Kalias 5%N (Some (2, 7)) [("name", (VStr "codecs")); ("asname", VNone)])]))]); (VNode KImportFrom 6%N (Some (3, 0)) [("module", (VStr "functools")); ("names", (VList [(VNode Kalias 7%N (Some (3, 22)) [("name", (VStr "lru_cache")); ("asname", VNone)]); (VNode Kalias 8%N (Some (3, 33)) [("name", (VStr "cmp_to_key")); ("asname", VNone)])])); ("level", (VInt (0)))]); (VNode KFunctionDef 9%N (Some (5, 0)) [("name", (VStr "f")); ("args", (VNode Karguments 10%N None [("posonlyargs", (VList [])); ("args", (VList [(VNode Karg 11%N (Some (5, 6)) [("arg", (VStr "a")); ("annotation", VNone); ("type_comment", VNone)])])); ("vararg", VNone); ("kwonlyargs", (VList [])); ("kw_defaults", (VList [])); ("kwarg", VNone); ("defaults", (VList []))])); ("body", (VList [(VNode KReturn 12%N (Some (6, 2)) [("value", (VNode KCall 13%N (Some (6, 9)) [("func", (VNode KAttribute 14%N (Some (6, 9)) [("value", (VNode KName 15%N (Some (6, 9)) [("id", (VStr "codecs")); ("ctx", (VNode KLoad 16%N None []))])); ("attr", (VStr "encode")); ("ctx", (VNode KLoad 17%N None []))])); ("args", (VList [(VNode KName 18%N (Some (6, 23)) [("id", (VStr "a")); ("ctx", (VNode KLoad 19%N None []))]); (VNode KConstant 20%N (Some (6, 26)) [("value", (VStr "rot13")); ("kind", VNone)])])); ("keywords", (VList [(VNode Kkeyword 21%N (Some (6, 35)) [("arg", (VStr "errors")); ("value", (VNode KConstant 22%N (Some (6, 42)) [("value", (VStr "surrogateescape")); ("kind", VNone)]))])]))]))])])); ("decorator_list", (VList [(VNode KName 23%N (Some (4, 1)) [("id", (VStr "lru_cache")); ("ctx", (VNode KLoad 24%N None []))])])); ("returns", VNone); ("type_comment", VNone)])])); ("type_ignores", (VList []))]).

Definition text_features : string := "async def f(a, *, b):
  yield (x := await g(f'{a}'))
  print(a[...], b'', ...)
".
Definition tree_features : pyval :=
  (VNode KModule 1%N None [("body", (VList [(VNode KAsyncFunctionDef 2%N (Some (1, 0)) [("name", (VStr "f")); ("args", (VNode Karguments 3%N None [("posonlyargs", (VList [])); ("args", (VList [(VNode Karg 4%N (Some (1, 12)) [("arg", (VStr "a")); ("annotation", VNone); ("type_comment", VNone)])])); ("vararg", VNone); ("kwonlyargs", (VList [(VNode Karg 5%N (Some (1, 18)) [("arg", (VStr "b")); ("annotation", VNone); ("type_comment", VNone)])])); ("kw_defaults", (VList [VNone])); ("kwarg", VNone); ("defaults", (VList []))])); ("body", (VList [(VNode KExpr 6%N (Some (2, 2)) [("value", (VNode KYield 7%N (Some (2, 2)) [("value", (VNode KNamedExpr 8%N (Some (2, 9)) [("target", (VNode KName 9%N (Some (2, 9)) [("id", (VStr "x")); ("ctx", (VNode KStore 10%N None []))])); ("value", (VNode KAwait 11%N (Some (2, 14)) [("value", (VNode KCall 12%N (Some (2, 20)) [("func", (VNode KName 13%N (Some (2, 20)) [("id", (VStr "g")); ("ctx", (VNode KLoad 14%N None []))])); ("args", (VList [(VNode KJoinedStr 15%N (Some (2, 22)) [("values", (VList [(VNode KFormattedValue 16%N (Some (2, 22)) [("value", (VNode KName 17%N (Some (2, 25)) [("id", (VStr "a")); ("ctx", (VNode KLoad 18%N None []))])); ("conversion", (VInt (-1))); ("format_spec", VNone)])]))])])); ("keywords", (VList []))]))]))]))]))]); (VNode KExpr 19%N (Some (3, 2)) [("value", (VNode KCall 20%N (Some (3, 2)) [("func", (VNode KName 21%N (Some (3, 2)) [("id", (VStr "print")); ("ctx", (VNode KLoad 22%N None []))])); ("args", (VList [(VNode KSubscript 23%N (Some (3, 8)) [("value", (VNode KName 24%N (Some (3, 8)) [("id", (VStr "a")); ("ctx", (VNode KLoad 25%N None []))])); ("slice", (VNode KConstant 26%N (Some (3, 10)) [("value", VEllipsis); ("kind", VNone)])); ("ctx", (VNode KLoad 27%N None []))]); (VNode KConstant 28%N (Some (3, 16)) [("value", (VBytes "")); ("kind", VNone)]); (VNode KConstant 29%N (Some (3, 21)) [("value", VEllipsis); ("kind", VNone)])])); ("keywords", (VList []))]))])])); ("decorator_list", (VList [])); ("returns", VNone); ("type_comment", VNone)])])); ("type_ignores", (VList []))]).

Definition text_finally : string := "try:
  pass
finally:
  if x:
    continue
".
Definition tree_finally : pyval :=
  (VNode KModule 1%N None [("body", (VList [(VNode KTry 2%N (Some (1, 0)) [("body", (VList [(VNode KPass 3%N (Some (2, 2)) [])])); ("handlers", (VList [])); ("orelse", (VList [])); ("finalbody", (VList [(VNode KIf 4%N (Some (4, 2)) [("test", (VNode KName 5%N (Some (4, 5)) [("id", (VStr "x")); ("ctx", (VNode KLoad 6%N None []))])); ("body", (VList [(VNode KContinue 7%N (Some (5, 4)) [])])); ("orelse", (VList []))])]))])])); ("type_ignores", (VList []))]).

Definition text_finally_loop : string := "try:
  pass
finally:
  for y in x:
    continue
".
Definition tree_finally_loop : pyval :=
  (VNode KModule 1%N None [("body", (VList [(VNode KTry 2%N (Some (1, 0)) [("body", (VList [(VNode KPass 3%N (Some (2, 2)) [])])); ("handlers", (VList [])); ("orelse", (VList [])); ("finalbody", (VList [(VNode KFor 4%N (Some (4, 2)) [("target", (VNode KName 5%N (Some (4, 6)) [("id", (VStr "y")); ("ctx", (VNode KStore 6%N None []))])); ("iter", (VNode KName 7%N (Some (4, 11)) [("id", (VStr "x")); ("ctx", (VNode KLoad 8%N None []))])); ("body", (VList [(VNode KContinue 9%N (Some (5, 4)) [])])); ("orelse", (VList [])); ("type_comment", VNone)])]))])])); ("type_ignores", (VList []))]).

Definition text_kwargs : string := "from zipfile import ZipFile
z = ZipFile(0)
ZipFile('a', compresslevel=1)
z.open(mode=2)
h(g(x=1), y=2)
".
Definition tree_kwargs : pyval :=
  (VNode KModule 1%N None [("body", (VList [(VNode KImportFrom 2%N (Some (1, 0)) [("module", (VStr "zipfile")); ("names", (VList [(VNode Kalias 3%N (Some (1, 20)) [("name", (VStr "ZipFile")); ("asname", VNone)])])); ("level", (VInt (0)))]); (VNode KAssign 4%N (Some (2, 0)) [("targets", (VList [(VNode KName 5%N (Some (2, 0)) [("id", (VStr "z")); ("ctx", (VNode KStore 6%N None []))])])); ("value", (VNode KCall 7%N (Some (2, 4)) [("func", (VNode KName 8%N (Some (2, 4)) [("id", (VStr "ZipFile")); ("ctx", (VNode KLoad 9%N None []))])); ("args", (VList [(VNode KConstant 10%N (Some (2, 12)) [("value", (VInt (0))); ("kind", VNone)])])); ("keywords", (VList []))])); ("type_comment", VNone)]); (VNode KExpr 11%N (Some (3, 0)) [("value", (VNode KCall 12%N (Some (3, 0)) [("func", (VNode KName 13%N (Some (3, 0)) [("id", (VStr "ZipFile")); ("ctx", (VNode KLoad 14%N None []))])); ("args", (VList [(VNode KConstant 15%N (Some (3, 8)) [("value", (VStr "a")); ("kind", VNone)])])); ("keywords", (VList [(VNode Kkeyword 16%N (Some (3, 13)) [("arg", (VStr "compresslevel")); ("value", (VNode KConstant 17%N (Some (3, 27)) [("value", (VInt (1))); ("kind", VNone)]))])]))]))]); (VNode KExpr 18%N (Some (4, 0)) [("value", (VNode KCall 19%N (Some (4, 0)) [("func", (VNode KAttribute 20%N (Some (4, 0)) [("value", (VNode KName 21%N (Some (4, 0)) [("id", (VStr "z")); ("ctx", (VNode KLoad 22%N None []))])); ("attr", (VStr "open")); ("ctx", (VNode KLoad 23%N None []))])); ("args", (VList [])); ("keywords", (VList [(VNode Kkeyword 24%N (Some (4, 7)) [("arg", (VStr "mode")); ("value", (VNode KConstant 25%N (Some (4, 12)) [("value", (VInt (2))); ("kind", VNone)]))])]))]))]); (VNode KExpr 26%N (Some (5, 0)) [("value", (VNode KCall 27%N (Some (5, 0)) [("func", (VNode KName 28%N (Some (5, 0)) [("id", (VStr "h")); ("ctx", (VNode KLoad 29%N None []))])); ("args", (VList [(VNode KCall 30%N (Some (5, 2)) [("func", (VNode KName 31%N (Some (5, 2)) [("id", (VStr "g")); ("ctx", (VNode KLoad 32%N None []))])); ("args", (VList [])); ("keywords", (VList [(VNode Kkeyword 33%N (Some (5, 4)) [("arg", (VStr "x")); ("value", (VNode KConstant 34%N (Some (5, 6)) [("value", (VInt (1))); ("kind", VNone)]))])]))])])); ("keywords", (VList [(VNode Kkeyword 35%N (Some (5, 10)) [("arg", (VStr "y")); ("value", (VNode KConstant 36%N (Some (5, 12)) [("value", (VInt (2))); ("kind", VNone)]))])]))]))])])); ("type_ignores", (VList []))]).

Definition text_kwarg_lost : string := "import bz2
bz2.open(f()(), newline=1)
".
Definition tree_kwarg_lost : pyval :=
  (VNode KModule 1%N None [("body", (VList [(VNode KImport 2%N (Some (1, 0)) [("names", (VList [(VNode Kalias 3%N (Some (1, 7)) [("name", (VStr "bz2")); ("asname", VNone)])]))]); (VNode KExpr 4%N (Some (2, 0)) [("value", (VNode KCall 5%N (Some (2, 0)) [("func", (VNode KAttribute 6%N (Some (2, 0)) [("value", (VNode KName 7%N (Some (2, 0)) [("id", (VStr "bz2")); ("ctx", (VNode KLoad 8%N None []))])); ("attr", (VStr "open")); ("ctx", (VNode KLoad 9%N None []))])); ("args", (VList [(VNode KCall 10%N (Some (2, 9)) [("func", (VNode KCall 11%N (Some (2, 9)) [("func", (VNode KName 12%N (Some (2, 9)) [("id", (VStr "f")); ("ctx", (VNode KLoad 13%N None []))])); ("args", (VList [])); ("keywords", (VList []))])); ("args", (VList [])); ("keywords", (VList []))])])); ("keywords", (VList [(VNode Kkeyword 14%N (Some (2, 16)) [("arg", (VStr "newline")); ("value", (VNode KConstant 15%N (Some (2, 24)) [("value", (VInt (1))); ("kind", VNone)]))])]))]))])])); ("type_ignores", (VList []))]).

Definition text_scopes : string := "class A:
  def f(self, argparse): pass
def f(b): pass
lambda c: 1
[d for d in x]
with x as h: i = 1
for j in x: k = 1
".
Definition tree_scopes : pyval :=
  (VNode KModule 1%N None [("body", (VList [(VNode KClassDef 2%N (Some (1, 0)) [("name", (VStr "A")); ("bases", (VList [])); ("keywords", (VList [])); ("body", (VList [(VNode KFunctionDef 3%N (Some (2, 2)) [("name", (VStr "f")); ("args", (VNode Karguments 4%N None [("posonlyargs", (VList [])); ("args", (VList [(VNode Karg 5%N (Some (2, 8)) [("arg", (VStr "self")); ("annotation", VNone); ("type_comment", VNone)]); (VNode Karg 6%N (Some (2, 14)) [("arg", (VStr "argparse")); ("annotation", VNone); ("type_comment", VNone)])])); ("vararg", VNone); ("kwonlyargs", (VList [])); ("kw_defaults", (VList [])); ("kwarg", VNone); ("defaults", (VList []))])); ("body", (VList [(VNode KPass 7%N (Some (2, 25)) [])])); ("decorator_list", (VList [])); ("returns", VNone); ("type_comment", VNone)])])); ("decorator_list", (VList []))]); (VNode KFunctionDef 8%N (Some (3, 0)) [("name", (VStr "f")); ("args", (VNode Karguments 9%N None [("posonlyargs", (VList [])); ("args", (VList [(VNode Karg 10%N (Some (3, 6)) [("arg", (VStr "b")); ("annotation", VNone); ("type_comment", VNone)])])); ("vararg", VNone); ("kwonlyargs", (VList [])); ("kw_defaults", (VList [])); ("kwarg", VNone); ("defaults", (VList []))])); ("body", (VList [(VNode KPass 11%N (Some (3, 10)) [])])); ("decorator_list", (VList [])); ("returns", VNone); ("type_comment", VNone)]); (VNode KExpr 12%N (Some (4, 0)) [("value", (VNode KLambda 13%N (Some (4, 0)) [("args", (VNode Karguments 14%N None [("posonlyargs", (VList [])); ("args", (VList [(VNode Karg 15%N (Some (4, 7)) [("arg", (VStr "c")); ("annotation", VNone); ("type_comment", VNone)])])); ("vararg", VNone); ("kwonlyargs", (VList [])); ("kw_defaults", (VList [])); ("kwarg", VNone); ("defaults", (VList []))])); ("body", (VNode KConstant 16%N (Some (4, 10)) [("value", (VInt (1))); ("kind", VNone)]))]))]); (VNode KExpr 17%N (Some (5, 0)) [("value", (VNode KListComp 18%N (Some (5, 0)) [("elt", (VNode KName 19%N (Some (5, 1)) [("id", (VStr "d")); ("ctx", (VNode KLoad 20%N None []))])); ("generators", (VList [(VNode Kcomprehension 21%N None [("target", (VNode KName 22%N (Some (5, 7)) [("id", (VStr "d")); ("ctx", (VNode KStore 23%N None []))])); ("iter", (VNode KName 24%N (Some (5, 12)) [("id", (VStr "x")); ("ctx", (VNode KLoad 25%N None []))])); ("ifs", (VList [])); ("is_async", (VInt (0)))])]))]))]); (VNode KWith 26%N (Some (6, 0)) [("items", (VList [(VNode Kwithitem 27%N None [("context_expr", (VNode KName 28%N (Some (6, 5)) [("id", (VStr "x")); ("ctx", (VNode KLoad 29%N None []))])); ("optional_vars", (VNode KName 30%N (Some (6, 10)) [("id", (VStr "h")); ("ctx", (VNode KStore 31%N None []))]))])])); ("body", (VList [(VNode KAssign 32%N (Some (6, 13)) [("targets", (VList [(VNode KName 33%N (Some (6, 13)) [("id", (VStr "i")); ("ctx", (VNode KStore 34%N None []))])])); ("value", (VNode KConstant 35%N (Some (6, 17)) [("value", (VInt (1))); ("kind", VNone)])); ("type_comment", VNone)])])); ("type_comment", VNone)]); (VNode KFor 36%N (Some (7, 0)) [("target", (VNode KName 37%N (Some (7, 4)) [("id", (VStr "j")); ("ctx", (VNode KStore 38%N None []))])); ("iter", (VNode KName 39%N (Some (7, 9)) [("id", (VStr "x")); ("ctx", (VNode KLoad 40%N None []))])); ("body", (VList [(VNode KAssign 41%N (Some (7, 12)) [("targets", (VList [(VNode KName 42%N (Some (7, 12)) [("id", (VStr "k")); ("ctx", (VNode KStore 43%N None []))])])); ("value", (VNode KConstant 44%N (Some (7, 16)) [("value", (VInt (1))); ("kind", VNone)])); ("type_comment", VNone)])])); ("orelse", (VList [])); ("type_comment", VNone)])])); ("type_ignores", (VList []))]).

Definition text_exclusions : string := "import argparse, asyncio
from os import path
long
print(end='')
os.path.relpath('a', start='b')
".
Definition tree_exclusions : pyval :=
  (VNode KModule 1%N None [("body", (VList [(VNode KImport 2%N (Some (1, 0)) [("names", (VList [(VNode Kalias 3%N (Some (1, 7)) [("name", (VStr "argparse")); ("asname", VNone)]); (VNode Kalias 4%N (Some (1, 17)) [("name", (VStr "asyncio")); ("asname", VNone)])]))]); (VNode KImportFrom 5%N (Some (2, 0)) [("module", (VStr "os")); ("names", (VList [(VNode Kalias 6%N (Some (2, 15)) [("name", (VStr "path")); ("asname", VNone)])])); ("level", (VInt (0)))]); (VNode KExpr 7%N (Some (3, 0)) [("value", (VNode KName 8%N (Some (3, 0)) [("id", (VStr "long")); ("ctx", (VNode KLoad 9%N None []))]))]); (VNode KExpr 10%N (Some (4, 0)) [("value", (VNode KCall 11%N (Some (4, 0)) [("func", (VNode KName 12%N (Some (4, 0)) [("id", (VStr "print")); ("ctx", (VNode KLoad 13%N None []))])); ("args", (VList [])); ("keywords", (VList [(VNode Kkeyword 14%N (Some (4, 6)) [("arg", (VStr "end")); ("value", (VNode KConstant 15%N (Some (4, 10)) [("value", (VStr "")); ("kind", VNone)]))])]))]))]); (VNode KExpr 16%N (Some (5, 0)) [("value", (VNode KCall 17%N (Some (5, 0)) [("func", (VNode KAttribute 18%N (Some (5, 0)) [("value", (VNode KAttribute 19%N (Some (5, 0)) [("value", (VNode KName 20%N (Some (5, 0)) [("id", (VStr "os")); ("ctx", (VNode KLoad 21%N None []))])); ("attr", (VStr "path")); ("ctx", (VNode KLoad 22%N None []))])); ("attr", (VStr "relpath")); ("ctx", (VNode KLoad 23%N None []))])); ("args", (VList [(VNode KConstant 24%N (Some (5, 16)) [("value", (VStr "a")); ("kind", VNone)])])); ("keywords", (VList [(VNode Kkeyword 25%N (Some (5, 21)) [("arg", (VStr "start")); ("value", (VNode KConstant 26%N (Some (5, 27)) [("value", (VStr "b")); ("kind", VNone)]))])]))]))])])); ("type_ignores", (VList []))]).

Definition text_uses : string := "import os
os.path.relpath('a')
from zipfile import ZipFile
raise ModuleNotFoundError()
".
Definition tree_uses : pyval :=
  (VNode KModule 1%N None [("body", (VList [(VNode KImport 2%N (Some (1, 0)) [("names", (VList [(VNode Kalias 3%N (Some (1, 7)) [("name", (VStr "os")); ("asname", VNone)])]))]); (VNode KExpr 4%N (Some (2, 0)) [("value", (VNode KCall 5%N (Some (2, 0)) [("func", (VNode KAttribute 6%N (Some (2, 0)) [("value", (VNode KAttribute 7%N (Some (2, 0)) [("value", (VNode KName 8%N (Some (2, 0)) [("id", (VStr "os")); ("ctx", (VNode KLoad 9%N None []))])); ("attr", (VStr "path")); ("ctx", (VNode KLoad 10%N None []))])); ("attr", (VStr "relpath")); ("ctx", (VNode KLoad 11%N None []))])); ("args", (VList [(VNode KConstant 12%N (Some (2, 16)) [("value", (VStr "a")); ("kind", VNone)])])); ("keywords", (VList []))]))]); (VNode KImportFrom 13%N (Some (3, 0)) [("module", (VStr "zipfile")); ("names", (VList [(VNode Kalias 14%N (Some (3, 20)) [("name", (VStr "ZipFile")); ("asname", VNone)])])); ("level", (VInt (0)))]); (VNode KRaise 15%N (Some (4, 0)) [("exc", (VNode KCall 16%N (Some (4, 6)) [("func", (VNode KName 17%N (Some (4, 6)) [("id", (VStr "ModuleNotFoundError")); ("ctx", (VNode KLoad 18%N None []))])); ("args", (VList [])); ("keywords", (VList []))])); ("cause", VNone)])])); ("type_ignores", (VList []))]).

Definition text_slots : string := "b = bz2.open
x = a[i].b
".
Definition tree_slots : pyval :=
  (VNode KModule 1%N None [("body", (VList [(VNode KAssign 2%N (Some (1, 0)) [("targets", (VList [(VNode KName 3%N (Some (1, 0)) [("id", (VStr "b")); ("ctx", (VNode KStore 4%N None []))])])); ("value", (VNode KAttribute 5%N (Some (1, 4)) [("value", (VNode KName 6%N (Some (1, 4)) [("id", (VStr "bz2")); ("ctx", (VNode KLoad 7%N None []))])); ("attr", (VStr "open")); ("ctx", (VNode KLoad 8%N None []))])); ("type_comment", VNone)]); (VNode KAssign 9%N (Some (2, 0)) [("targets", (VList [(VNode KName 10%N (Some (2, 0)) [("id", (VStr "x")); ("ctx", (VNode KStore 11%N None []))])])); ("value", (VNode KAttribute 12%N (Some (2, 4)) [("value", (VNode KSubscript 13%N (Some (2, 4)) [("value", (VNode KName 14%N (Some (2, 4)) [("id", (VStr "a")); ("ctx", (VNode KLoad 15%N None []))])); ("slice", (VNode KName 16%N (Some (2, 6)) [("id", (VStr "i")); ("ctx", (VNode KLoad 17%N None []))])); ("ctx", (VNode KLoad 18%N None []))])); ("attr", (VStr "b")); ("ctx", (VNode KLoad 19%N None []))])); ("type_comment", VNone)])])); ("type_ignores", (VList []))]).

Definition text_texts : string := "import codecs, functools
from array import array
@functools.lru_cache
def f(x): return array('q', x)
d.strftime('%Y-%3G')
b'%d'
codecs.encode('a', 'mbcs', errors='namereplace')
".
Definition tree_texts : pyval :=
  (VNode KModule 1%N None [("body", (VList [(VNode KImport 2%N (Some (1, 0)) [("names", (VList [(VNode Kalias 3%N (Some (1, 7)) [("name", (VStr "codecs")); ("asname", VNone)]); (VNode Kalias 4%N (Some (1, 15)) [("name", (VStr "functools")); ("asname", VNone)])]))]); (VNode KImportFrom 5%N (Some (2, 0)) [("module", (VStr "array")); ("names", (VList [(VNode Kalias 6%N (Some (2, 18)) [("name", (VStr "array")); ("asname", VNone)])])); ("level", (VInt (0)))]); (VNode KFunctionDef 7%N (Some (4, 0)) [("name", (VStr "f")); ("args", (VNode Karguments 8%N None [("posonlyargs", (VList [])); ("args", (VList [(VNode Karg 9%N (Some (4, 6)) [("arg", (VStr "x")); ("annotation", VNone); ("type_comment", VNone)])])); ("vararg", VNone); ("kwonlyargs", (VList [])); ("kw_defaults", (VList [])); ("kwarg", VNone); ("defaults", (VList []))])); ("body", (VList [(VNode KReturn 10%N (Some (4, 10)) [("value", (VNode KCall 11%N (Some (4, 17)) [("func", (VNode KName 12%N (Some (4, 17)) [("id", (VStr "array")); ("ctx", (VNode KLoad 13%N None []))])); ("args", (VList [(VNode KConstant 14%N (Some (4, 23)) [("value", (VStr "q")); ("kind", VNone)]); (VNode KName 15%N (Some (4, 28)) [("id", (VStr "x")); ("ctx", (VNode KLoad 16%N None []))])])); ("keywords", (VList []))]))])])); ("decorator_list", (VList [(VNode KAttribute 17%N (Some (3, 1)) [("value", (VNode KName 18%N (Some (3, 1)) [("id", (VStr "functools")); ("ctx", (VNode KLoad 19%N None []))])); ("attr", (VStr "lru_cache")); ("ctx", (VNode KLoad 20%N None []))])])); ("returns", VNone); ("type_comment", VNone)]); (VNode KExpr 21%N (Some (5, 0)) [("value", (VNode KCall 22%N (Some (5, 0)) [("func", (VNode KAttribute 23%N (Some (5, 0)) [("value", (VNode KName 24%N (Some (5, 0)) [("id", (VStr "d")); ("ctx", (VNode KLoad 25%N None []))])); ("attr", (VStr "strftime")); ("ctx", (VNode KLoad 26%N None []))])); ("args", (VList [(VNode KConstant 27%N (Some (5, 11)) [("value", (VStr "%Y-%3G")); ("kind", VNone)])])); ("keywords", (VList []))]))]); (VNode KExpr 28%N (Some (6, 0)) [("value", (VNode KConstant 29%N (Some (6, 0)) [("value", (VBytes "%d")); ("kind", VNone)]))]); (VNode KExpr 30%N (Some (7, 0)) [("value", (VNode KCall 31%N (Some (7, 0)) [("func", (VNode KAttribute 32%N (Some (7, 0)) [("value", (VNode KName 33%N (Some (7, 0)) [("id", (VStr "codecs")); ("ctx", (VNode KLoad 34%N None []))])); ("attr", (VStr "encode")); ("ctx", (VNode KLoad 35%N None []))])); ("args", (VList [(VNode KConstant 36%N (Some (7, 14)) [("value", (VStr "a")); ("kind", VNone)]); (VNode KConstant 37%N (Some (7, 19)) [("value", (VStr "mbcs")); ("kind", VNone)])])); ("keywords", (VList [(VNode Kkeyword 38%N (Some (7, 27)) [("arg", (VStr "errors")); ("value", (VNode KConstant 39%N (Some (7, 34)) [("value", (VStr "namereplace")); ("kind", VNone)]))])]))]))])])); ("type_ignores", (VList []))]).

Definition text_crash_format : string := "def f(x):
  return x.strftime(5)
".
Definition tree_crash_format : pyval :=
  (VNode KModule 1%N None [("body", (VList [(VNode KFunctionDef 2%N (Some (1, 0)) [("name", (VStr "f")); ("args", (VNode Karguments 3%N None [("posonlyargs", (VList [])); ("args", (VList [(VNode Karg 4%N (Some (1, 6)) [("arg", (VStr "x")); ("annotation", VNone); ("type_comment", VNone)])])); ("vararg", VNone); ("kwonlyargs", (VList [])); ("kw_defaults", (VList [])); ("kwarg", VNone); ("defaults", (VList []))])); ("body", (VList [(VNode KReturn 5%N (Some (2, 2)) [("value", (VNode KCall 6%N (Some (2, 9)) [("func", (VNode KAttribute 7%N (Some (2, 9)) [("value", (VNode KName 8%N (Some (2, 9)) [("id", (VStr "x")); ("ctx", (VNode KLoad 9%N None []))])); ("attr", (VStr "strftime")); ("ctx", (VNode KLoad 10%N None []))])); ("args", (VList [(VNode KConstant 11%N (Some (2, 20)) [("value", (VInt (5))); ("kind", VNone)])])); ("keywords", (VList []))]))])])); ("decorator_list", (VList [])); ("returns", VNone); ("type_comment", VNone)])])); ("type_ignores", (VList []))]).

Definition text_crash_annotation : string := "def f(x: 1j): pass
".
Definition tree_crash_annotation : pyval :=
  (VNode KModule 1%N None [("body", (VList [(VNode KFunctionDef 2%N (Some (1, 0)) [("name", (VStr "f")); ("args", (VNode Karguments 3%N None [("posonlyargs", (VList [])); ("args", (VList [(VNode Karg 4%N (Some (1, 6)) [("arg", (VStr "x")); ("annotation", (VNode KConstant 5%N (Some (1, 9)) [("value", (VComplex "1j")); ("kind", VNone)])); ("type_comment", VNone)])])); ("vararg", VNone); ("kwonlyargs", (VList [])); ("kw_defaults", (VList [])); ("kwarg", VNone); ("defaults", (VList []))])); ("body", (VList [(VNode KPass 6%N (Some (1, 14)) [])])); ("decorator_list", (VList [])); ("returns", VNone); ("type_comment", VNone)])])); ("type_ignores", (VList []))]).

Definition text_crash_encoding : string := "import codecs as c
c.open('f', encoding=None)
".
Definition tree_crash_encoding : pyval :=
  (VNode KModule 1%N None [("body", (VList [(VNode KImport 2%N (Some (1, 0)) [("names", (VList [(VNode Kalias 3%N (Some (1, 7)) [("name", (VStr "codecs")); ("asname", (VStr "c"))])]))]); (VNode KExpr 4%N (Some (2, 0)) [("value", (VNode KCall 5%N (Some (2, 0)) [("func", (VNode KAttribute 6%N (Some (2, 0)) [("value", (VNode KName 7%N (Some (2, 0)) [("id", (VStr "c")); ("ctx", (VNode KLoad 8%N None []))])); ("attr", (VStr "open")); ("ctx", (VNode KLoad 9%N None []))])); ("args", (VList [(VNode KConstant 10%N (Some (2, 7)) [("value", (VStr "f")); ("kind", VNone)])])); ("keywords", (VList [(VNode Kkeyword 11%N (Some (2, 12)) [("arg", (VStr "encoding")); ("value", (VNode KConstant 12%N (Some (2, 21)) [("value", VNone); ("kind", VNone)]))])]))]))])])); ("type_ignores", (VList []))]).

Definition text_kw_value : string := "def foo(x): pass
foo(x=f'{1}')
".
Definition tree_kw_value : pyval :=
  (VNode KModule 1%N None [("body", (VList [(VNode KFunctionDef 2%N (Some (1, 0)) [("name", (VStr "foo")); ("args", (VNode Karguments 3%N None [("posonlyargs", (VList [])); ("args", (VList [(VNode Karg 4%N (Some (1, 8)) [("arg", (VStr "x")); ("annotation", VNone); ("type_comment", VNone)])])); ("vararg", VNone); ("kwonlyargs", (VList [])); ("kw_defaults", (VList [])); ("kwarg", VNone); ("defaults", (VList []))])); ("body", (VList [(VNode KPass 5%N (Some (1, 12)) [])])); ("decorator_list", (VList [])); ("returns", VNone); ("type_comment", VNone)]); (VNode KExpr 6%N (Some (2, 0)) [("value", (VNode KCall 7%N (Some (2, 0)) [("func", (VNode KName 8%N (Some (2, 0)) [("id", (VStr "foo")); ("ctx", (VNode KLoad 9%N None []))])); ("args", (VList [])); ("keywords", (VList [(VNode Kkeyword 10%N (Some (2, 4)) [("arg", (VStr "x")); ("value", (VNode KJoinedStr 11%N (Some (2, 6)) [("values", (VList [(VNode KFormattedValue 12%N (Some (2, 6)) [("value", (VNode KConstant 13%N (Some (2, 9)) [("value", (VInt (1))); ("kind", VNone)])); ("conversion", (VInt (-1))); ("format_spec", VNone)])]))]))])]))]))])])); ("type_ignores", (VList []))]).

Definition text_ann_value : string := "x: int = f'{a}'
".
Definition tree_ann_value : pyval :=
  (VNode KModule 1%N None [("body", (VList [(VNode KAnnAssign 2%N (Some (1, 0)) [("target", (VNode KName 3%N (Some (1, 0)) [("id", (VStr "x")); ("ctx", (VNode KStore 4%N None []))])); ("annotation", (VNode KName 5%N (Some (1, 3)) [("id", (VStr "int")); ("ctx", (VNode KLoad 6%N None []))])); ("value", (VNode KJoinedStr 7%N (Some (1, 9)) [("values", (VList [(VNode KFormattedValue 8%N (Some (1, 9)) [("value", (VNode KName 9%N (Some (1, 12)) [("id", (VStr "a")); ("ctx", (VNode KLoad 10%N None []))])); ("conversion", (VInt (-1))); ("format_spec", VNone)])]))])); ("simple", (VInt (1)))])])); ("type_ignores", (VList []))]).

Definition text_own_names : string := "breakpoint()
import argparse
if x:
  def breakpoint(): pass
from a import b as argparse
anext(argparse)
".
Definition tree_own_names : pyval :=
  (VNode KModule 1%N None [("body", (VList [(VNode KExpr 2%N (Some (1, 0)) [("value", (VNode KCall 3%N (Some (1, 0)) [("func", (VNode KName 4%N (Some (1, 0)) [("id", (VStr "breakpoint")); ("ctx", (VNode KLoad 5%N None []))])); ("args", (VList [])); ("keywords", (VList []))]))]); (VNode KImport 6%N (Some (2, 0)) [("names", (VList [(VNode Kalias 7%N (Some (2, 7)) [("name", (VStr "argparse")); ("asname", VNone)])]))]); (VNode KIf 8%N (Some (3, 0)) [("test", (VNode KName 9%N (Some (3, 3)) [("id", (VStr "x")); ("ctx", (VNode KLoad 10%N None []))])); ("body", (VList [(VNode KFunctionDef 11%N (Some (4, 2)) [("name", (VStr "breakpoint")); ("args", (VNode Karguments 12%N None [("posonlyargs", (VList [])); ("args", (VList [])); ("vararg", VNone); ("kwonlyargs", (VList [])); ("kw_defaults", (VList [])); ("kwarg", VNone); ("defaults", (VList []))])); ("body", (VList [(VNode KPass 13%N (Some (4, 20)) [])])); ("decorator_list", (VList [])); ("returns", VNone); ("type_comment", VNone)])])); ("orelse", (VList []))]); (VNode KImportFrom 14%N (Some (5, 0)) [("module", (VStr "a")); ("names", (VList [(VNode Kalias 15%N (Some (5, 14)) [("name", (VStr "b")); ("asname", (VStr "argparse"))])])); ("level", (VInt (0)))]); (VNode KExpr 16%N (Some (6, 0)) [("value", (VNode KCall 17%N (Some (6, 0)) [("func", (VNode KName 18%N (Some (6, 0)) [("id", (VStr "anext")); ("ctx", (VNode KLoad 19%N None []))])); ("args", (VList [(VNode KName 20%N (Some (6, 6)) [("id", (VStr "argparse")); ("ctx", (VNode KLoad 21%N None []))])])); ("keywords", (VList []))]))])])); ("type_ignores", (VList []))]).

Definition text_own_in_for : string := "for x in y:
  def breakpoint(): pass
breakpoint()
".
Definition tree_own_in_for : pyval :=
  (VNode KModule 1%N None [("body", (VList [(VNode KFor 2%N (Some (1, 0)) [("target", (VNode KName 3%N (Some (1, 4)) [("id", (VStr "x")); ("ctx", (VNode KStore 4%N None []))])); ("iter", (VNode KName 5%N (Some (1, 9)) [("id", (VStr "y")); ("ctx", (VNode KLoad 6%N None []))])); ("body", (VList [(VNode KFunctionDef 7%N (Some (2, 2)) [("name", (VStr "breakpoint")); ("args", (VNode Karguments 8%N None [("posonlyargs", (VList [])); ("args", (VList [])); ("vararg", VNone); ("kwonlyargs", (VList [])); ("kw_defaults", (VList [])); ("kwarg", VNone); ("defaults", (VList []))])); ("body", (VList [(VNode KPass 9%N (Some (2, 20)) [])])); ("decorator_list", (VList [])); ("returns", VNone); ("type_comment", VNone)])])); ("orelse", (VList [])); ("type_comment", VNone)]); (VNode KExpr 10%N (Some (3, 0)) [("value", (VNode KCall 11%N (Some (3, 0)) [("func", (VNode KName 12%N (Some (3, 0)) [("id", (VStr "breakpoint")); ("ctx", (VNode KLoad 13%N None []))])); ("args", (VList [])); ("keywords", (VList []))]))])])); ("type_ignores", (VList []))]).

Definition text_asks : string := "import codecs, functools, argparse
@functools.cache
def f(x): return codecs.encode(x, 'hex', errors='namereplace')
d.strftime('%Y-%3G')
b'%a'
array.array('q', [])
def g():
  try: pass
  except ModuleNotFoundError:
    return os.path.relpath(x)
".
Definition tree_asks : pyval :=
  (VNode KModule 1%N None [("body", (VList [(VNode KImport 2%N (Some (1, 0)) [("names", (VList [(VNode Kalias 3%N (Some (1, 7)) [("name", (VStr "codecs")); ("asname", VNone)]); (VNode Kalias 4%N (Some (1, 15)) [("name", (VStr "functools")); ("asname", VNone)]); (VNode Kalias 5%N (Some (1, 26)) [("name", (VStr "argparse")); ("asname", VNone)])]))]); (VNode KFunctionDef 6%N (Some (3, 0)) [("name", (VStr "f")); ("args", (VNode Karguments 7%N None [("posonlyargs", (VList [])); ("args", (VList [(VNode Karg 8%N (Some (3, 6)) [("arg", (VStr "x")); ("annotation", VNone); ("type_comment", VNone)])])); ("vararg", VNone); ("kwonlyargs", (VList [])); ("kw_defaults", (VList [])); ("kwarg", VNone); ("defaults", (VList []))])); ("body", (VList [(VNode KReturn 9%N (Some (3, 10)) [("value", (VNode KCall 10%N (Some (3, 17)) [("func", (VNode KAttribute 11%N (Some (3, 17)) [("value", (VNode KName 12%N (Some (3, 17)) [("id", (VStr "codecs")); ("ctx", (VNode KLoad 13%N None []))])); ("attr", (VStr "encode")); ("ctx", (VNode KLoad 14%N None []))])); ("args", (VList [(VNode KName 15%N (Some (3, 31)) [("id", (VStr "x")); ("ctx", (VNode KLoad 16%N None []))]); (VNode KConstant 17%N (Some (3, 34)) [("value", (VStr "hex")); ("kind", VNone)])])); ("keywords", (VList [(VNode Kkeyword 18%N (Some (3, 41)) [("arg", (VStr "errors")); ("value", (VNode KConstant 19%N (Some (3, 48)) [("value", (VStr "namereplace")); ("kind", VNone)]))])]))]))])])); ("decorator_list", (VList [(VNode KAttribute 20%N (Some (2, 1)) [("value", (VNode KName 21%N (Some (2, 1)) [("id", (VStr "functools")); ("ctx", (VNode KLoad 22%N None []))])); ("attr", (VStr "cache")); ("ctx", (VNode KLoad 23%N None []))])])); ("returns", VNone); ("type_comment", VNone)]); (VNode KExpr 24%N (Some (4, 0)) [("value", (VNode KCall 25%N (Some (4, 0)) [("func", (VNode KAttribute 26%N (Some (4, 0)) [("value", (VNode KName 27%N (Some (4, 0)) [("id", (VStr "d")); ("ctx", (VNode KLoad 28%N None []))])); ("attr", (VStr "strftime")); ("ctx", (VNode KLoad 29%N None []))])); ("args", (VList [(VNode KConstant 30%N (Some (4, 11)) [("value", (VStr "%Y-%3G")); ("kind", VNone)])])); ("keywords", (VList []))]))]); (VNode KExpr 31%N (Some (5, 0)) [("value", (VNode KConstant 32%N (Some (5, 0)) [("value", (VBytes "%a")); ("kind", VNone)]))]); (VNode KExpr 33%N (Some (6, 0)) [("value", (VNode KCall 34%N (Some (6, 0)) [("func", (VNode KAttribute 35%N (Some (6, 0)) [("value", (VNode KName 36%N (Some (6, 0)) [("id", (VStr "array")); ("ctx", (VNode KLoad 37%N None []))])); ("attr", (VStr "array")); ("ctx", (VNode KLoad 38%N None []))])); ("args", (VList [(VNode KConstant 39%N (Some (6, 12)) [("value", (VStr "q")); ("kind", VNone)]); (VNode KList 40%N (Some (6, 17)) [("elts", (VList [])); ("ctx", (VNode KLoad 41%N None []))])])); ("keywords", (VList []))]))]); (VNode KFunctionDef 42%N (Some (7, 0)) [("name", (VStr "g")); ("args", (VNode Karguments 43%N None [("posonlyargs", (VList [])); ("args", (VList [])); ("vararg", VNone); ("kwonlyargs", (VList [])); ("kw_defaults", (VList [])); ("kwarg", VNone); ("defaults", (VList []))])); ("body", (VList [(VNode KTry 44%N (Some (8, 2)) [("body", (VList [(VNode KPass 45%N (Some (8, 7)) [])])); ("handlers", (VList [(VNode KExceptHandler 46%N (Some (9, 2)) [("type", (VNode KName 47%N (Some (9, 9)) [("id", (VStr "ModuleNotFoundError")); ("ctx", (VNode KLoad 48%N None []))])); ("name", VNone); ("body", (VList [(VNode KReturn 49%N (Some (10, 4)) [("value", (VNode KCall 50%N (Some (10, 11)) [("func", (VNode KAttribute 51%N (Some (10, 11)) [("value", (VNode KAttribute 52%N (Some (10, 11)) [("value", (VNode KName 53%N (Some (10, 11)) [("id", (VStr "os")); ("ctx", (VNode KLoad 54%N None []))])); ("attr", (VStr "path")); ("ctx", (VNode KLoad 55%N None []))])); ("attr", (VStr "relpath")); ("ctx", (VNode KLoad 56%N None []))])); ("args", (VList [(VNode KName 57%N (Some (10, 27)) [("id", (VStr "x")); ("ctx", (VNode KLoad 58%N None []))])])); ("keywords", (VList []))]))])]))])])); ("orelse", (VList [])); ("finalbody", (VList []))])])); ("decorator_list", (VList [])); ("returns", VNone); ("type_comment", VNone)])])); ("type_ignores", (VList []))]).

Definition text_before : string := "import datetime as dt, argparse
from functools import cache
from zipfile import ZipFile
from asyncio import loop
import codecs as c
@cache
def f(x): return print(x, flush=True)
z = ZipFile('a', strict_timestamps=f'{1}')
if z:
  argparse.ArgumentParser(allow_abbrev=True)
dt.timezone.utc
c.encode(z, 'hex')
loop.create_task(z, name=1)
".
Definition tree_before : pyval :=
  (VNode KModule 1%N None [("body", (VList [(VNode KImport 2%N (Some (1, 0)) [("names", (VList [(VNode Kalias 3%N (Some (1, 7)) [("name", (VStr "datetime")); ("asname", (VStr "dt"))]); (VNode Kalias 4%N (Some (1, 23)) [("name", (VStr "argparse")); ("asname", VNone)])]))]); (VNode KImportFrom 5%N (Some (2, 0)) [("module", (VStr "functools")); ("names", (VList [(VNode Kalias 6%N (Some (2, 22)) [("name", (VStr "cache")); ("asname", VNone)])])); ("level", (VInt (0)))]); (VNode KImportFrom 7%N (Some (3, 0)) [("module", (VStr "zipfile")); ("names", (VList [(VNode Kalias 8%N (Some (3, 20)) [("name", (VStr "ZipFile")); ("asname", VNone)])])); ("level", (VInt (0)))]); (VNode KImportFrom 9%N (Some (4, 0)) [("module", (VStr "asyncio")); ("names", (VList [(VNode Kalias 10%N (Some (4, 20)) [("name", (VStr "loop")); ("asname", VNone)])])); ("level", (VInt (0)))]); (VNode KImport 11%N (Some (5, 0)) [("names", (VList [(VNode Kalias 12%N (Some (5, 7)) [("name", (VStr "codecs")); ("asname", (VStr "c"))])]))]); (VNode KFunctionDef 13%N (Some (7, 0)) [("name", (VStr "f")); ("args", (VNode Karguments 14%N None [("posonlyargs", (VList [])); ("args", (VList [(VNode Karg 15%N (Some (7, 6)) [("arg", (VStr "x")); ("annotation", VNone); ("type_comment", VNone)])])); ("vararg", VNone); ("kwonlyargs", (VList [])); ("kw_defaults", (VList [])); ("kwarg", VNone); ("defaults", (VList []))])); ("body", (VList [(VNode KReturn 16%N (Some (7, 10)) [("value", (VNode KCall 17%N (Some (7, 17)) [("func", (VNode KName 18%N (Some (7, 17)) [("id", (VStr "print")); ("ctx", (VNode KLoad 19%N None []))])); ("args", (VList [(VNode KName 20%N (Some (7, 23)) [("id", (VStr "x")); ("ctx", (VNode KLoad 21%N None []))])])); ("keywords", (VList [(VNode Kkeyword 22%N (Some (7, 26)) [("arg", (VStr "flush")); ("value", (VNode KConstant 23%N (Some (7, 32)) [("value", (VBool true)); ("kind", VNone)]))])]))]))])])); ("decorator_list", (VList [(VNode KName 24%N (Some (6, 1)) [("id", (VStr "cache")); ("ctx", (VNode KLoad 25%N None []))])])); ("returns", VNone); ("type_comment", VNone)]); (VNode KAssign 26%N (Some (8, 0)) [("targets", (VList [(VNode KName 27%N (Some (8, 0)) [("id", (VStr "z")); ("ctx", (VNode KStore 28%N None []))])])); ("value", (VNode KCall 29%N (Some (8, 4)) [("func", (VNode KName 30%N (Some (8, 4)) [("id", (VStr "ZipFile")); ("ctx", (VNode KLoad 31%N None []))])); ("args", (VList [(VNode KConstant 32%N (Some (8, 12)) [("value", (VStr "a")); ("kind", VNone)])])); ("keywords", (VList [(VNode Kkeyword 33%N (Some (8, 17)) [("arg", (VStr "strict_timestamps")); ("value", (VNode KJoinedStr 34%N (Some (8, 35)) [("values", (VList [(VNode KFormattedValue 35%N (Some (8, 35)) [("value", (VNode KConstant 36%N (Some (8, 38)) [("value", (VInt (1))); ("kind", VNone)])); ("conversion", (VInt (-1))); ("format_spec", VNone)])]))]))])]))])); ("type_comment", VNone)]); (VNode KIf 37%N (Some (9, 0)) [("test", (VNode KName 38%N (Some (9, 3)) [("id", (VStr "z")); ("ctx", (VNode KLoad 39%N None []))])); ("body", (VList [(VNode KExpr 40%N (Some (10, 2)) [("value", (VNode KCall 41%N (Some (10, 2)) [("func", (VNode KAttribute 42%N (Some (10, 2)) [("value", (VNode KName 43%N (Some (10, 2)) [("id", (VStr "argparse")); ("ctx", (VNode KLoad 44%N None []))])); ("attr", (VStr "ArgumentParser")); ("ctx", (VNode KLoad 45%N None []))])); ("args", (VList [])); ("keywords", (VList [(VNode Kkeyword 46%N (Some (10, 26)) [("arg", (VStr "allow_abbrev")); ("value", (VNode KConstant 47%N (Some (10, 39)) [("value", (VBool true)); ("kind", VNone)]))])]))]))])])); ("orelse", (VList []))]); (VNode KExpr 48%N (Some (11, 0)) [("value", (VNode KAttribute 49%N (Some (11, 0)) [("value", (VNode KAttribute 50%N (Some (11, 0)) [("value", (VNode KName 51%N (Some (11, 0)) [("id", (VStr "dt")); ("ctx", (VNode KLoad 52%N None []))])); ("attr", (VStr "timezone")); ("ctx", (VNode KLoad 53%N None []))])); ("attr", (VStr "utc")); ("ctx", (VNode KLoad 54%N None []))]))]); (VNode KExpr 55%N (Some (12, 0)) [("value", (VNode KCall 56%N (Some (12, 0)) [("func", (VNode KAttribute 57%N (Some (12, 0)) [("value", (VNode KName 58%N (Some (12, 0)) [("id", (VStr "c")); ("ctx", (VNode KLoad 59%N None []))])); ("attr", (VStr "encode")); ("ctx", (VNode KLoad 60%N None []))])); ("args", (VList [(VNode KName 61%N (Some (12, 9)) [("id", (VStr "z")); ("ctx", (VNode KLoad 62%N None []))]); (VNode KConstant 63%N (Some (12, 12)) [("value", (VStr "hex")); ("kind", VNone)])])); ("keywords", (VList []))]))]); (VNode KExpr 64%N (Some (13, 0)) [("value", (VNode KCall 65%N (Some (13, 0)) [("func", (VNode KAttribute 66%N (Some (13, 0)) [("value", (VNode KName 67%N (Some (13, 0)) [("id", (VStr "loop")); ("ctx", (VNode KLoad 68%N None []))])); ("attr", (VStr "create_task")); ("ctx", (VNode KLoad 69%N None []))])); ("args", (VList [(VNode KName 70%N (Some (13, 17)) [("id", (VStr "z")); ("ctx", (VNode KLoad 71%N None []))])])); ("keywords", (VList [(VNode Kkeyword 72%N (Some (13, 20)) [("arg", (VStr "name")); ("value", (VNode KConstant 73%N (Some (13, 25)) [("value", (VInt (1))); ("kind", VNone)]))])]))]))])])); ("type_ignores", (VList []))]).

Definition text_around : string := "async def f(xs):
  yield [x for x in xs if await x]
  await xs
def __dir__(): pass
def __getattr__(name): pass
with (a as b,
      c as d):
  try: pass
  finally:
    if a: continue
".
Definition tree_around : pyval :=
  (VNode KModule 1%N None [("body", (VList [(VNode KAsyncFunctionDef 2%N (Some (1, 0)) [("name", (VStr "f")); ("args", (VNode Karguments 3%N None [("posonlyargs", (VList [])); ("args", (VList [(VNode Karg 4%N (Some (1, 12)) [("arg", (VStr "xs")); ("annotation", VNone); ("type_comment", VNone)])])); ("vararg", VNone); ("kwonlyargs", (VList [])); ("kw_defaults", (VList [])); ("kwarg", VNone); ("defaults", (VList []))])); ("body", (VList [(VNode KExpr 5%N (Some (2, 2)) [("value", (VNode KYield 6%N (Some (2, 2)) [("value", (VNode KListComp 7%N (Some (2, 8)) [("elt", (VNode KName 8%N (Some (2, 9)) [("id", (VStr "x")); ("ctx", (VNode KLoad 9%N None []))])); ("generators", (VList [(VNode Kcomprehension 10%N None [("target", (VNode KName 11%N (Some (2, 15)) [("id", (VStr "x")); ("ctx", (VNode KStore 12%N None []))])); ("iter", (VNode KName 13%N (Some (2, 20)) [("id", (VStr "xs")); ("ctx", (VNode KLoad 14%N None []))])); ("ifs", (VList [(VNode KAwait 15%N (Some (2, 26)) [("value", (VNode KName 16%N (Some (2, 32)) [("id", (VStr "x")); ("ctx", (VNode KLoad 17%N None []))]))])])); ("is_async", (VInt (0)))])]))]))]))]); (VNode KExpr 18%N (Some (3, 2)) [("value", (VNode KAwait 19%N (Some (3, 2)) [("value", (VNode KName 20%N (Some (3, 8)) [("id", (VStr "xs")); ("ctx", (VNode KLoad 21%N None []))]))]))])])); ("decorator_list", (VList [])); ("returns", VNone); ("type_comment", VNone)]); (VNode KFunctionDef 22%N (Some (4, 0)) [("name", (VStr "__dir__")); ("args", (VNode Karguments 23%N None [("posonlyargs", (VList [])); ("args", (VList [])); ("vararg", VNone); ("kwonlyargs", (VList [])); ("kw_defaults", (VList [])); ("kwarg", VNone); ("defaults", (VList []))])); ("body", (VList [(VNode KPass 24%N (Some (4, 15)) [])])); ("decorator_list", (VList [])); ("returns", VNone); ("type_comment", VNone)]); (VNode KFunctionDef 25%N (Some (5, 0)) [("name", (VStr "__getattr__")); ("args", (VNode Karguments 26%N None [("posonlyargs", (VList [])); ("args", (VList [(VNode Karg 27%N (Some (5, 16)) [("arg", (VStr "name")); ("annotation", VNone); ("type_comment", VNone)])])); ("vararg", VNone); ("kwonlyargs", (VList [])); ("kw_defaults", (VList [])); ("kwarg", VNone); ("defaults", (VList []))])); ("body", (VList [(VNode KPass 28%N (Some (5, 23)) [])])); ("decorator_list", (VList [])); ("returns", VNone); ("type_comment", VNone)]); (VNode KWith 29%N (Some (6, 0)) [("items", (VList [(VNode Kwithitem 30%N None [("context_expr", (VNode KName 31%N (Some (6, 6)) [("id", (VStr "a")); ("ctx", (VNode KLoad 32%N None []))])); ("optional_vars", (VNode KName 33%N (Some (6, 11)) [("id", (VStr "b")); ("ctx", (VNode KStore 34%N None []))]))]); (VNode Kwithitem 35%N None [("context_expr", (VNode KName 36%N (Some (7, 6)) [("id", (VStr "c")); ("ctx", (VNode KLoad 37%N None []))])); ("optional_vars", (VNode KName 38%N (Some (7, 11)) [("id", (VStr "d")); ("ctx", (VNode KStore 39%N None []))]))])])); ("body", (VList [(VNode KTry 40%N (Some (8, 2)) [("body", (VList [(VNode KPass 41%N (Some (8, 7)) [])])); ("handlers", (VList [])); ("orelse", (VList [])); ("finalbody", (VList [(VNode KIf 42%N (Some (10, 4)) [("test", (VNode KName 43%N (Some (10, 7)) [("id", (VStr "a")); ("ctx", (VNode KLoad 44%N None []))])); ("body", (VList [(VNode KContinue 45%N (Some (10, 10)) [])])); ("orelse", (VList []))])]))])])); ("type_comment", VNone)])])); ("type_ignores", (VList []))]).

Definition text_await_elt : string := "async def f(xs):
  return [await x for x in xs]
".
Definition tree_await_elt : pyval :=
  (VNode KModule 1%N None [("body", (VList [(VNode KAsyncFunctionDef 2%N (Some (1, 0)) [("name", (VStr "f")); ("args", (VNode Karguments 3%N None [("posonlyargs", (VList [])); ("args", (VList [(VNode Karg 4%N (Some (1, 12)) [("arg", (VStr "xs")); ("annotation", VNone); ("type_comment", VNone)])])); ("vararg", VNone); ("kwonlyargs", (VList [])); ("kw_defaults", (VList [])); ("kwarg", VNone); ("defaults", (VList []))])); ("body", (VList [(VNode KReturn 5%N (Some (2, 2)) [("value", (VNode KListComp 6%N (Some (2, 9)) [("elt", (VNode KAwait 7%N (Some (2, 10)) [("value", (VNode KName 8%N (Some (2, 16)) [("id", (VStr "x")); ("ctx", (VNode KLoad 9%N None []))]))])); ("generators", (VList [(VNode Kcomprehension 10%N None [("target", (VNode KName 11%N (Some (2, 22)) [("id", (VStr "x")); ("ctx", (VNode KStore 12%N None []))])); ("iter", (VNode KName 13%N (Some (2, 27)) [("id", (VStr "xs")); ("ctx", (VNode KLoad 14%N None []))])); ("ifs", (VList [])); ("is_async", (VInt (0)))])]))]))])])); ("decorator_list", (VList [])); ("returns", VNone); ("type_comment", VNone)])])); ("type_ignores", (VList []))]).

Definition text_kw_renamed : string := "from zipfile import ZipFile as Z
Z('a', strict_timestamps=True)
".
Definition tree_kw_renamed : pyval :=
  (VNode KModule 1%N None [("body", (VList [(VNode KImportFrom 2%N (Some (1, 0)) [("module", (VStr "zipfile")); ("names", (VList [(VNode Kalias 3%N (Some (1, 20)) [("name", (VStr "ZipFile")); ("asname", (VStr "Z"))])])); ("level", (VInt (0)))]); (VNode KExpr 4%N (Some (2, 0)) [("value", (VNode KCall 5%N (Some (2, 0)) [("func", (VNode KName 6%N (Some (2, 0)) [("id", (VStr "Z")); ("ctx", (VNode KLoad 7%N None []))])); ("args", (VList [(VNode KConstant 8%N (Some (2, 2)) [("value", (VStr "a")); ("kind", VNone)])])); ("keywords", (VList [(VNode Kkeyword 9%N (Some (2, 7)) [("arg", (VStr "strict_timestamps")); ("value", (VNode KConstant 10%N (Some (2, 25)) [("value", (VBool true)); ("kind", VNone)]))])]))]))])])); ("type_ignores", (VList []))]).

Definition text_spots : string := "import codecs
import bz2
x = [a,
     f'{b}']
codecs.encode(x, 'bz2')
".
Definition tree_spots : pyval :=
  (VNode KModule 1%N None [("body", (VList [(VNode KImport 2%N (Some (1, 0)) [("names", (VList [(VNode Kalias 3%N (Some (1, 7)) [("name", (VStr "codecs")); ("asname", VNone)])]))]); (VNode KImport 4%N (Some (2, 0)) [("names", (VList [(VNode Kalias 5%N (Some (2, 7)) [("name", (VStr "bz2")); ("asname", VNone)])]))]); (VNode KAssign 6%N (Some (3, 0)) [("targets", (VList [(VNode KName 7%N (Some (3, 0)) [("id", (VStr "x")); ("ctx", (VNode KStore 8%N None []))])])); ("value", (VNode KList 9%N (Some (3, 4)) [("elts", (VList [(VNode KName 10%N (Some (3, 5)) [("id", (VStr "a")); ("ctx", (VNode KLoad 11%N None []))]); (VNode KJoinedStr 12%N (Some (4, 5)) [("values", (VList [(VNode KFormattedValue 13%N (Some (4, 5)) [("value", (VNode KName 14%N (Some (4, 8)) [("id", (VStr "b")); ("ctx", (VNode KLoad 15%N None []))])); ("conversion", (VInt (-1))); ("format_spec", VNone)])]))])])); ("ctx", (VNode KLoad 16%N None []))])); ("type_comment", VNone)]); (VNode KExpr 17%N (Some (5, 0)) [("value", (VNode KCall 18%N (Some (5, 0)) [("func", (VNode KAttribute 19%N (Some (5, 0)) [("value", (VNode KName 20%N (Some (5, 0)) [("id", (VStr "codecs")); ("ctx", (VNode KLoad 21%N None []))])); ("attr", (VStr "encode")); ("ctx", (VNode KLoad 22%N None []))])); ("args", (VList [(VNode KName 23%N (Some (5, 14)) [("id", (VStr "x")); ("ctx", (VNode KLoad 24%N None []))]); (VNode KConstant 25%N (Some (5, 17)) [("value", (VStr "bz2")); ("kind", VNone)])])); ("keywords", (VList []))]))])])); ("type_ignores", (VList []))]).

Definition text_novm_method : string := "class A:
  def f(self): # novm
    import argparse
  x = 1
".
Definition tree_novm_method : pyval :=
  (VNode KModule 1%N None [("body", (VList [(VNode KClassDef 2%N (Some (1, 0)) [("name", (VStr "A")); ("bases", (VList [])); ("keywords", (VList [])); ("body", (VList [(VNode KFunctionDef 3%N (Some (2, 2)) [("name", (VStr "f")); ("args", (VNode Karguments 4%N None [("posonlyargs", (VList [])); ("args", (VList [(VNode Karg 5%N (Some (2, 8)) [("arg", (VStr "self")); ("annotation", VNone); ("type_comment", VNone)])])); ("vararg", VNone); ("kwonlyargs", (VList [])); ("kw_defaults", (VList [])); ("kwarg", VNone); ("defaults", (VList []))])); ("body", (VList [(VNode KImport 6%N (Some (3, 4)) [("names", (VList [(VNode Kalias 7%N (Some (3, 11)) [("name", (VStr "argparse")); ("asname", VNone)])]))])])); ("decorator_list", (VList [])); ("returns", VNone); ("type_comment", VNone)]); (VNode KAssign 8%N (Some (4, 2)) [("targets", (VList [(VNode KName 9%N (Some (4, 2)) [("id", (VStr "x")); ("ctx", (VNode KStore 10%N None []))])])); ("value", (VNode KConstant 11%N (Some (4, 6)) [("value", (VInt (1))); ("kind", VNone)])); ("type_comment", VNone)])])); ("decorator_list", (VList []))])])); ("type_ignores", (VList []))]).

Definition text_novm_block : string := "import argparse # novm
if x:
  import asyncio # novm
  y = 1
class A:
  def f(self):
    with x: # novm
      import enum
    print(x) # novm
    import ssl
".
Definition tree_novm_block : pyval :=
  (VNode KModule 1%N None [("body", (VList [(VNode KImport 2%N (Some (1, 0)) [("names", (VList [(VNode Kalias 3%N (Some (1, 7)) [("name", (VStr "argparse")); ("asname", VNone)])]))]); (VNode KIf 4%N (Some (2, 0)) [("test", (VNode KName 5%N (Some (2, 3)) [("id", (VStr "x")); ("ctx", (VNode KLoad 6%N None []))])); ("body", (VList [(VNode KImport 7%N (Some (3, 2)) [("names", (VList [(VNode Kalias 8%N (Some (3, 9)) [("name", (VStr "asyncio")); ("asname", VNone)])]))]); (VNode KAssign 9%N (Some (4, 2)) [("targets", (VList [(VNode KName 10%N (Some (4, 2)) [("id", (VStr "y")); ("ctx", (VNode KStore 11%N None []))])])); ("value", (VNode KConstant 12%N (Some (4, 6)) [("value", (VInt (1))); ("kind", VNone)])); ("type_comment", VNone)])])); ("orelse", (VList []))]); (VNode KClassDef 13%N (Some (5, 0)) [("name", (VStr "A")); ("bases", (VList [])); ("keywords", (VList [])); ("body", (VList [(VNode KFunctionDef 14%N (Some (6, 2)) [("name", (VStr "f")); ("args", (VNode Karguments 15%N None [("posonlyargs", (VList [])); ("args", (VList [(VNode Karg 16%N (Some (6, 8)) [("arg", (VStr "self")); ("annotation", VNone); ("type_comment", VNone)])])); ("vararg", VNone); ("kwonlyargs", (VList [])); ("kw_defaults", (VList [])); ("kwarg", VNone); ("defaults", (VList []))])); ("body", (VList [(VNode KWith 17%N (Some (7, 4)) [("items", (VList [(VNode Kwithitem 18%N None [("context_expr", (VNode KName 19%N (Some (7, 9)) [("id", (VStr "x")); ("ctx", (VNode KLoad 6%N None []))])); ("optional_vars", VNone)])])); ("body", (VList [(VNode KImport 21%N (Some (8, 6)) [("names", (VList [(VNode Kalias 22%N (Some (8, 13)) [("name", (VStr "enum")); ("asname", VNone)])]))])])); ("type_comment", VNone)]); (VNode KExpr 23%N (Some (9, 4)) [("value", (VNode KCall 24%N (Some (9, 4)) [("func", (VNode KName 25%N (Some (9, 4)) [("id", (VStr "print")); ("ctx", (VNode KLoad 6%N None []))])); ("args", (VList [(VNode KName 27%N (Some (9, 10)) [("id", (VStr "x")); ("ctx", (VNode KLoad 6%N None []))])])); ("keywords", (VList []))]))]); (VNode KImport 29%N (Some (10, 4)) [("names", (VList [(VNode Kalias 30%N (Some (10, 11)) [("name", (VStr "ssl")); ("asname", VNone)])]))])])); ("decorator_list", (VList [])); ("returns", VNone); ("type_comment", VNone)])])); ("decorator_list", (VList []))])])); ("type_ignores", (VList []))]).

Definition tree_novm_block_erased : pyval :=
  (VNode KModule 1%N None [("body", (VList [(VNode KIf 4%N (Some (2, 0)) [("test", (VNode KName 5%N (Some (2, 3)) [("id", (VStr "x")); ("ctx", (VNode KLoad 6%N None []))])); ("body", (VList [(VNode KAssign 9%N (Some (4, 2)) [("targets", (VList [(VNode KName 10%N (Some (4, 2)) [("id", (VStr "y")); ("ctx", (VNode KStore 11%N None []))])])); ("value", (VNode KConstant 12%N (Some (4, 6)) [("value", (VInt (1))); ("kind", VNone)])); ("type_comment", VNone)])])); ("orelse", (VList []))]); (VNode KClassDef 13%N (Some (5, 0)) [("name", (VStr "A")); ("bases", (VList [])); ("keywords", (VList [])); ("body", (VList [(VNode KFunctionDef 14%N (Some (6, 2)) [("name", (VStr "f")); ("args", (VNode Karguments 15%N None [("posonlyargs", (VList [])); ("args", (VList [(VNode Karg 16%N (Some (6, 8)) [("arg", (VStr "self")); ("annotation", VNone); ("type_comment", VNone)])])); ("vararg", VNone); ("kwonlyargs", (VList [])); ("kw_defaults", (VList [])); ("kwarg", VNone); ("defaults", (VList []))])); ("body", (VList [(VNode KImport 29%N (Some (10, 4)) [("names", (VList [(VNode Kalias 30%N (Some (10, 11)) [("name", (VStr "ssl")); ("asname", VNone)])]))])])); ("decorator_list", (VList [])); ("returns", VNone); ("type_comment", VNone)])])); ("decorator_list", (VList []))])])); ("type_ignores", (VList []))]).
