(** Generated by tools/gen_samples.py: syntax trees of CPython's parser, for C38. *)
From Verif Require Import PyBase Utility AstKinds Ast.

Definition text_names : string := "import os
import collections as co
from collections import OrderedDict, deque
class A: pass
T = list
d = {}
o = OrderedDict()
if d | dict(): pass
o | os.environ
os.environ |= d
A | co.abc
deque[int]
co.deque[str]
T[int]
".
Definition tree_names : pyval :=
  (VNode KModule 1%N None [("body", (VList [(VNode KImport 2%N (Some (1, 0)) [("names", (VList [(VNode Kalias 3%N (Some (1, 7)) [("name", (VStr "os")); ("asname", VNone)])]))]); (VNode KImport 4%N (Some (2, 0)) [("names", (VList [(VNode Kalias 5%N (Some (2, 7)) [("name", (VStr "collections")); ("asname", (VStr "co"))])]))]); (VNode KImportFrom 6%N (Some (3, 0)) [("module", (VStr "collections")); ("names", (VList [(VNode Kalias 7%N (Some (3, 24)) [("name", (VStr "OrderedDict")); ("asname", VNone)]); (VNode Kalias 8%N (Some (3, 37)) [("name", (VStr "deque")); ("asname", VNone)])])); ("level", (VInt (0)))]); (VNode KClassDef 9%N (Some (4, 0)) [("name", (VStr "A")); ("bases", (VList [])); ("keywords", (VList [])); ("body", (VList [(VNode KPass 10%N (Some (4, 9)) [])])); ("decorator_list", (VList []))]); (VNode KAssign 11%N (Some (5, 0)) [("targets", (VList [(VNode KName 12%N (Some (5, 0)) [("id", (VStr "T")); ("ctx", (VNode KStore 13%N None []))])])); ("value", (VNode KName 14%N (Some (5, 4)) [("id", (VStr "list")); ("ctx", (VNode KLoad 15%N None []))])); ("type_comment", VNone)]); (VNode KAssign 16%N (Some (6, 0)) [("targets", (VList [(VNode KName 17%N (Some (6, 0)) [("id", (VStr "d")); ("ctx", (VNode KStore 18%N None []))])])); ("value", (VNode KDict 19%N (Some (6, 4)) [("keys", (VList [])); ("values", (VList []))])); ("type_comment", VNone)]); (VNode KAssign 20%N (Some (7, 0)) [("targets", (VList [(VNode KName 21%N (Some (7, 0)) [("id", (VStr "o")); ("ctx", (VNode KStore 22%N None []))])])); ("value", (VNode KCall 23%N (Some (7, 4)) [("func", (VNode KName 24%N (Some (7, 4)) [("id", (VStr "OrderedDict")); ("ctx", (VNode KLoad 25%N None []))])); ("args", (VList [])); ("keywords", (VList []))])); ("type_comment", VNone)]); (VNode KIf 26%N (Some (8, 0)) [("test", (VNode KBinOp 27%N (Some (8, 3)) [("left", (VNode KName 28%N (Some (8, 3)) [("id", (VStr "d")); ("ctx", (VNode KLoad 29%N None []))])); ("op", (VNode KBitOr 30%N None [])); ("right", (VNode KCall 31%N (Some (8, 7)) [("func", (VNode KName 32%N (Some (8, 7)) [("id", (VStr "dict")); ("ctx", (VNode KLoad 33%N None []))])); ("args", (VList [])); ("keywords", (VList []))]))])); ("body", (VList [(VNode KPass 34%N (Some (8, 15)) [])])); ("orelse", (VList []))]); (VNode KExpr 35%N (Some (9, 0)) [("value", (VNode KBinOp 36%N (Some (9, 0)) [("left", (VNode KName 37%N (Some (9, 0)) [("id", (VStr "o")); ("ctx", (VNode KLoad 38%N None []))])); ("op", (VNode KBitOr 39%N None [])); ("right", (VNode KAttribute 40%N (Some (9, 4)) [("value", (VNode KName 41%N (Some (9, 4)) [("id", (VStr "os")); ("ctx", (VNode KLoad 42%N None []))])); ("attr", (VStr "environ")); ("ctx", (VNode KLoad 43%N None []))]))]))]); (VNode KAugAssign 44%N (Some (10, 0)) [("target", (VNode KAttribute 45%N (Some (10, 0)) [("value", (VNode KName 46%N (Some (10, 0)) [("id", (VStr "os")); ("ctx", (VNode KLoad 47%N None []))])); ("attr", (VStr "environ")); ("ctx", (VNode KStore 48%N None []))])); ("op", (VNode KBitOr 49%N None [])); ("value", (VNode KName 50%N (Some (10, 14)) [("id", (VStr "d")); ("ctx", (VNode KLoad 51%N None []))]))]); (VNode KExpr 52%N (Some (11, 0)) [("value", (VNode KBinOp 53%N (Some (11, 0)) [("left", (VNode KName 54%N (Some (11, 0)) [("id", (VStr "A")); ("ctx", (VNode KLoad 55%N None []))])); ("op", (VNode KBitOr 56%N None [])); ("right", (VNode KAttribute 57%N (Some (11, 4)) [("value", (VNode KName 58%N (Some (11, 4)) [("id", (VStr "co")); ("ctx", (VNode KLoad 59%N None []))])); ("attr", (VStr "abc")); ("ctx", (VNode KLoad 60%N None []))]))]))]); (VNode KExpr 61%N (Some (12, 0)) [("value", (VNode KSubscript 62%N (Some (12, 0)) [("value", (VNode KName 63%N (Some (12, 0)) [("id", (VStr "deque")); ("ctx", (VNode KLoad 64%N None []))])); ("slice", (VNode KName 65%N (Some (12, 6)) [("id", (VStr "int")); ("ctx", (VNode KLoad 66%N None []))])); ("ctx", (VNode KLoad 67%N None []))]))]); (VNode KExpr 68%N (Some (13, 0)) [("value", (VNode KSubscript 69%N (Some (13, 0)) [("value", (VNode KAttribute 70%N (Some (13, 0)) [("value", (VNode KName 71%N (Some (13, 0)) [("id", (VStr "co")); ("ctx", (VNode KLoad 72%N None []))])); ("attr", (VStr "deque")); ("ctx", (VNode KLoad 73%N None []))])); ("slice", (VNode KName 74%N (Some (13, 9)) [("id", (VStr "str")); ("ctx", (VNode KLoad 75%N None []))])); ("ctx", (VNode KLoad 76%N None []))]))]); (VNode KExpr 77%N (Some (14, 0)) [("value", (VNode KSubscript 78%N (Some (14, 0)) [("value", (VNode KName 79%N (Some (14, 0)) [("id", (VStr "T")); ("ctx", (VNode KLoad 80%N None []))])); ("slice", (VNode KName 81%N (Some (14, 2)) [("id", (VStr "int")); ("ctx", (VNode KLoad 82%N None []))])); ("ctx", (VNode KLoad 83%N None []))]))])])); ("type_ignores", (VList []))]).

Definition text_dict_comp : string := "{a: a for a in b} | {}
".
Definition tree_dict_comp : pyval :=
  (VNode KModule 1%N None [("body", (VList [(VNode KExpr 2%N (Some (1, 0)) [("value", (VNode KBinOp 3%N (Some (1, 0)) [("left", (VNode KDictComp 4%N (Some (1, 0)) [("key", (VNode KName 5%N (Some (1, 1)) [("id", (VStr "a")); ("ctx", (VNode KLoad 6%N None []))])); ("value", (VNode KName 7%N (Some (1, 4)) [("id", (VStr "a")); ("ctx", (VNode KLoad 8%N None []))])); ("generators", (VList [(VNode Kcomprehension 9%N None [("target", (VNode KName 10%N (Some (1, 10)) [("id", (VStr "a")); ("ctx", (VNode KStore 11%N None []))])); ("iter", (VNode KName 12%N (Some (1, 15)) [("id", (VStr "b")); ("ctx", (VNode KLoad 13%N None []))])); ("ifs", (VList [])); ("is_async", (VInt (0)))])]))])); ("op", (VNode KBitOr 14%N None [])); ("right", (VNode KDict 15%N (Some (1, 20)) [("keys", (VList [])); ("values", (VList []))]))]))])])); ("type_ignores", (VList []))]).

Definition text_dict_call : string := "import collections
collections.OrderedDict() | {}
".
Definition tree_dict_call : pyval :=
  (VNode KModule 1%N None [("body", (VList [(VNode KImport 2%N (Some (1, 0)) [("names", (VList [(VNode Kalias 3%N (Some (1, 7)) [("name", (VStr "collections")); ("asname", VNone)])]))]); (VNode KExpr 4%N (Some (2, 0)) [("value", (VNode KBinOp 5%N (Some (2, 0)) [("left", (VNode KCall 6%N (Some (2, 0)) [("func", (VNode KAttribute 7%N (Some (2, 0)) [("value", (VNode KName 8%N (Some (2, 0)) [("id", (VStr "collections")); ("ctx", (VNode KLoad 9%N None []))])); ("attr", (VStr "OrderedDict")); ("ctx", (VNode KLoad 10%N None []))])); ("args", (VList [])); ("keywords", (VList []))])); ("op", (VNode KBitOr 11%N None [])); ("right", (VNode KDict 12%N (Some (2, 28)) [("keys", (VList [])); ("values", (VList []))]))]))])])); ("type_ignores", (VList []))]).

Definition text_dict_walrus : string := "(d := {})
d | {}
".
Definition tree_dict_walrus : pyval :=
  (VNode KModule 1%N None [("body", (VList [(VNode KExpr 2%N (Some (1, 0)) [("value", (VNode KNamedExpr 3%N (Some (1, 1)) [("target", (VNode KName 4%N (Some (1, 1)) [("id", (VStr "d")); ("ctx", (VNode KStore 5%N None []))])); ("value", (VNode KDict 6%N (Some (1, 6)) [("keys", (VList [])); ("values", (VList []))]))]))]); (VNode KExpr 7%N (Some (2, 0)) [("value", (VNode KBinOp 8%N (Some (2, 0)) [("left", (VNode KName 9%N (Some (2, 0)) [("id", (VStr "d")); ("ctx", (VNode KLoad 10%N None []))])); ("op", (VNode KBitOr 11%N None [])); ("right", (VNode KDict 12%N (Some (2, 4)) [("keys", (VList [])); ("values", (VList []))]))]))])])); ("type_ignores", (VList []))]).
