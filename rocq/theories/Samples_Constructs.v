(** Generated by tools/gen_samples.py: sources as CPython's parser reads them, for C88. *)
From Verif Require Import PyBase Utility AstKinds Ast Parser Processor.

Definition src_plain : string := "import os, argparse
from collections import deque
T = list
q = deque()
def f(a, b):
  q[0] += T(a)[0] ^ b.items[1:]
  return os.environ['x'], q[-1]
".
Definition tree_plain : pyval :=
  (VNode KModule 1%N None [("body", (VList [(VNode KImport 2%N (Some (1, 0)) [("names", (VList [(VNode Kalias 3%N (Some (1, 7)) [("name", (VStr "os")); ("asname", VNone)]); (VNode Kalias 4%N (Some (1, 11)) [("name", (VStr "argparse")); ("asname", VNone)])]))]); (VNode KImportFrom 5%N (Some (2, 0)) [("module", (VStr "collections")); ("names", (VList [(VNode Kalias 6%N (Some (2, 24)) [("name", (VStr "deque")); ("asname", VNone)])])); ("level", (VInt (0)))]); (VNode KAssign 7%N (Some (3, 0)) [("targets", (VList [(VNode KName 8%N (Some (3, 0)) [("id", (VStr "T")); ("ctx", (VNode KStore 9%N None []))])])); ("value", (VNode KName 10%N (Some (3, 4)) [("id", (VStr "list")); ("ctx", (VNode KLoad 11%N None []))])); ("type_comment", VNone)]); (VNode KAssign 12%N (Some (4, 0)) [("targets", (VList [(VNode KName 13%N (Some (4, 0)) [("id", (VStr "q")); ("ctx", (VNode KStore 14%N None []))])])); ("value", (VNode KCall 15%N (Some (4, 4)) [("func", (VNode KName 16%N (Some (4, 4)) [("id", (VStr "deque")); ("ctx", (VNode KLoad 17%N None []))])); ("args", (VList [])); ("keywords", (VList []))])); ("type_comment", VNone)]); (VNode KFunctionDef 18%N (Some (5, 0)) [("name", (VStr "f")); ("args", (VNode Karguments 19%N None [("posonlyargs", (VList [])); ("args", (VList [(VNode Karg 20%N (Some (5, 6)) [("arg", (VStr "a")); ("annotation", VNone); ("type_comment", VNone)]); (VNode Karg 21%N (Some (5, 9)) [("arg", (VStr "b")); ("annotation", VNone); ("type_comment", VNone)])])); ("vararg", VNone); ("kwonlyargs", (VList [])); ("kw_defaults", (VList [])); ("kwarg", VNone); ("defaults", (VList []))])); ("body", (VList [(VNode KAugAssign 22%N (Some (6, 2)) [("target", (VNode KSubscript 23%N (Some (6, 2)) [("value", (VNode KName 24%N (Some (6, 2)) [("id", (VStr "q")); ("ctx", (VNode KLoad 25%N None []))])); ("slice", (VNode KConstant 26%N (Some (6, 4)) [("value", (VInt (0))); ("kind", VNone)])); ("ctx", (VNode KStore 27%N None []))])); ("op", (VNode KAdd 28%N None [])); ("value", (VNode KBinOp 29%N (Some (6, 10)) [("left", (VNode KSubscript 30%N (Some (6, 10)) [("value", (VNode KCall 31%N (Some (6, 10)) [("func", (VNode KName 32%N (Some (6, 10)) [("id", (VStr "T")); ("ctx", (VNode KLoad 33%N None []))])); ("args", (VList [(VNode KName 34%N (Some (6, 12)) [("id", (VStr "a")); ("ctx", (VNode KLoad 35%N None []))])])); ("keywords", (VList []))])); ("slice", (VNode KConstant 36%N (Some (6, 15)) [("value", (VInt (0))); ("kind", VNone)])); ("ctx", (VNode KLoad 37%N None []))])); ("op", (VNode KBitXor 38%N None [])); ("right", (VNode KSubscript 39%N (Some (6, 20)) [("value", (VNode KAttribute 40%N (Some (6, 20)) [("value", (VNode KName 41%N (Some (6, 20)) [("id", (VStr "b")); ("ctx", (VNode KLoad 42%N None []))])); ("attr", (VStr "items")); ("ctx", (VNode KLoad 43%N None []))])); ("slice", (VNode KSlice 44%N (Some (6, 28)) [("lower", (VNode KConstant 45%N (Some (6, 28)) [("value", (VInt (1))); ("kind", VNone)])); ("upper", VNone); ("step", VNone)])); ("ctx", (VNode KLoad 46%N None []))]))]))]); (VNode KReturn 47%N (Some (7, 2)) [("value", (VNode KTuple 48%N (Some (7, 9)) [("elts", (VList [(VNode KSubscript 49%N (Some (7, 9)) [("value", (VNode KAttribute 50%N (Some (7, 9)) [("value", (VNode KName 51%N (Some (7, 9)) [("id", (VStr "os")); ("ctx", (VNode KLoad 52%N None []))])); ("attr", (VStr "environ")); ("ctx", (VNode KLoad 53%N None []))])); ("slice", (VNode KConstant 54%N (Some (7, 20)) [("value", (VStr "x")); ("kind", VNone)])); ("ctx", (VNode KLoad 55%N None []))]); (VNode KSubscript 56%N (Some (7, 26)) [("value", (VNode KName 57%N (Some (7, 26)) [("id", (VStr "q")); ("ctx", (VNode KLoad 58%N None []))])); ("slice", (VNode KUnaryOp 59%N (Some (7, 28)) [("op", (VNode KUSub 60%N None [])); ("operand", (VNode KConstant 61%N (Some (7, 29)) [("value", (VInt (1))); ("kind", VNone)]))])); ("ctx", (VNode KLoad 62%N None []))])])); ("ctx", (VNode KLoad 63%N None []))]))])])); ("decorator_list", (VList [])); ("returns", VNone); ("type_comment", VNone)])])); ("type_ignores", (VList []))]).
Definition tokens_plain : list token :=
  [mkTok TkOther "import" 1 0 1; mkTok TkOther "os" 1 7 1; mkTok TkOther "," 1 9 1; mkTok TkOther "argparse" 1 11 1; mkTok TkNewline "
" 1 19 1; mkTok TkOther "from" 2 0 2; mkTok TkOther "collections" 2 5 2; mkTok TkOther "import" 2 17 2; mkTok TkOther "deque" 2 24 2; mkTok TkNewline "
" 2 29 2; mkTok TkOther "T" 3 0 3; mkTok TkOther "=" 3 2 3; mkTok TkOther "list" 3 4 3; mkTok TkNewline "
" 3 8 3; mkTok TkOther "q" 4 0 4; mkTok TkOther "=" 4 2 4; mkTok TkOther "deque" 4 4 4; mkTok TkOther "(" 4 9 4; mkTok TkOther ")" 4 10 4; mkTok TkNewline "
" 4 11 4; mkTok TkOther "def" 5 0 5; mkTok TkOther "f" 5 4 5; mkTok TkOther "(" 5 5 5; mkTok TkOther "a" 5 6 5; mkTok TkOther "," 5 7 5; mkTok TkOther "b" 5 9 5; mkTok TkOther ")" 5 10 5; mkTok TkOther ":" 5 11 5; mkTok TkNewline "
" 5 12 5; mkTok TkOther "  " 6 0 6; mkTok TkOther "q" 6 2 6; mkTok TkOther "[" 6 3 6; mkTok TkOther "0" 6 4 6; mkTok TkOther "]" 6 5 6; mkTok TkOther "+=" 6 7 6; mkTok TkOther "T" 6 10 6; mkTok TkOther "(" 6 11 6; mkTok TkOther "a" 6 12 6; mkTok TkOther ")" 6 13 6; mkTok TkOther "[" 6 14 6; mkTok TkOther "0" 6 15 6; mkTok TkOther "]" 6 16 6; mkTok TkOther "^" 6 18 6; mkTok TkOther "b" 6 20 6; mkTok TkOther "." 6 21 6; mkTok TkOther "items" 6 22 6; mkTok TkOther "[" 6 27 6; mkTok TkOther "1" 6 28 6; mkTok TkOther ":" 6 29 6; mkTok TkOther "]" 6 30 6; mkTok TkNewline "
" 6 31 6; mkTok TkOther "return" 7 2 7; mkTok TkOther "os" 7 9 7; mkTok TkOther "." 7 11 7; mkTok TkOther "environ" 7 12 7; mkTok TkOther "[" 7 19 7; mkTok TkString "'x'" 7 20 7; mkTok TkOther "]" 7 23 7; mkTok TkOther "," 7 24 7; mkTok TkOther "q" 7 26 7; mkTok TkOther "[" 7 27 7; mkTok TkOther "-" 7 28 7; mkTok TkOther "1" 7 29 7; mkTok TkOther "]" 7 30 7; mkTok TkNewline "
" 7 31 7; mkTok TkOther "" 8 0 8; mkTok TkOther "" 8 0 8].

Definition src_bar : string := "isinstance(a, int | str)
".
Definition tree_bar : pyval :=
  (VNode KModule 1%N None [("body", (VList [(VNode KExpr 2%N (Some (1, 0)) [("value", (VNode KCall 3%N (Some (1, 0)) [("func", (VNode KName 4%N (Some (1, 0)) [("id", (VStr "isinstance")); ("ctx", (VNode KLoad 5%N None []))])); ("args", (VList [(VNode KName 6%N (Some (1, 11)) [("id", (VStr "a")); ("ctx", (VNode KLoad 7%N None []))]); (VNode KBinOp 8%N (Some (1, 14)) [("left", (VNode KName 9%N (Some (1, 14)) [("id", (VStr "int")); ("ctx", (VNode KLoad 10%N None []))])); ("op", (VNode KBitOr 11%N None [])); ("right", (VNode KName 12%N (Some (1, 20)) [("id", (VStr "str")); ("ctx", (VNode KLoad 13%N None []))]))])])); ("keywords", (VList []))]))])])); ("type_ignores", (VList []))]).
Definition tokens_bar : list token :=
  [mkTok TkOther "isinstance" 1 0 1; mkTok TkOther "(" 1 10 1; mkTok TkOther "a" 1 11 1; mkTok TkOther "," 1 12 1; mkTok TkOther "int" 1 14 1; mkTok TkOther "|" 1 18 1; mkTok TkOther "str" 1 20 1; mkTok TkOther ")" 1 23 1; mkTok TkNewline "
" 1 24 1; mkTok TkOther "" 2 0 2].

Definition src_documenting : string := "f'{a=}'
".
Definition tree_documenting : pyval :=
  (VNode KModule 1%N None [("body", (VList [(VNode KExpr 2%N (Some (1, 0)) [("value", (VNode KJoinedStr 3%N (Some (1, 0)) [("values", (VList [(VNode KConstant 4%N (Some (1, 0)) [("value", (VStr "a=")); ("kind", VNone)]); (VNode KFormattedValue 5%N (Some (1, 0)) [("value", (VNode KName 6%N (Some (1, 3)) [("id", (VStr "a")); ("ctx", (VNode KLoad 7%N None []))])); ("conversion", (VInt (114))); ("format_spec", VNone)])]))]))])])); ("type_ignores", (VList []))]).
Definition tokens_documenting : list token :=
  [mkTok TkString "f'{a=}'" 1 0 1; mkTok TkNewline "
" 1 7 1; mkTok TkOther "" 2 0 2].

Definition src_subscript : string := "T = dict
x = T[str, int]
".
Definition tree_subscript : pyval :=
  (VNode KModule 1%N None [("body", (VList [(VNode KAssign 2%N (Some (1, 0)) [("targets", (VList [(VNode KName 3%N (Some (1, 0)) [("id", (VStr "T")); ("ctx", (VNode KStore 4%N None []))])])); ("value", (VNode KName 5%N (Some (1, 4)) [("id", (VStr "dict")); ("ctx", (VNode KLoad 6%N None []))])); ("type_comment", VNone)]); (VNode KAssign 7%N (Some (2, 0)) [("targets", (VList [(VNode KName 8%N (Some (2, 0)) [("id", (VStr "x")); ("ctx", (VNode KStore 9%N None []))])])); ("value", (VNode KSubscript 10%N (Some (2, 4)) [("value", (VNode KName 11%N (Some (2, 4)) [("id", (VStr "T")); ("ctx", (VNode KLoad 12%N None []))])); ("slice", (VNode KTuple 13%N (Some (2, 6)) [("elts", (VList [(VNode KName 14%N (Some (2, 6)) [("id", (VStr "str")); ("ctx", (VNode KLoad 15%N None []))]); (VNode KName 16%N (Some (2, 11)) [("id", (VStr "int")); ("ctx", (VNode KLoad 17%N None []))])])); ("ctx", (VNode KLoad 18%N None []))])); ("ctx", (VNode KLoad 19%N None []))])); ("type_comment", VNone)])])); ("type_ignores", (VList []))]).
Definition tokens_subscript : list token :=
  [mkTok TkOther "T" 1 0 1; mkTok TkOther "=" 1 2 1; mkTok TkOther "dict" 1 4 1; mkTok TkNewline "
" 1 8 1; mkTok TkOther "x" 2 0 2; mkTok TkOther "=" 2 2 2; mkTok TkOther "T" 2 4 2; mkTok TkOther "[" 2 5 2; mkTok TkOther "str" 2 6 2; mkTok TkOther "," 2 9 2; mkTok TkOther "int" 2 11 2; mkTok TkOther "]" 2 14 2; mkTok TkNewline "
" 2 15 2; mkTok TkOther "" 3 0 3].
