(** Generated by tools/gen_samples.py: sources as CPython's parser reads them, for C85. *)
From Verif Require Import PyBase Utility AstKinds Ast Parser Processor.

Definition src_idle : string := """""""Module.""""""
import argparse # novm
class A:
  """"""Class.""""""
  x = 1
  def f(self):
    'Method.'
    pass
    for y in self:
      assert 1 < -2
      if y: break
    return f'{self=}'
try:
  while 0 or (1, 'a'): break
  import enum
finally:
  global z
  None
".
Definition tree_idle : pyval :=
  (VNode KModule 1%N None [("body", (VList [(VNode KExpr 2%N (Some (1, 0)) [("value", (VNode KConstant 3%N (Some (1, 0)) [("value", (VStr "Module.")); ("kind", VNone)]))]); (VNode KImport 4%N (Some (2, 0)) [("names", (VList [(VNode Kalias 5%N (Some (2, 7)) [("name", (VStr "argparse")); ("asname", VNone)])]))]); (VNode KClassDef 6%N (Some (3, 0)) [("name", (VStr "A")); ("bases", (VList [])); ("keywords", (VList [])); ("body", (VList [(VNode KExpr 7%N (Some (4, 2)) [("value", (VNode KConstant 8%N (Some (4, 2)) [("value", (VStr "Class.")); ("kind", VNone)]))]); (VNode KAssign 9%N (Some (5, 2)) [("targets", (VList [(VNode KName 10%N (Some (5, 2)) [("id", (VStr "x")); ("ctx", (VNode KStore 11%N None []))])])); ("value", (VNode KConstant 12%N (Some (5, 6)) [("value", (VInt (1))); ("kind", VNone)])); ("type_comment", VNone)]); (VNode KFunctionDef 13%N (Some (6, 2)) [("name", (VStr "f")); ("args", (VNode Karguments 14%N None [("posonlyargs", (VList [])); ("args", (VList [(VNode Karg 15%N (Some (6, 8)) [("arg", (VStr "self")); ("annotation", VNone); ("type_comment", VNone)])])); ("vararg", VNone); ("kwonlyargs", (VList [])); ("kw_defaults", (VList [])); ("kwarg", VNone); ("defaults", (VList []))])); ("body", (VList [(VNode KExpr 16%N (Some (7, 4)) [("value", (VNode KConstant 17%N (Some (7, 4)) [("value", (VStr "Method.")); ("kind", VNone)]))]); (VNode KPass 18%N (Some (8, 4)) []); (VNode KFor 19%N (Some (9, 4)) [("target", (VNode KName 20%N (Some (9, 8)) [("id", (VStr "y")); ("ctx", (VNode KStore 11%N None []))])); ("iter", (VNode KName 22%N (Some (9, 13)) [("id", (VStr "self")); ("ctx", (VNode KLoad 23%N None []))])); ("body", (VList [(VNode KAssert 24%N (Some (10, 6)) [("test", (VNode KCompare 25%N (Some (10, 13)) [("left", (VNode KConstant 26%N (Some (10, 13)) [("value", (VInt (1))); ("kind", VNone)])); ("ops", (VList [(VNode KLt 27%N None [])])); ("comparators", (VList [(VNode KUnaryOp 28%N (Some (10, 17)) [("op", (VNode KUSub 29%N None [])); ("operand", (VNode KConstant 30%N (Some (10, 18)) [("value", (VInt (2))); ("kind", VNone)]))])]))])); ("msg", VNone)]); (VNode KIf 31%N (Some (11, 6)) [("test", (VNode KName 32%N (Some (11, 9)) [("id", (VStr "y")); ("ctx", (VNode KLoad 23%N None []))])); ("body", (VList [(VNode KBreak 34%N (Some (11, 12)) [])])); ("orelse", (VList []))])])); ("orelse", (VList [])); ("type_comment", VNone)]); (VNode KReturn 35%N (Some (12, 4)) [("value", (VNode KJoinedStr 36%N (Some (12, 11)) [("values", (VList [(VNode KConstant 37%N (Some (12, 11)) [("value", (VStr "self=")); ("kind", VNone)]); (VNode KFormattedValue 38%N (Some (12, 11)) [("value", (VNode KName 39%N (Some (12, 14)) [("id", (VStr "self")); ("ctx", (VNode KLoad 23%N None []))])); ("conversion", (VInt (114))); ("format_spec", VNone)])]))]))])])); ("decorator_list", (VList [])); ("returns", VNone); ("type_comment", VNone)])])); ("decorator_list", (VList []))]); (VNode KTry 41%N (Some (13, 0)) [("body", (VList [(VNode KWhile 42%N (Some (14, 2)) [("test", (VNode KBoolOp 43%N (Some (14, 8)) [("op", (VNode KOr 44%N None [])); ("values", (VList [(VNode KConstant 45%N (Some (14, 8)) [("value", (VInt (0))); ("kind", VNone)]); (VNode KTuple 46%N (Some (14, 13)) [("elts", (VList [(VNode KConstant 47%N (Some (14, 14)) [("value", (VInt (1))); ("kind", VNone)]); (VNode KConstant 48%N (Some (14, 17)) [("value", (VStr "a")); ("kind", VNone)])])); ("ctx", (VNode KLoad 23%N None []))])]))])); ("body", (VList [(VNode KBreak 50%N (Some (14, 23)) [])])); ("orelse", (VList []))]); (VNode KImport 51%N (Some (15, 2)) [("names", (VList [(VNode Kalias 52%N (Some (15, 9)) [("name", (VStr "enum")); ("asname", VNone)])]))])])); ("handlers", (VList [])); ("orelse", (VList [])); ("finalbody", (VList [(VNode KGlobal 53%N (Some (17, 2)) [("names", (VList [(VStr "z")]))]); (VNode KExpr 54%N (Some (18, 2)) [("value", (VNode KConstant 55%N (Some (18, 2)) [("value", VNone); ("kind", VNone)]))])]))])])); ("type_ignores", (VList []))]).
Definition tokens_idle : list token :=
  [mkTok TkString """""""Module.""""""" 1 0 1; mkTok TkNewline "
" 1 13 1; mkTok TkOther "import" 2 0 2; mkTok TkOther "argparse" 2 7 2; mkTok TkComment "# novm" 2 16 2; mkTok TkNewline "
" 2 22 2; mkTok TkOther "class" 3 0 3; mkTok TkOther "A" 3 6 3; mkTok TkOther ":" 3 7 3; mkTok TkNewline "
" 3 8 3; mkTok TkOther "  " 4 0 4; mkTok TkString """""""Class.""""""" 4 2 4; mkTok TkNewline "
" 4 14 4; mkTok TkOther "x" 5 2 5; mkTok TkOther "=" 5 4 5; mkTok TkOther "1" 5 6 5; mkTok TkNewline "
" 5 7 5; mkTok TkOther "def" 6 2 6; mkTok TkOther "f" 6 6 6; mkTok TkOther "(" 6 7 6; mkTok TkOther "self" 6 8 6; mkTok TkOther ")" 6 12 6; mkTok TkOther ":" 6 13 6; mkTok TkNewline "
" 6 14 6; mkTok TkOther "    " 7 0 7; mkTok TkString "'Method.'" 7 4 7; mkTok TkNewline "
" 7 13 7; mkTok TkOther "pass" 8 4 8; mkTok TkNewline "
" 8 8 8; mkTok TkOther "for" 9 4 9; mkTok TkOther "y" 9 8 9; mkTok TkOther "in" 9 10 9; mkTok TkOther "self" 9 13 9; mkTok TkOther ":" 9 17 9; mkTok TkNewline "
" 9 18 9; mkTok TkOther "      " 10 0 10; mkTok TkOther "assert" 10 6 10; mkTok TkOther "1" 10 13 10; mkTok TkOther "<" 10 15 10; mkTok TkOther "-" 10 17 10; mkTok TkOther "2" 10 18 10; mkTok TkNewline "
" 10 19 10; mkTok TkOther "if" 11 6 11; mkTok TkOther "y" 11 9 11; mkTok TkOther ":" 11 10 11; mkTok TkOther "break" 11 12 11; mkTok TkNewline "
" 11 17 11; mkTok TkOther "" 12 4 12; mkTok TkOther "return" 12 4 12; mkTok TkString "f'{self=}'" 12 11 12; mkTok TkNewline "
" 12 21 12; mkTok TkOther "" 13 0 13; mkTok TkOther "" 13 0 13; mkTok TkOther "try" 13 0 13; mkTok TkOther ":" 13 3 13; mkTok TkNewline "
" 13 4 13; mkTok TkOther "  " 14 0 14; mkTok TkOther "while" 14 2 14; mkTok TkOther "0" 14 8 14; mkTok TkOther "or" 14 10 14; mkTok TkOther "(" 14 13 14; mkTok TkOther "1" 14 14 14; mkTok TkOther "," 14 15 14; mkTok TkString "'a'" 14 17 14; mkTok TkOther ")" 14 20 14; mkTok TkOther ":" 14 21 14; mkTok TkOther "break" 14 23 14; mkTok TkNewline "
" 14 28 14; mkTok TkOther "import" 15 2 15; mkTok TkOther "enum" 15 9 15; mkTok TkNewline "
" 15 13 15; mkTok TkOther "" 16 0 16; mkTok TkOther "finally" 16 0 16; mkTok TkOther ":" 16 7 16; mkTok TkNewline "
" 16 8 16; mkTok TkOther "  " 17 0 17; mkTok TkOther "global" 17 2 17; mkTok TkOther "z" 17 9 17; mkTok TkNewline "
" 17 10 17; mkTok TkOther "None" 18 2 18; mkTok TkNewline "
" 18 6 18; mkTok TkOther "" 19 0 19; mkTok TkOther "" 19 0 19].

Definition src_bare : string := "import argparse # novm
class A:
  x = 1
  def f(self):
    for y in self:
      if y: 'no break'
    return f'{self=}'
try:
  import enum
finally:
  'nothing'
".
Definition tree_bare : pyval :=
  (VNode KModule 1%N None [("body", (VList [(VNode KImport 4%N (Some (1, 0)) [("names", (VList [(VNode Kalias 5%N (Some (1, 7)) [("name", (VStr "argparse")); ("asname", VNone)])]))]); (VNode KClassDef 6%N (Some (2, 0)) [("name", (VStr "A")); ("bases", (VList [])); ("keywords", (VList [])); ("body", (VList [(VNode KAssign 9%N (Some (3, 2)) [("targets", (VList [(VNode KName 10%N (Some (3, 2)) [("id", (VStr "x")); ("ctx", (VNode KStore 11%N None []))])])); ("value", (VNode KConstant 12%N (Some (3, 6)) [("value", (VInt (1))); ("kind", VNone)])); ("type_comment", VNone)]); (VNode KFunctionDef 13%N (Some (4, 2)) [("name", (VStr "f")); ("args", (VNode Karguments 14%N None [("posonlyargs", (VList [])); ("args", (VList [(VNode Karg 15%N (Some (4, 8)) [("arg", (VStr "self")); ("annotation", VNone); ("type_comment", VNone)])])); ("vararg", VNone); ("kwonlyargs", (VList [])); ("kw_defaults", (VList [])); ("kwarg", VNone); ("defaults", (VList []))])); ("body", (VList [(VNode KFor 19%N (Some (5, 4)) [("target", (VNode KName 20%N (Some (5, 8)) [("id", (VStr "y")); ("ctx", (VNode KStore 11%N None []))])); ("iter", (VNode KName 22%N (Some (5, 13)) [("id", (VStr "self")); ("ctx", (VNode KLoad 23%N None []))])); ("body", (VList [(VNode KIf 31%N (Some (6, 6)) [("test", (VNode KName 32%N (Some (6, 9)) [("id", (VStr "y")); ("ctx", (VNode KLoad 23%N None []))])); ("body", (VList [(VNode KExpr 75%N (Some (6, 12)) [("value", (VNode KConstant 76%N (Some (6, 12)) [("value", (VStr "no break")); ("kind", VNone)]))])])); ("orelse", (VList []))])])); ("orelse", (VList [])); ("type_comment", VNone)]); (VNode KReturn 35%N (Some (7, 4)) [("value", (VNode KJoinedStr 36%N (Some (7, 11)) [("values", (VList [(VNode KConstant 37%N (Some (7, 11)) [("value", (VStr "self=")); ("kind", VNone)]); (VNode KFormattedValue 38%N (Some (7, 11)) [("value", (VNode KName 39%N (Some (7, 14)) [("id", (VStr "self")); ("ctx", (VNode KLoad 23%N None []))])); ("conversion", (VInt (114))); ("format_spec", VNone)])]))]))])])); ("decorator_list", (VList [])); ("returns", VNone); ("type_comment", VNone)])])); ("decorator_list", (VList []))]); (VNode KTry 41%N (Some (8, 0)) [("body", (VList [(VNode KImport 51%N (Some (9, 2)) [("names", (VList [(VNode Kalias 52%N (Some (9, 9)) [("name", (VStr "enum")); ("asname", VNone)])]))])])); ("handlers", (VList [])); ("orelse", (VList [])); ("finalbody", (VList [(VNode KExpr 86%N (Some (11, 2)) [("value", (VNode KConstant 87%N (Some (11, 2)) [("value", (VStr "nothing")); ("kind", VNone)]))])]))])])); ("type_ignores", (VList []))]).
Definition tokens_bare : list token :=
  [mkTok TkOther "import" 1 0 1; mkTok TkOther "argparse" 1 7 1; mkTok TkComment "# novm" 1 16 1; mkTok TkNewline "
" 1 22 1; mkTok TkOther "class" 2 0 2; mkTok TkOther "A" 2 6 2; mkTok TkOther ":" 2 7 2; mkTok TkNewline "
" 2 8 2; mkTok TkOther "  " 3 0 3; mkTok TkOther "x" 3 2 3; mkTok TkOther "=" 3 4 3; mkTok TkOther "1" 3 6 3; mkTok TkNewline "
" 3 7 3; mkTok TkOther "def" 4 2 4; mkTok TkOther "f" 4 6 4; mkTok TkOther "(" 4 7 4; mkTok TkOther "self" 4 8 4; mkTok TkOther ")" 4 12 4; mkTok TkOther ":" 4 13 4; mkTok TkNewline "
" 4 14 4; mkTok TkOther "    " 5 0 5; mkTok TkOther "for" 5 4 5; mkTok TkOther "y" 5 8 5; mkTok TkOther "in" 5 10 5; mkTok TkOther "self" 5 13 5; mkTok TkOther ":" 5 17 5; mkTok TkNewline "
" 5 18 5; mkTok TkOther "      " 6 0 6; mkTok TkOther "if" 6 6 6; mkTok TkOther "y" 6 9 6; mkTok TkOther ":" 6 10 6; mkTok TkString "'no break'" 6 12 6; mkTok TkNewline "
" 6 22 6; mkTok TkOther "" 7 4 7; mkTok TkOther "return" 7 4 7; mkTok TkString "f'{self=}'" 7 11 7; mkTok TkNewline "
" 7 21 7; mkTok TkOther "" 8 0 8; mkTok TkOther "" 8 0 8; mkTok TkOther "try" 8 0 8; mkTok TkOther ":" 8 3 8; mkTok TkNewline "
" 8 4 8; mkTok TkOther "  " 9 0 9; mkTok TkOther "import" 9 2 9; mkTok TkOther "enum" 9 9 9; mkTok TkNewline "
" 9 13 9; mkTok TkOther "" 10 0 10; mkTok TkOther "finally" 10 0 10; mkTok TkOther ":" 10 7 10; mkTok TkNewline "
" 10 8 10; mkTok TkOther "  " 11 0 11; mkTok TkString "'nothing'" 11 2 11; mkTok TkNewline "
" 11 11 11; mkTok TkOther "" 12 0 12; mkTok TkOther "" 12 0 12].
