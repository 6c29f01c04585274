(** Generated by tools/gen_samples.py: sources as CPython's parser reads them, for C86. *)
From Verif Require Import PyBase Utility AstKinds Ast Parser Processor.

Definition src_annotated : string := "import typing
x: int = f'{1}' # novm
def f(a: int) -> str:
  y: list = a
class A:
  def g(self):
    if self:
      async def h() -> None: pass
    z: Final = 2
".
Definition tree_annotated : pyval :=
  (VNode KModule 1%N None [("body", (VList [(VNode KImport 2%N (Some (1, 0)) [("names", (VList [(VNode Kalias 3%N (Some (1, 7)) [("name", (VStr "typing")); ("asname", VNone)])]))]); (VNode KAnnAssign 4%N (Some (2, 0)) [("target", (VNode KName 5%N (Some (2, 0)) [("id", (VStr "x")); ("ctx", (VNode KStore 6%N None []))])); ("annotation", (VNode KName 7%N (Some (2, 3)) [("id", (VStr "int")); ("ctx", (VNode KLoad 8%N None []))])); ("value", (VNode KJoinedStr 9%N (Some (2, 9)) [("values", (VList [(VNode KFormattedValue 10%N (Some (2, 9)) [("value", (VNode KConstant 11%N (Some (2, 12)) [("value", (VInt (1))); ("kind", VNone)])); ("conversion", (VInt (-1))); ("format_spec", VNone)])]))])); ("simple", (VInt (1)))]); (VNode KFunctionDef 12%N (Some (3, 0)) [("name", (VStr "f")); ("args", (VNode Karguments 13%N None [("posonlyargs", (VList [])); ("args", (VList [(VNode Karg 14%N (Some (3, 6)) [("arg", (VStr "a")); ("annotation", (VNode KName 15%N (Some (3, 9)) [("id", (VStr "int")); ("ctx", (VNode KLoad 8%N None []))])); ("type_comment", VNone)])])); ("vararg", VNone); ("kwonlyargs", (VList [])); ("kw_defaults", (VList [])); ("kwarg", VNone); ("defaults", (VList []))])); ("body", (VList [(VNode KAnnAssign 17%N (Some (4, 2)) [("target", (VNode KName 18%N (Some (4, 2)) [("id", (VStr "y")); ("ctx", (VNode KStore 6%N None []))])); ("annotation", (VNode KName 20%N (Some (4, 5)) [("id", (VStr "list")); ("ctx", (VNode KLoad 8%N None []))])); ("value", (VNode KName 22%N (Some (4, 12)) [("id", (VStr "a")); ("ctx", (VNode KLoad 8%N None []))])); ("simple", (VInt (1)))])])); ("decorator_list", (VList [])); ("returns", (VNode KName 24%N (Some (3, 17)) [("id", (VStr "str")); ("ctx", (VNode KLoad 8%N None []))])); ("type_comment", VNone)]); (VNode KClassDef 26%N (Some (5, 0)) [("name", (VStr "A")); ("bases", (VList [])); ("keywords", (VList [])); ("body", (VList [(VNode KFunctionDef 27%N (Some (6, 2)) [("name", (VStr "g")); ("args", (VNode Karguments 28%N None [("posonlyargs", (VList [])); ("args", (VList [(VNode Karg 29%N (Some (6, 8)) [("arg", (VStr "self")); ("annotation", VNone); ("type_comment", VNone)])])); ("vararg", VNone); ("kwonlyargs", (VList [])); ("kw_defaults", (VList [])); ("kwarg", VNone); ("defaults", (VList []))])); ("body", (VList [(VNode KIf 30%N (Some (7, 4)) [("test", (VNode KName 31%N (Some (7, 7)) [("id", (VStr "self")); ("ctx", (VNode KLoad 8%N None []))])); ("body", (VList [(VNode KAsyncFunctionDef 33%N (Some (8, 6)) [("name", (VStr "h")); ("args", (VNode Karguments 34%N None [("posonlyargs", (VList [])); ("args", (VList [])); ("vararg", VNone); ("kwonlyargs", (VList [])); ("kw_defaults", (VList [])); ("kwarg", VNone); ("defaults", (VList []))])); ("body", (VList [(VNode KPass 35%N (Some (8, 29)) [])])); ("decorator_list", (VList [])); ("returns", (VNode KConstant 36%N (Some (8, 23)) [("value", VNone); ("kind", VNone)])); ("type_comment", VNone)])])); ("orelse", (VList []))]); (VNode KAnnAssign 37%N (Some (9, 4)) [("target", (VNode KName 38%N (Some (9, 4)) [("id", (VStr "z")); ("ctx", (VNode KStore 6%N None []))])); ("annotation", (VNode KName 40%N (Some (9, 7)) [("id", (VStr "Final")); ("ctx", (VNode KLoad 8%N None []))])); ("value", (VNode KConstant 42%N (Some (9, 15)) [("value", (VInt (2))); ("kind", VNone)])); ("simple", (VInt (1)))])])); ("decorator_list", (VList [])); ("returns", VNone); ("type_comment", VNone)])])); ("decorator_list", (VList []))])])); ("type_ignores", (VList []))]).
Definition tokens_annotated : list token :=
  [mkTok TkOther "import" 1 0 1; mkTok TkOther "typing" 1 7 1; mkTok TkNewline "
" 1 13 1; mkTok TkOther "x" 2 0 2; mkTok TkOther ":" 2 1 2; mkTok TkOther "int" 2 3 2; mkTok TkOther "=" 2 7 2; mkTok TkString "f'{1}'" 2 9 2; mkTok TkComment "# novm" 2 16 2; mkTok TkNewline "
" 2 22 2; mkTok TkOther "def" 3 0 3; mkTok TkOther "f" 3 4 3; mkTok TkOther "(" 3 5 3; mkTok TkOther "a" 3 6 3; mkTok TkOther ":" 3 7 3; mkTok TkOther "int" 3 9 3; mkTok TkOther ")" 3 12 3; mkTok TkOther "->" 3 14 3; mkTok TkOther "str" 3 17 3; mkTok TkOther ":" 3 20 3; mkTok TkNewline "
" 3 21 3; mkTok TkOther "  " 4 0 4; mkTok TkOther "y" 4 2 4; mkTok TkOther ":" 4 3 4; mkTok TkOther "list" 4 5 4; mkTok TkOther "=" 4 10 4; mkTok TkOther "a" 4 12 4; mkTok TkNewline "
" 4 13 4; mkTok TkOther "" 5 0 5; mkTok TkOther "class" 5 0 5; mkTok TkOther "A" 5 6 5; mkTok TkOther ":" 5 7 5; mkTok TkNewline "
" 5 8 5; mkTok TkOther "  " 6 0 6; mkTok TkOther "def" 6 2 6; mkTok TkOther "g" 6 6 6; mkTok TkOther "(" 6 7 6; mkTok TkOther "self" 6 8 6; mkTok TkOther ")" 6 12 6; mkTok TkOther ":" 6 13 6; mkTok TkNewline "
" 6 14 6; mkTok TkOther "    " 7 0 7; mkTok TkOther "if" 7 4 7; mkTok TkOther "self" 7 7 7; mkTok TkOther ":" 7 11 7; mkTok TkNewline "
" 7 12 7; mkTok TkOther "      " 8 0 8; mkTok TkOther "async" 8 6 8; mkTok TkOther "def" 8 12 8; mkTok TkOther "h" 8 16 8; mkTok TkOther "(" 8 17 8; mkTok TkOther ")" 8 18 8; mkTok TkOther "->" 8 20 8; mkTok TkOther "None" 8 23 8; mkTok TkOther ":" 8 27 8; mkTok TkOther "pass" 8 29 8; mkTok TkNewline "
" 8 33 8; mkTok TkOther "" 9 4 9; mkTok TkOther "z" 9 4 9; mkTok TkOther ":" 9 5 9; mkTok TkOther "Final" 9 7 9; mkTok TkOther "=" 9 13 9; mkTok TkOther "2" 9 15 9; mkTok TkNewline "
" 9 16 9; mkTok TkOther "" 10 0 10; mkTok TkOther "" 10 0 10; mkTok TkOther "" 10 0 10].

Definition src_annotated_new : string := "import typing
x: typing.Self = f'{1}' # novm
def f(a: int) -> dict[str,
                       typing.Self]:
  y: typing.Self = a
class A:
  def g(self):
    if self:
      async def h() -> typing.Self: pass
    z: Final[typing.Self] = 2
".
Definition tree_annotated_new : pyval :=
  (VNode KModule 1%N None [("body", (VList [(VNode KImport 2%N (Some (1, 0)) [("names", (VList [(VNode Kalias 3%N (Some (1, 7)) [("name", (VStr "typing")); ("asname", VNone)])]))]); (VNode KAnnAssign 4%N (Some (2, 0)) [("target", (VNode KName 5%N (Some (2, 0)) [("id", (VStr "x")); ("ctx", (VNode KStore 6%N None []))])); ("annotation", (VNode KAttribute 49%N (Some (2, 3)) [("value", (VNode KName 50%N (Some (2, 3)) [("id", (VStr "typing")); ("ctx", (VNode KLoad 8%N None []))])); ("attr", (VStr "Self")); ("ctx", (VNode KLoad 8%N None []))])); ("value", (VNode KJoinedStr 9%N (Some (2, 17)) [("values", (VList [(VNode KFormattedValue 10%N (Some (2, 17)) [("value", (VNode KConstant 11%N (Some (2, 20)) [("value", (VInt (1))); ("kind", VNone)])); ("conversion", (VInt (-1))); ("format_spec", VNone)])]))])); ("simple", (VInt (1)))]); (VNode KFunctionDef 12%N (Some (3, 0)) [("name", (VStr "f")); ("args", (VNode Karguments 13%N None [("posonlyargs", (VList [])); ("args", (VList [(VNode Karg 14%N (Some (3, 6)) [("arg", (VStr "a")); ("annotation", (VNode KName 15%N (Some (3, 9)) [("id", (VStr "int")); ("ctx", (VNode KLoad 8%N None []))])); ("type_comment", VNone)])])); ("vararg", VNone); ("kwonlyargs", (VList [])); ("kw_defaults", (VList [])); ("kwarg", VNone); ("defaults", (VList []))])); ("body", (VList [(VNode KAnnAssign 17%N (Some (5, 2)) [("target", (VNode KName 18%N (Some (5, 2)) [("id", (VStr "y")); ("ctx", (VNode KStore 6%N None []))])); ("annotation", (VNode KAttribute 64%N (Some (5, 5)) [("value", (VNode KName 65%N (Some (5, 5)) [("id", (VStr "typing")); ("ctx", (VNode KLoad 8%N None []))])); ("attr", (VStr "Self")); ("ctx", (VNode KLoad 8%N None []))])); ("value", (VNode KName 22%N (Some (5, 19)) [("id", (VStr "a")); ("ctx", (VNode KLoad 8%N None []))])); ("simple", (VInt (1)))])])); ("decorator_list", (VList [])); ("returns", (VNode KSubscript 70%N (Some (3, 17)) [("value", (VNode KName 71%N (Some (3, 17)) [("id", (VStr "dict")); ("ctx", (VNode KLoad 8%N None []))])); ("slice", (VNode KTuple 73%N (Some (3, 22)) [("elts", (VList [(VNode KName 74%N (Some (3, 22)) [("id", (VStr "str")); ("ctx", (VNode KLoad 8%N None []))]); (VNode KAttribute 76%N (Some (4, 23)) [("value", (VNode KName 77%N (Some (4, 23)) [("id", (VStr "typing")); ("ctx", (VNode KLoad 8%N None []))])); ("attr", (VStr "Self")); ("ctx", (VNode KLoad 8%N None []))])])); ("ctx", (VNode KLoad 8%N None []))])); ("ctx", (VNode KLoad 8%N None []))])); ("type_comment", VNone)]); (VNode KClassDef 26%N (Some (6, 0)) [("name", (VStr "A")); ("bases", (VList [])); ("keywords", (VList [])); ("body", (VList [(VNode KFunctionDef 27%N (Some (7, 2)) [("name", (VStr "g")); ("args", (VNode Karguments 28%N None [("posonlyargs", (VList [])); ("args", (VList [(VNode Karg 29%N (Some (7, 8)) [("arg", (VStr "self")); ("annotation", VNone); ("type_comment", VNone)])])); ("vararg", VNone); ("kwonlyargs", (VList [])); ("kw_defaults", (VList [])); ("kwarg", VNone); ("defaults", (VList []))])); ("body", (VList [(VNode KIf 30%N (Some (8, 4)) [("test", (VNode KName 31%N (Some (8, 7)) [("id", (VStr "self")); ("ctx", (VNode KLoad 8%N None []))])); ("body", (VList [(VNode KAsyncFunctionDef 33%N (Some (9, 6)) [("name", (VStr "h")); ("args", (VNode Karguments 34%N None [("posonlyargs", (VList [])); ("args", (VList [])); ("vararg", VNone); ("kwonlyargs", (VList [])); ("kw_defaults", (VList [])); ("kwarg", VNone); ("defaults", (VList []))])); ("body", (VList [(VNode KPass 35%N (Some (9, 36)) [])])); ("decorator_list", (VList [])); ("returns", (VNode KAttribute 92%N (Some (9, 23)) [("value", (VNode KName 93%N (Some (9, 23)) [("id", (VStr "typing")); ("ctx", (VNode KLoad 8%N None []))])); ("attr", (VStr "Self")); ("ctx", (VNode KLoad 8%N None []))])); ("type_comment", VNone)])])); ("orelse", (VList []))]); (VNode KAnnAssign 37%N (Some (10, 4)) [("target", (VNode KName 38%N (Some (10, 4)) [("id", (VStr "z")); ("ctx", (VNode KStore 6%N None []))])); ("annotation", (VNode KSubscript 99%N (Some (10, 7)) [("value", (VNode KName 100%N (Some (10, 7)) [("id", (VStr "Final")); ("ctx", (VNode KLoad 8%N None []))])); ("slice", (VNode KAttribute 102%N (Some (10, 13)) [("value", (VNode KName 103%N (Some (10, 13)) [("id", (VStr "typing")); ("ctx", (VNode KLoad 8%N None []))])); ("attr", (VStr "Self")); ("ctx", (VNode KLoad 8%N None []))])); ("ctx", (VNode KLoad 8%N None []))])); ("value", (VNode KConstant 42%N (Some (10, 28)) [("value", (VInt (2))); ("kind", VNone)])); ("simple", (VInt (1)))])])); ("decorator_list", (VList [])); ("returns", VNone); ("type_comment", VNone)])])); ("decorator_list", (VList []))])])); ("type_ignores", (VList []))]).
Definition tokens_annotated_new : list token :=
  [mkTok TkOther "import" 1 0 1; mkTok TkOther "typing" 1 7 1; mkTok TkNewline "
" 1 13 1; mkTok TkOther "x" 2 0 2; mkTok TkOther ":" 2 1 2; mkTok TkOther "typing" 2 3 2; mkTok TkOther "." 2 9 2; mkTok TkOther "Self" 2 10 2; mkTok TkOther "=" 2 15 2; mkTok TkString "f'{1}'" 2 17 2; mkTok TkComment "# novm" 2 24 2; mkTok TkNewline "
" 2 30 2; mkTok TkOther "def" 3 0 3; mkTok TkOther "f" 3 4 3; mkTok TkOther "(" 3 5 3; mkTok TkOther "a" 3 6 3; mkTok TkOther ":" 3 7 3; mkTok TkOther "int" 3 9 3; mkTok TkOther ")" 3 12 3; mkTok TkOther "->" 3 14 3; mkTok TkOther "dict" 3 17 3; mkTok TkOther "[" 3 21 3; mkTok TkOther "str" 3 22 3; mkTok TkOther "," 3 25 3; mkTok TkNl "
" 3 26 3; mkTok TkOther "typing" 4 23 4; mkTok TkOther "." 4 29 4; mkTok TkOther "Self" 4 30 4; mkTok TkOther "]" 4 34 4; mkTok TkOther ":" 4 35 4; mkTok TkNewline "
" 4 36 4; mkTok TkOther "  " 5 0 5; mkTok TkOther "y" 5 2 5; mkTok TkOther ":" 5 3 5; mkTok TkOther "typing" 5 5 5; mkTok TkOther "." 5 11 5; mkTok TkOther "Self" 5 12 5; mkTok TkOther "=" 5 17 5; mkTok TkOther "a" 5 19 5; mkTok TkNewline "
" 5 20 5; mkTok TkOther "" 6 0 6; mkTok TkOther "class" 6 0 6; mkTok TkOther "A" 6 6 6; mkTok TkOther ":" 6 7 6; mkTok TkNewline "
" 6 8 6; mkTok TkOther "  " 7 0 7; mkTok TkOther "def" 7 2 7; mkTok TkOther "g" 7 6 7; mkTok TkOther "(" 7 7 7; mkTok TkOther "self" 7 8 7; mkTok TkOther ")" 7 12 7; mkTok TkOther ":" 7 13 7; mkTok TkNewline "
" 7 14 7; mkTok TkOther "    " 8 0 8; mkTok TkOther "if" 8 4 8; mkTok TkOther "self" 8 7 8; mkTok TkOther ":" 8 11 8; mkTok TkNewline "
" 8 12 8; mkTok TkOther "      " 9 0 9; mkTok TkOther "async" 9 6 9; mkTok TkOther "def" 9 12 9; mkTok TkOther "h" 9 16 9; mkTok TkOther "(" 9 17 9; mkTok TkOther ")" 9 18 9; mkTok TkOther "->" 9 20 9; mkTok TkOther "typing" 9 23 9; mkTok TkOther "." 9 29 9; mkTok TkOther "Self" 9 30 9; mkTok TkOther ":" 9 34 9; mkTok TkOther "pass" 9 36 9; mkTok TkNewline "
" 9 40 9; mkTok TkOther "" 10 4 10; mkTok TkOther "z" 10 4 10; mkTok TkOther ":" 10 5 10; mkTok TkOther "Final" 10 7 10; mkTok TkOther "[" 10 12 10; mkTok TkOther "typing" 10 13 10; mkTok TkOther "." 10 19 10; mkTok TkOther "Self" 10 20 10; mkTok TkOther "]" 10 24 10; mkTok TkOther "=" 10 26 10; mkTok TkOther "2" 10 28 10; mkTok TkNewline "
" 10 29 10; mkTok TkOther "" 11 0 11; mkTok TkOther "" 11 0 11; mkTok TkOther "" 11 0 11].

Definition src_argument : string := "import typing
def f(a: int): pass
".
Definition tree_argument : pyval :=
  (VNode KModule 1%N None [("body", (VList [(VNode KImport 2%N (Some (1, 0)) [("names", (VList [(VNode Kalias 3%N (Some (1, 7)) [("name", (VStr "typing")); ("asname", VNone)])]))]); (VNode KFunctionDef 4%N (Some (2, 0)) [("name", (VStr "f")); ("args", (VNode Karguments 5%N None [("posonlyargs", (VList [])); ("args", (VList [(VNode Karg 6%N (Some (2, 6)) [("arg", (VStr "a")); ("annotation", (VNode KName 7%N (Some (2, 9)) [("id", (VStr "int")); ("ctx", (VNode KLoad 8%N None []))])); ("type_comment", VNone)])])); ("vararg", VNone); ("kwonlyargs", (VList [])); ("kw_defaults", (VList [])); ("kwarg", VNone); ("defaults", (VList []))])); ("body", (VList [(VNode KPass 9%N (Some (2, 15)) [])])); ("decorator_list", (VList [])); ("returns", VNone); ("type_comment", VNone)])])); ("type_ignores", (VList []))]).
Definition tokens_argument : list token :=
  [mkTok TkOther "import" 1 0 1; mkTok TkOther "typing" 1 7 1; mkTok TkNewline "
" 1 13 1; mkTok TkOther "def" 2 0 2; mkTok TkOther "f" 2 4 2; mkTok TkOther "(" 2 5 2; mkTok TkOther "a" 2 6 2; mkTok TkOther ":" 2 7 2; mkTok TkOther "int" 2 9 2; mkTok TkOther ")" 2 12 2; mkTok TkOther ":" 2 13 2; mkTok TkOther "pass" 2 15 2; mkTok TkNewline "
" 2 19 2; mkTok TkOther "" 3 0 3].

Definition src_argument_new : string := "import typing
def f(a: typing.Self): pass
".
Definition tree_argument_new : pyval :=
  (VNode KModule 1%N None [("body", (VList [(VNode KImport 2%N (Some (1, 0)) [("names", (VList [(VNode Kalias 3%N (Some (1, 7)) [("name", (VStr "typing")); ("asname", VNone)])]))]); (VNode KFunctionDef 4%N (Some (2, 0)) [("name", (VStr "f")); ("args", (VNode Karguments 5%N None [("posonlyargs", (VList [])); ("args", (VList [(VNode Karg 6%N (Some (2, 6)) [("arg", (VStr "a")); ("annotation", (VNode KAttribute 16%N (Some (2, 9)) [("value", (VNode KName 17%N (Some (2, 9)) [("id", (VStr "typing")); ("ctx", (VNode KLoad 8%N None []))])); ("attr", (VStr "Self")); ("ctx", (VNode KLoad 8%N None []))])); ("type_comment", VNone)])])); ("vararg", VNone); ("kwonlyargs", (VList [])); ("kw_defaults", (VList [])); ("kwarg", VNone); ("defaults", (VList []))])); ("body", (VList [(VNode KPass 9%N (Some (2, 23)) [])])); ("decorator_list", (VList [])); ("returns", VNone); ("type_comment", VNone)])])); ("type_ignores", (VList []))]).
Definition tokens_argument_new : list token :=
  [mkTok TkOther "import" 1 0 1; mkTok TkOther "typing" 1 7 1; mkTok TkNewline "
" 1 13 1; mkTok TkOther "def" 2 0 2; mkTok TkOther "f" 2 4 2; mkTok TkOther "(" 2 5 2; mkTok TkOther "a" 2 6 2; mkTok TkOther ":" 2 7 2; mkTok TkOther "typing" 2 9 2; mkTok TkOther "." 2 15 2; mkTok TkOther "Self" 2 16 2; mkTok TkOther ")" 2 20 2; mkTok TkOther ":" 2 21 2; mkTok TkOther "pass" 2 23 2; mkTok TkNewline "
" 2 27 2; mkTok TkOther "" 3 0 3].

Definition src_method : string := "import typing
class A:
  def f(self) -> int: pass
".
Definition tree_method : pyval :=
  (VNode KModule 1%N None [("body", (VList [(VNode KImport 2%N (Some (1, 0)) [("names", (VList [(VNode Kalias 3%N (Some (1, 7)) [("name", (VStr "typing")); ("asname", VNone)])]))]); (VNode KClassDef 4%N (Some (2, 0)) [("name", (VStr "A")); ("bases", (VList [])); ("keywords", (VList [])); ("body", (VList [(VNode KFunctionDef 5%N (Some (3, 2)) [("name", (VStr "f")); ("args", (VNode Karguments 6%N None [("posonlyargs", (VList [])); ("args", (VList [(VNode Karg 7%N (Some (3, 8)) [("arg", (VStr "self")); ("annotation", VNone); ("type_comment", VNone)])])); ("vararg", VNone); ("kwonlyargs", (VList [])); ("kw_defaults", (VList [])); ("kwarg", VNone); ("defaults", (VList []))])); ("body", (VList [(VNode KPass 8%N (Some (3, 22)) [])])); ("decorator_list", (VList [])); ("returns", (VNode KName 9%N (Some (3, 17)) [("id", (VStr "int")); ("ctx", (VNode KLoad 10%N None []))])); ("type_comment", VNone)])])); ("decorator_list", (VList []))])])); ("type_ignores", (VList []))]).
Definition tokens_method : list token :=
  [mkTok TkOther "import" 1 0 1; mkTok TkOther "typing" 1 7 1; mkTok TkNewline "
" 1 13 1; mkTok TkOther "class" 2 0 2; mkTok TkOther "A" 2 6 2; mkTok TkOther ":" 2 7 2; mkTok TkNewline "
" 2 8 2; mkTok TkOther "  " 3 0 3; mkTok TkOther "def" 3 2 3; mkTok TkOther "f" 3 6 3; mkTok TkOther "(" 3 7 3; mkTok TkOther "self" 3 8 3; mkTok TkOther ")" 3 12 3; mkTok TkOther "->" 3 14 3; mkTok TkOther "int" 3 17 3; mkTok TkOther ":" 3 20 3; mkTok TkOther "pass" 3 22 3; mkTok TkNewline "
" 3 26 3; mkTok TkOther "" 4 0 4; mkTok TkOther "" 4 0 4].

Definition src_method_new : string := "import typing
class A:
  def f(self) -> typing.Self: pass
".
Definition tree_method_new : pyval :=
  (VNode KModule 1%N None [("body", (VList [(VNode KImport 2%N (Some (1, 0)) [("names", (VList [(VNode Kalias 3%N (Some (1, 7)) [("name", (VStr "typing")); ("asname", VNone)])]))]); (VNode KClassDef 4%N (Some (2, 0)) [("name", (VStr "A")); ("bases", (VList [])); ("keywords", (VList [])); ("body", (VList [(VNode KFunctionDef 5%N (Some (3, 2)) [("name", (VStr "f")); ("args", (VNode Karguments 6%N None [("posonlyargs", (VList [])); ("args", (VList [(VNode Karg 7%N (Some (3, 8)) [("arg", (VStr "self")); ("annotation", VNone); ("type_comment", VNone)])])); ("vararg", VNone); ("kwonlyargs", (VList [])); ("kw_defaults", (VList [])); ("kwarg", VNone); ("defaults", (VList []))])); ("body", (VList [(VNode KPass 8%N (Some (3, 30)) [])])); ("decorator_list", (VList [])); ("returns", (VNode KAttribute 19%N (Some (3, 17)) [("value", (VNode KName 20%N (Some (3, 17)) [("id", (VStr "typing")); ("ctx", (VNode KLoad 10%N None []))])); ("attr", (VStr "Self")); ("ctx", (VNode KLoad 10%N None []))])); ("type_comment", VNone)])])); ("decorator_list", (VList []))])])); ("type_ignores", (VList []))]).
Definition tokens_method_new : list token :=
  [mkTok TkOther "import" 1 0 1; mkTok TkOther "typing" 1 7 1; mkTok TkNewline "
" 1 13 1; mkTok TkOther "class" 2 0 2; mkTok TkOther "A" 2 6 2; mkTok TkOther ":" 2 7 2; mkTok TkNewline "
" 2 8 2; mkTok TkOther "  " 3 0 3; mkTok TkOther "def" 3 2 3; mkTok TkOther "f" 3 6 3; mkTok TkOther "(" 3 7 3; mkTok TkOther "self" 3 8 3; mkTok TkOther ")" 3 12 3; mkTok TkOther "->" 3 14 3; mkTok TkOther "typing" 3 17 3; mkTok TkOther "." 3 23 3; mkTok TkOther "Self" 3 24 3; mkTok TkOther ":" 3 28 3; mkTok TkOther "pass" 3 30 3; mkTok TkNewline "
" 3 34 3; mkTok TkOther "" 4 0 4; mkTok TkOther "" 4 0 4].

Definition src_attribute : string := "import typing
class A:
  x: int
".
Definition tree_attribute : pyval :=
  (VNode KModule 1%N None [("body", (VList [(VNode KImport 2%N (Some (1, 0)) [("names", (VList [(VNode Kalias 3%N (Some (1, 7)) [("name", (VStr "typing")); ("asname", VNone)])]))]); (VNode KClassDef 4%N (Some (2, 0)) [("name", (VStr "A")); ("bases", (VList [])); ("keywords", (VList [])); ("body", (VList [(VNode KAnnAssign 5%N (Some (3, 2)) [("target", (VNode KName 6%N (Some (3, 2)) [("id", (VStr "x")); ("ctx", (VNode KStore 7%N None []))])); ("annotation", (VNode KName 8%N (Some (3, 5)) [("id", (VStr "int")); ("ctx", (VNode KLoad 9%N None []))])); ("value", VNone); ("simple", (VInt (1)))])])); ("decorator_list", (VList []))])])); ("type_ignores", (VList []))]).
Definition tokens_attribute : list token :=
  [mkTok TkOther "import" 1 0 1; mkTok TkOther "typing" 1 7 1; mkTok TkNewline "
" 1 13 1; mkTok TkOther "class" 2 0 2; mkTok TkOther "A" 2 6 2; mkTok TkOther ":" 2 7 2; mkTok TkNewline "
" 2 8 2; mkTok TkOther "  " 3 0 3; mkTok TkOther "x" 3 2 3; mkTok TkOther ":" 3 3 3; mkTok TkOther "int" 3 5 3; mkTok TkNewline "
" 3 8 3; mkTok TkOther "" 4 0 4; mkTok TkOther "" 4 0 4].

Definition src_attribute_new : string := "import typing
class A:
  x: typing.Self
".
Definition tree_attribute_new : pyval :=
  (VNode KModule 1%N None [("body", (VList [(VNode KImport 2%N (Some (1, 0)) [("names", (VList [(VNode Kalias 3%N (Some (1, 7)) [("name", (VStr "typing")); ("asname", VNone)])]))]); (VNode KClassDef 4%N (Some (2, 0)) [("name", (VStr "A")); ("bases", (VList [])); ("keywords", (VList [])); ("body", (VList [(VNode KAnnAssign 5%N (Some (3, 2)) [("target", (VNode KName 6%N (Some (3, 2)) [("id", (VStr "x")); ("ctx", (VNode KStore 7%N None []))])); ("annotation", (VNode KAttribute 17%N (Some (3, 5)) [("value", (VNode KName 18%N (Some (3, 5)) [("id", (VStr "typing")); ("ctx", (VNode KLoad 9%N None []))])); ("attr", (VStr "Self")); ("ctx", (VNode KLoad 9%N None []))])); ("value", VNone); ("simple", (VInt (1)))])])); ("decorator_list", (VList []))])])); ("type_ignores", (VList []))]).
Definition tokens_attribute_new : list token :=
  [mkTok TkOther "import" 1 0 1; mkTok TkOther "typing" 1 7 1; mkTok TkNewline "
" 1 13 1; mkTok TkOther "class" 2 0 2; mkTok TkOther "A" 2 6 2; mkTok TkOther ":" 2 7 2; mkTok TkNewline "
" 2 8 2; mkTok TkOther "  " 3 0 3; mkTok TkOther "x" 3 2 3; mkTok TkOther ":" 3 3 3; mkTok TkOther "typing" 3 5 3; mkTok TkOther "." 3 11 3; mkTok TkOther "Self" 3 12 3; mkTok TkNewline "
" 3 16 3; mkTok TkOther "" 4 0 4; mkTok TkOther "" 4 0 4].
