(** Generated by tools/gen_samples.py: sources as CPython's parser reads them, for C77. *)
From Verif Require Import PyBase Utility AstKinds Ast Parser Processor.

Definition src_layout : string := "import argparse # novm
@d
def f(x):
  with (a as b,
        c as d):
    import ssl # novm
try:
  pass
except* E:
  pass
print(f'{f=}')
".
Definition sample_layout : parsed :=
  (PTree (VNode KModule 1%N None [("body", (VList [(VNode KImport 2%N (Some (1, 0)) [("names", (VList [(VNode Kalias 3%N (Some (1, 7)) [("name", (VStr "argparse")); ("asname", VNone)])]))]); (VNode KFunctionDef 4%N (Some (3, 0)) [("name", (VStr "f")); ("args", (VNode Karguments 5%N None [("posonlyargs", (VList [])); ("args", (VList [(VNode Karg 6%N (Some (3, 6)) [("arg", (VStr "x")); ("annotation", VNone); ("type_comment", VNone)])])); ("vararg", VNone); ("kwonlyargs", (VList [])); ("kw_defaults", (VList [])); ("kwarg", VNone); ("defaults", (VList []))])); ("body", (VList [(VNode KWith 7%N (Some (4, 2)) [("items", (VList [(VNode Kwithitem 8%N None [("context_expr", (VNode KName 9%N (Some (4, 8)) [("id", (VStr "a")); ("ctx", (VNode KLoad 10%N None []))])); ("optional_vars", (VNode KName 11%N (Some (4, 13)) [("id", (VStr "b")); ("ctx", (VNode KStore 12%N None []))]))]); (VNode Kwithitem 13%N None [("context_expr", (VNode KName 14%N (Some (5, 8)) [("id", (VStr "c")); ("ctx", (VNode KLoad 15%N None []))])); ("optional_vars", (VNode KName 16%N (Some (5, 13)) [("id", (VStr "d")); ("ctx", (VNode KStore 17%N None []))]))])])); ("body", (VList [(VNode KImport 18%N (Some (6, 4)) [("names", (VList [(VNode Kalias 19%N (Some (6, 11)) [("name", (VStr "ssl")); ("asname", VNone)])]))])])); ("type_comment", VNone)])])); ("decorator_list", (VList [(VNode KName 20%N (Some (2, 1)) [("id", (VStr "d")); ("ctx", (VNode KLoad 21%N None []))])])); ("returns", VNone); ("type_comment", VNone)]); (VNode KTryStar 22%N (Some (7, 0)) [("body", (VList [(VNode KPass 23%N (Some (8, 2)) [])])); ("handlers", (VList [(VNode KExceptHandler 24%N (Some (9, 0)) [("type", (VNode KName 25%N (Some (9, 8)) [("id", (VStr "E")); ("ctx", (VNode KLoad 26%N None []))])); ("name", VNone); ("body", (VList [(VNode KPass 27%N (Some (10, 2)) [])]))])])); ("orelse", (VList [])); ("finalbody", (VList []))]); (VNode KExpr 28%N (Some (11, 0)) [("value", (VNode KCall 29%N (Some (11, 0)) [("func", (VNode KName 30%N (Some (11, 0)) [("id", (VStr "print")); ("ctx", (VNode KLoad 31%N None []))])); ("args", (VList [(VNode KJoinedStr 32%N (Some (11, 6)) [("values", (VList [(VNode KConstant 33%N (Some (11, 6)) [("value", (VStr "f=")); ("kind", VNone)]); (VNode KFormattedValue 34%N (Some (11, 6)) [("value", (VNode KName 35%N (Some (11, 9)) [("id", (VStr "f")); ("ctx", (VNode KLoad 36%N None []))])); ("conversion", (VInt (114))); ("format_spec", VNone)])]))])])); ("keywords", (VList []))]))])])); ("type_ignores", (VList []))]) (inr [mkTok TkOther "import" 1 0 1; mkTok TkOther "argparse" 1 7 1; mkTok TkComment "# novm" 1 16 1; mkTok TkNewline "
" 1 22 1; mkTok TkOther "@" 2 0 2; mkTok TkOther "d" 2 1 2; mkTok TkNewline "
" 2 2 2; mkTok TkOther "def" 3 0 3; mkTok TkOther "f" 3 4 3; mkTok TkOther "(" 3 5 3; mkTok TkOther "x" 3 6 3; mkTok TkOther ")" 3 7 3; mkTok TkOther ":" 3 8 3; mkTok TkNewline "
" 3 9 3; mkTok TkOther "  " 4 0 4; mkTok TkOther "with" 4 2 4; mkTok TkOther "(" 4 7 4; mkTok TkOther "a" 4 8 4; mkTok TkOther "as" 4 10 4; mkTok TkOther "b" 4 13 4; mkTok TkOther "," 4 14 4; mkTok TkNl "
" 4 15 4; mkTok TkOther "c" 5 8 5; mkTok TkOther "as" 5 10 5; mkTok TkOther "d" 5 13 5; mkTok TkOther ")" 5 14 5; mkTok TkOther ":" 5 15 5; mkTok TkNewline "
" 5 16 5; mkTok TkOther "    " 6 0 6; mkTok TkOther "import" 6 4 6; mkTok TkOther "ssl" 6 11 6; mkTok TkComment "# novm" 6 15 6; mkTok TkNewline "
" 6 21 6; mkTok TkOther "" 7 0 7; mkTok TkOther "" 7 0 7; mkTok TkOther "try" 7 0 7; mkTok TkOther ":" 7 3 7; mkTok TkNewline "
" 7 4 7; mkTok TkOther "  " 8 0 8; mkTok TkOther "pass" 8 2 8; mkTok TkNewline "
" 8 6 8; mkTok TkOther "" 9 0 9; mkTok TkOther "except" 9 0 9; mkTok TkOther "*" 9 6 9; mkTok TkOther "E" 9 8 9; mkTok TkOther ":" 9 9 9; mkTok TkNewline "
" 9 10 9; mkTok TkOther "  " 10 0 10; mkTok TkOther "pass" 10 2 10; mkTok TkNewline "
" 10 6 10; mkTok TkOther "" 11 0 11; mkTok TkOther "print" 11 0 11; mkTok TkOther "(" 11 5 11; mkTok TkString "f'{f=}'" 11 6 11; mkTok TkOther ")" 11 13 11; mkTok TkNewline "
" 11 14 11; mkTok TkOther "" 12 0 12])).

Definition src_wide : string := "# a
import argparse  # novm


@d

def f( x ):
    with \
  (a as b, c as d):
        import ssl # novermin

try: pass
except  * E: pass
print(
    f'{f=}' )
".
Definition sample_wide : parsed :=
  (PTree (VNode KModule 1%N None [("body", (VList [(VNode KImport 2%N (Some (2, 0)) [("names", (VList [(VNode Kalias 3%N (Some (2, 7)) [("name", (VStr "argparse")); ("asname", VNone)])]))]); (VNode KFunctionDef 4%N (Some (7, 0)) [("name", (VStr "f")); ("args", (VNode Karguments 5%N None [("posonlyargs", (VList [])); ("args", (VList [(VNode Karg 6%N (Some (7, 7)) [("arg", (VStr "x")); ("annotation", VNone); ("type_comment", VNone)])])); ("vararg", VNone); ("kwonlyargs", (VList [])); ("kw_defaults", (VList [])); ("kwarg", VNone); ("defaults", (VList []))])); ("body", (VList [(VNode KWith 7%N (Some (8, 4)) [("items", (VList [(VNode Kwithitem 8%N None [("context_expr", (VNode KName 9%N (Some (9, 3)) [("id", (VStr "a")); ("ctx", (VNode KLoad 10%N None []))])); ("optional_vars", (VNode KName 11%N (Some (9, 8)) [("id", (VStr "b")); ("ctx", (VNode KStore 12%N None []))]))]); (VNode Kwithitem 13%N None [("context_expr", (VNode KName 14%N (Some (9, 11)) [("id", (VStr "c")); ("ctx", (VNode KLoad 15%N None []))])); ("optional_vars", (VNode KName 16%N (Some (9, 16)) [("id", (VStr "d")); ("ctx", (VNode KStore 17%N None []))]))])])); ("body", (VList [(VNode KImport 18%N (Some (10, 8)) [("names", (VList [(VNode Kalias 19%N (Some (10, 15)) [("name", (VStr "ssl")); ("asname", VNone)])]))])])); ("type_comment", VNone)])])); ("decorator_list", (VList [(VNode KName 20%N (Some (5, 1)) [("id", (VStr "d")); ("ctx", (VNode KLoad 21%N None []))])])); ("returns", VNone); ("type_comment", VNone)]); (VNode KTryStar 22%N (Some (12, 0)) [("body", (VList [(VNode KPass 23%N (Some (12, 5)) [])])); ("handlers", (VList [(VNode KExceptHandler 24%N (Some (13, 0)) [("type", (VNode KName 25%N (Some (13, 10)) [("id", (VStr "E")); ("ctx", (VNode KLoad 26%N None []))])); ("name", VNone); ("body", (VList [(VNode KPass 27%N (Some (13, 13)) [])]))])])); ("orelse", (VList [])); ("finalbody", (VList []))]); (VNode KExpr 28%N (Some (14, 0)) [("value", (VNode KCall 29%N (Some (14, 0)) [("func", (VNode KName 30%N (Some (14, 0)) [("id", (VStr "print")); ("ctx", (VNode KLoad 31%N None []))])); ("args", (VList [(VNode KJoinedStr 32%N (Some (15, 4)) [("values", (VList [(VNode KConstant 33%N (Some (15, 4)) [("value", (VStr "f=")); ("kind", VNone)]); (VNode KFormattedValue 34%N (Some (15, 4)) [("value", (VNode KName 35%N (Some (15, 7)) [("id", (VStr "f")); ("ctx", (VNode KLoad 36%N None []))])); ("conversion", (VInt (114))); ("format_spec", VNone)])]))])])); ("keywords", (VList []))]))])])); ("type_ignores", (VList []))]) (inr [mkTok TkComment "# a" 1 0 1; mkTok TkNl "
" 1 3 1; mkTok TkOther "import" 2 0 2; mkTok TkOther "argparse" 2 7 2; mkTok TkComment "# novm" 2 17 2; mkTok TkNewline "
" 2 23 2; mkTok TkNl "
" 3 0 3; mkTok TkNl "
" 4 0 4; mkTok TkOther "@" 5 0 5; mkTok TkOther "d" 5 1 5; mkTok TkNewline "
" 5 2 5; mkTok TkNl "
" 6 0 6; mkTok TkOther "def" 7 0 7; mkTok TkOther "f" 7 4 7; mkTok TkOther "(" 7 5 7; mkTok TkOther "x" 7 7 7; mkTok TkOther ")" 7 9 7; mkTok TkOther ":" 7 10 7; mkTok TkNewline "
" 7 11 7; mkTok TkOther "    " 8 0 8; mkTok TkOther "with" 8 4 8; mkTok TkOther "(" 9 2 9; mkTok TkOther "a" 9 3 9; mkTok TkOther "as" 9 5 9; mkTok TkOther "b" 9 8 9; mkTok TkOther "," 9 9 9; mkTok TkOther "c" 9 11 9; mkTok TkOther "as" 9 13 9; mkTok TkOther "d" 9 16 9; mkTok TkOther ")" 9 17 9; mkTok TkOther ":" 9 18 9; mkTok TkNewline "
" 9 19 9; mkTok TkOther "        " 10 0 10; mkTok TkOther "import" 10 8 10; mkTok TkOther "ssl" 10 15 10; mkTok TkComment "# novermin" 10 19 10; mkTok TkNewline "
" 10 29 10; mkTok TkNl "
" 11 0 11; mkTok TkOther "" 12 0 12; mkTok TkOther "" 12 0 12; mkTok TkOther "try" 12 0 12; mkTok TkOther ":" 12 3 12; mkTok TkOther "pass" 12 5 12; mkTok TkNewline "
" 12 9 12; mkTok TkOther "except" 13 0 13; mkTok TkOther "*" 13 8 13; mkTok TkOther "E" 13 10 13; mkTok TkOther ":" 13 11 13; mkTok TkOther "pass" 13 13 13; mkTok TkNewline "
" 13 17 13; mkTok TkOther "print" 14 0 14; mkTok TkOther "(" 14 5 14; mkTok TkNl "
" 14 6 14; mkTok TkString "f'{f=}'" 15 4 15; mkTok TkOther ")" 15 12 15; mkTok TkNewline "
" 15 13 15; mkTok TkOther "" 16 0 16])).

Definition src_layout_down : string := "# Copyright
#

import argparse # novm
@d
def f(x):
  with (a as b,
        c as d):
    import ssl # novm
try:
  pass
except* E:
  pass
print(f'{f=}')
".
Definition sample_layout_down : parsed :=
  (PTree (VNode KModule 1%N None [("body", (VList [(VNode KImport 2%N (Some (4, 0)) [("names", (VList [(VNode Kalias 3%N (Some (4, 7)) [("name", (VStr "argparse")); ("asname", VNone)])]))]); (VNode KFunctionDef 4%N (Some (6, 0)) [("name", (VStr "f")); ("args", (VNode Karguments 5%N None [("posonlyargs", (VList [])); ("args", (VList [(VNode Karg 6%N (Some (6, 6)) [("arg", (VStr "x")); ("annotation", VNone); ("type_comment", VNone)])])); ("vararg", VNone); ("kwonlyargs", (VList [])); ("kw_defaults", (VList [])); ("kwarg", VNone); ("defaults", (VList []))])); ("body", (VList [(VNode KWith 7%N (Some (7, 2)) [("items", (VList [(VNode Kwithitem 8%N None [("context_expr", (VNode KName 9%N (Some (7, 8)) [("id", (VStr "a")); ("ctx", (VNode KLoad 10%N None []))])); ("optional_vars", (VNode KName 11%N (Some (7, 13)) [("id", (VStr "b")); ("ctx", (VNode KStore 12%N None []))]))]); (VNode Kwithitem 13%N None [("context_expr", (VNode KName 14%N (Some (8, 8)) [("id", (VStr "c")); ("ctx", (VNode KLoad 15%N None []))])); ("optional_vars", (VNode KName 16%N (Some (8, 13)) [("id", (VStr "d")); ("ctx", (VNode KStore 17%N None []))]))])])); ("body", (VList [(VNode KImport 18%N (Some (9, 4)) [("names", (VList [(VNode Kalias 19%N (Some (9, 11)) [("name", (VStr "ssl")); ("asname", VNone)])]))])])); ("type_comment", VNone)])])); ("decorator_list", (VList [(VNode KName 20%N (Some (5, 1)) [("id", (VStr "d")); ("ctx", (VNode KLoad 21%N None []))])])); ("returns", VNone); ("type_comment", VNone)]); (VNode KTryStar 22%N (Some (10, 0)) [("body", (VList [(VNode KPass 23%N (Some (11, 2)) [])])); ("handlers", (VList [(VNode KExceptHandler 24%N (Some (12, 0)) [("type", (VNode KName 25%N (Some (12, 8)) [("id", (VStr "E")); ("ctx", (VNode KLoad 26%N None []))])); ("name", VNone); ("body", (VList [(VNode KPass 27%N (Some (13, 2)) [])]))])])); ("orelse", (VList [])); ("finalbody", (VList []))]); (VNode KExpr 28%N (Some (14, 0)) [("value", (VNode KCall 29%N (Some (14, 0)) [("func", (VNode KName 30%N (Some (14, 0)) [("id", (VStr "print")); ("ctx", (VNode KLoad 31%N None []))])); ("args", (VList [(VNode KJoinedStr 32%N (Some (14, 6)) [("values", (VList [(VNode KConstant 33%N (Some (14, 6)) [("value", (VStr "f=")); ("kind", VNone)]); (VNode KFormattedValue 34%N (Some (14, 6)) [("value", (VNode KName 35%N (Some (14, 9)) [("id", (VStr "f")); ("ctx", (VNode KLoad 36%N None []))])); ("conversion", (VInt (114))); ("format_spec", VNone)])]))])])); ("keywords", (VList []))]))])])); ("type_ignores", (VList []))]) (inr [mkTok TkComment "# Copyright" 1 0 1; mkTok TkNl "
" 1 11 1; mkTok TkComment "#" 2 0 2; mkTok TkNl "
" 2 1 2; mkTok TkNl "
" 3 0 3; mkTok TkOther "import" 4 0 4; mkTok TkOther "argparse" 4 7 4; mkTok TkComment "# novm" 4 16 4; mkTok TkNewline "
" 4 22 4; mkTok TkOther "@" 5 0 5; mkTok TkOther "d" 5 1 5; mkTok TkNewline "
" 5 2 5; mkTok TkOther "def" 6 0 6; mkTok TkOther "f" 6 4 6; mkTok TkOther "(" 6 5 6; mkTok TkOther "x" 6 6 6; mkTok TkOther ")" 6 7 6; mkTok TkOther ":" 6 8 6; mkTok TkNewline "
" 6 9 6; mkTok TkOther "  " 7 0 7; mkTok TkOther "with" 7 2 7; mkTok TkOther "(" 7 7 7; mkTok TkOther "a" 7 8 7; mkTok TkOther "as" 7 10 7; mkTok TkOther "b" 7 13 7; mkTok TkOther "," 7 14 7; mkTok TkNl "
" 7 15 7; mkTok TkOther "c" 8 8 8; mkTok TkOther "as" 8 10 8; mkTok TkOther "d" 8 13 8; mkTok TkOther ")" 8 14 8; mkTok TkOther ":" 8 15 8; mkTok TkNewline "
" 8 16 8; mkTok TkOther "    " 9 0 9; mkTok TkOther "import" 9 4 9; mkTok TkOther "ssl" 9 11 9; mkTok TkComment "# novm" 9 15 9; mkTok TkNewline "
" 9 21 9; mkTok TkOther "" 10 0 10; mkTok TkOther "" 10 0 10; mkTok TkOther "try" 10 0 10; mkTok TkOther ":" 10 3 10; mkTok TkNewline "
" 10 4 10; mkTok TkOther "  " 11 0 11; mkTok TkOther "pass" 11 2 11; mkTok TkNewline "
" 11 6 11; mkTok TkOther "" 12 0 12; mkTok TkOther "except" 12 0 12; mkTok TkOther "*" 12 6 12; mkTok TkOther "E" 12 8 12; mkTok TkOther ":" 12 9 12; mkTok TkNewline "
" 12 10 12; mkTok TkOther "  " 13 0 13; mkTok TkOther "pass" 13 2 13; mkTok TkNewline "
" 13 6 13; mkTok TkOther "" 14 0 14; mkTok TkOther "print" 14 0 14; mkTok TkOther "(" 14 5 14; mkTok TkString "f'{f=}'" 14 6 14; mkTok TkOther ")" 14 13 14; mkTok TkNewline "
" 14 14 14; mkTok TkOther "" 15 0 15])).

Definition src_far : string := "with \
\
\
\
\
\
\
\
\
\
\
\
(a as x, b as y): pass
".
Definition sample_far : parsed :=
  (PTree (VNode KModule 1%N None [("body", (VList [(VNode KWith 2%N (Some (1, 0)) [("items", (VList [(VNode Kwithitem 3%N None [("context_expr", (VNode KName 4%N (Some (13, 1)) [("id", (VStr "a")); ("ctx", (VNode KLoad 5%N None []))])); ("optional_vars", (VNode KName 6%N (Some (13, 6)) [("id", (VStr "x")); ("ctx", (VNode KStore 7%N None []))]))]); (VNode Kwithitem 8%N None [("context_expr", (VNode KName 9%N (Some (13, 9)) [("id", (VStr "b")); ("ctx", (VNode KLoad 10%N None []))])); ("optional_vars", (VNode KName 11%N (Some (13, 14)) [("id", (VStr "y")); ("ctx", (VNode KStore 12%N None []))]))])])); ("body", (VList [(VNode KPass 13%N (Some (13, 18)) [])])); ("type_comment", VNone)])])); ("type_ignores", (VList []))]) (inr [mkTok TkOther "with" 1 0 1; mkTok TkOther "(" 13 0 13; mkTok TkOther "a" 13 1 13; mkTok TkOther "as" 13 3 13; mkTok TkOther "x" 13 6 13; mkTok TkOther "," 13 7 13; mkTok TkOther "b" 13 9 13; mkTok TkOther "as" 13 11 13; mkTok TkOther "y" 13 14 13; mkTok TkOther ")" 13 15 13; mkTok TkOther ":" 13 16 13; mkTok TkOther "pass" 13 18 13; mkTok TkNewline "
" 13 22 13; mkTok TkOther "" 14 0 14])).

Definition src_far_down : string := "
with \
\
\
\
\
\
\
\
\
\
\
\
(a as x, b as y): pass
".
Definition sample_far_down : parsed :=
  (PTree (VNode KModule 1%N None [("body", (VList [(VNode KWith 2%N (Some (2, 0)) [("items", (VList [(VNode Kwithitem 3%N None [("context_expr", (VNode KName 4%N (Some (14, 1)) [("id", (VStr "a")); ("ctx", (VNode KLoad 5%N None []))])); ("optional_vars", (VNode KName 6%N (Some (14, 6)) [("id", (VStr "x")); ("ctx", (VNode KStore 7%N None []))]))]); (VNode Kwithitem 8%N None [("context_expr", (VNode KName 9%N (Some (14, 9)) [("id", (VStr "b")); ("ctx", (VNode KLoad 10%N None []))])); ("optional_vars", (VNode KName 11%N (Some (14, 14)) [("id", (VStr "y")); ("ctx", (VNode KStore 12%N None []))]))])])); ("body", (VList [(VNode KPass 13%N (Some (14, 18)) [])])); ("type_comment", VNone)])])); ("type_ignores", (VList []))]) (inr [mkTok TkNl "
" 1 0 1; mkTok TkOther "with" 2 0 2; mkTok TkOther "(" 14 0 14; mkTok TkOther "a" 14 1 14; mkTok TkOther "as" 14 3 14; mkTok TkOther "x" 14 6 14; mkTok TkOther "," 14 7 14; mkTok TkOther "b" 14 9 14; mkTok TkOther "as" 14 11 14; mkTok TkOther "y" 14 14 14; mkTok TkOther ")" 14 15 14; mkTok TkOther ":" 14 16 14; mkTok TkOther "pass" 14 18 14; mkTok TkNewline "
" 14 22 14; mkTok TkOther "" 15 0 15])).
