(** Generated by tools/gen_samples.py: syntax trees of CPython's parser, for C78. *)
From Verif Require Import PyBase Utility AstKinds Ast.

Definition text_work : string := "class A:
  def f(self):
    class B:
      x = 1
    try:
      g()
    finally:
      try:
        pass
      finally:
        h(2)
".
Definition tree_work : pyval :=
  (VNode KModule 1%N None [("body", (VList [(VNode KClassDef 2%N (Some (1, 0)) [("name", (VStr "A")); ("bases", (VList [])); ("keywords", (VList [])); ("body", (VList [(VNode KFunctionDef 3%N (Some (2, 2)) [("name", (VStr "f")); ("args", (VNode Karguments 4%N None [("posonlyargs", (VList [])); ("args", (VList [(VNode Karg 5%N (Some (2, 8)) [("arg", (VStr "self")); ("annotation", VNone); ("type_comment", VNone)])])); ("vararg", VNone); ("kwonlyargs", (VList [])); ("kw_defaults", (VList [])); ("kwarg", VNone); ("defaults", (VList []))])); ("body", (VList [(VNode KClassDef 6%N (Some (3, 4)) [("name", (VStr "B")); ("bases", (VList [])); ("keywords", (VList [])); ("body", (VList [(VNode KAssign 7%N (Some (4, 6)) [("targets", (VList [(VNode KName 8%N (Some (4, 6)) [("id", (VStr "x")); ("ctx", (VNode KStore 9%N None []))])])); ("value", (VNode KConstant 10%N (Some (4, 10)) [("value", (VInt (1))); ("kind", VNone)])); ("type_comment", VNone)])])); ("decorator_list", (VList []))]); (VNode KTry 11%N (Some (5, 4)) [("body", (VList [(VNode KExpr 12%N (Some (6, 6)) [("value", (VNode KCall 13%N (Some (6, 6)) [("func", (VNode KName 14%N (Some (6, 6)) [("id", (VStr "g")); ("ctx", (VNode KLoad 15%N None []))])); ("args", (VList [])); ("keywords", (VList []))]))])])); ("handlers", (VList [])); ("orelse", (VList [])); ("finalbody", (VList [(VNode KTry 16%N (Some (8, 6)) [("body", (VList [(VNode KPass 17%N (Some (9, 8)) [])])); ("handlers", (VList [])); ("orelse", (VList [])); ("finalbody", (VList [(VNode KExpr 18%N (Some (11, 8)) [("value", (VNode KCall 19%N (Some (11, 8)) [("func", (VNode KName 20%N (Some (11, 8)) [("id", (VStr "h")); ("ctx", (VNode KLoad 21%N None []))])); ("args", (VList [(VNode KConstant 22%N (Some (11, 10)) [("value", (VInt (2))); ("kind", VNone)])])); ("keywords", (VList []))]))])]))])]))])])); ("decorator_list", (VList [])); ("returns", VNone); ("type_comment", VNone)])])); ("decorator_list", (VList []))])])); ("type_ignores", (VList []))]).

Definition text_no_work : string := "def f(x):
  for y in x:
    with y: print(y, [z for z in y])
".
Definition tree_no_work : pyval :=
  (VNode KModule 1%N None [("body", (VList [(VNode KFunctionDef 2%N (Some (1, 0)) [("name", (VStr "f")); ("args", (VNode Karguments 3%N None [("posonlyargs", (VList [])); ("args", (VList [(VNode Karg 4%N (Some (1, 6)) [("arg", (VStr "x")); ("annotation", VNone); ("type_comment", VNone)])])); ("vararg", VNone); ("kwonlyargs", (VList [])); ("kw_defaults", (VList [])); ("kwarg", VNone); ("defaults", (VList []))])); ("body", (VList [(VNode KFor 5%N (Some (2, 2)) [("target", (VNode KName 6%N (Some (2, 6)) [("id", (VStr "y")); ("ctx", (VNode KStore 7%N None []))])); ("iter", (VNode KName 8%N (Some (2, 11)) [("id", (VStr "x")); ("ctx", (VNode KLoad 9%N None []))])); ("body", (VList [(VNode KWith 10%N (Some (3, 4)) [("items", (VList [(VNode Kwithitem 11%N None [("context_expr", (VNode KName 12%N (Some (3, 9)) [("id", (VStr "y")); ("ctx", (VNode KLoad 13%N None []))])); ("optional_vars", VNone)])])); ("body", (VList [(VNode KExpr 14%N (Some (3, 12)) [("value", (VNode KCall 15%N (Some (3, 12)) [("func", (VNode KName 16%N (Some (3, 12)) [("id", (VStr "print")); ("ctx", (VNode KLoad 17%N None []))])); ("args", (VList [(VNode KName 18%N (Some (3, 18)) [("id", (VStr "y")); ("ctx", (VNode KLoad 19%N None []))]); (VNode KListComp 20%N (Some (3, 21)) [("elt", (VNode KName 21%N (Some (3, 22)) [("id", (VStr "z")); ("ctx", (VNode KLoad 22%N None []))])); ("generators", (VList [(VNode Kcomprehension 23%N None [("target", (VNode KName 24%N (Some (3, 28)) [("id", (VStr "z")); ("ctx", (VNode KStore 25%N None []))])); ("iter", (VNode KName 26%N (Some (3, 33)) [("id", (VStr "y")); ("ctx", (VNode KLoad 27%N None []))])); ("ifs", (VList [])); ("is_async", (VInt (0)))])]))])])); ("keywords", (VList []))]))])])); ("type_comment", VNone)])])); ("orelse", (VList [])); ("type_comment", VNone)])])); ("decorator_list", (VList [])); ("returns", VNone); ("type_comment", VNone)])])); ("type_ignores", (VList []))]).
